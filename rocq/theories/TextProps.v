(** The bytes of /repo/lib/DerivedNormalizationProps.txt (written by tools/mktext.py). *)
From Coq Require Import String.
From Verif Require Import Base Scan.
Local Open Scope list_scope.
Definition props_text_0 := "# DerivedNormalizationProps-13.0.0.txt
# Date: 2019-09-08, 23:31:08 GMT
# © 2019 Unicode®, Inc.
# Unicode and the Unicode Logo are registered trademarks of Unicode, Inc. in the U.S. and other countries.
# For terms of use, see http://www.unicode.org/terms_of_use.html
#
# Unicode Character Database
#   For documentation, see http://www.unicode.org/reports/tr44/

# ================================================

# Derived Property: FC_NFKC_Closure  (DEPRECATED as of Unicode 6.0.0)
#  Generated from computing: b = NFKC(Fold(a)); c = NFKC(Fold(b));
#  Then if (c != b) add the mapping from a to c to the set of
#  mappings that constitute the FC_NFKC_Closure list
#  Uses the full case folding from CaseFolding.txt, without the T option.

037A  ; FC_NFKC; 0020 03B9      # Lm  GREEK YPOGEGRAMMENI
03D2  ; FC_NFKC; 03C5           # L&  GREEK UPSILON WITH HOOK SYMBOL
03D3  ; FC_NFKC; 03CD           # L&  GREEK UPSILON WITH ACUTE AND HOOK SYMBOL
"%string.
Definition props_text_1 := "03D4  ; FC_NFKC; 03CB           # L&  GREEK UPSILON WITH DIAERESIS AND HOOK SYMBOL
03F2  ; FC_NFKC; 03C3           # L&  GREEK LUNATE SIGMA SYMBOL
03F9  ; FC_NFKC; 03C3           # L&  GREEK CAPITAL LUNATE SIGMA SYMBOL
1D2C  ; FC_NFKC; 0061           # Lm  MODIFIER LETTER CAPITAL A
1D2D  ; FC_NFKC; 00E6           # Lm  MODIFIER LETTER CAPITAL AE
1D2E  ; FC_NFKC; 0062           # Lm  MODIFIER LETTER CAPITAL B
1D30  ; FC_NFKC; 0064           # Lm  MODIFIER LETTER CAPITAL D
1D31  ; FC_NFKC; 0065           # Lm  MODIFIER LETTER CAPITAL E
1D32  ; FC_NFKC; 01DD           # Lm  MODIFIER LETTER CAPITAL REVERSED E
1D33  ; FC_NFKC; 0067           # Lm  MODIFIER LETTER CAPITAL G
1D34  ; FC_NFKC; 0068           # Lm  MODIFIER LETTER CAPITAL H
1D35  ; FC_NFKC; 0069           # Lm  MODIFIER LETTER CAPITAL I
1D36  ; FC_NFKC; 006A           # Lm  MODIFIER LETTER CAPITAL J
1D37  ; FC_NFKC; 006B           # Lm  MODIFIER LETTER CAPITAL K
1D38  ; FC_NFKC; 006C           # Lm  MODIFIER LETTER CAPITAL L
1D39  ; FC_NFKC; 006D           # Lm  MODIFIER LETTER CAPITAL M
1D3A  ; FC_NFKC; 006E           # Lm  MODIFIER LETTER CAPITAL N
1D3C  ; FC_NFKC; 006F           # Lm  MODIFIER LETTER CAPITAL O
1D3D  ; FC_NFKC; 0223           # Lm  MODIFIER LETTER CAPITAL OU
1D3E  ; FC_NFKC; 0070           # Lm  MODIFIER LETTER CAPITAL P
"%string.
Definition props_text_2 := "1D3F  ; FC_NFKC; 0072           # Lm  MODIFIER LETTER CAPITAL R
1D40  ; FC_NFKC; 0074           # Lm  MODIFIER LETTER CAPITAL T
1D41  ; FC_NFKC; 0075           # Lm  MODIFIER LETTER CAPITAL U
1D42  ; FC_NFKC; 0077           # Lm  MODIFIER LETTER CAPITAL W
20A8  ; FC_NFKC; 0072 0073      # Sc  RUPEE SIGN
2102  ; FC_NFKC; 0063           # L&  DOUBLE-STRUCK CAPITAL C
2103  ; FC_NFKC; 00B0 0063      # So  DEGREE CELSIUS
2107  ; FC_NFKC; 025B           # L&  EULER CONSTANT
2109  ; FC_NFKC; 00B0 0066      # So  DEGREE FAHRENHEIT
210B  ; FC_NFKC; 0068           # L&  SCRIPT CAPITAL H
210C  ; FC_NFKC; 0068           # L&  BLACK-LETTER CAPITAL H
210D  ; FC_NFKC; 0068           # L&  DOUBLE-STRUCK CAPITAL H
2110  ; FC_NFKC; 0069           # L&  SCRIPT CAPITAL I
2111  ; FC_NFKC; 0069           # L&  BLACK-LETTER CAPITAL I
2112  ; FC_NFKC; 006C           # L&  SCRIPT CAPITAL L
2115  ; FC_NFKC; 006E           # L&  DOUBLE-STRUCK CAPITAL N
2116  ; FC_NFKC; 006E 006F      # So  NUMERO SIGN
2119  ; FC_NFKC; 0070           # L&  DOUBLE-STRUCK CAPITAL P
211A  ; FC_NFKC; 0071           # L&  DOUBLE-STRUCK CAPITAL Q
211B  ; FC_NFKC; 0072           # L&  SCRIPT CAPITAL R
"%string.
Definition props_text_3 := "211C  ; FC_NFKC; 0072           # L&  BLACK-LETTER CAPITAL R
211D  ; FC_NFKC; 0072           # L&  DOUBLE-STRUCK CAPITAL R
2120  ; FC_NFKC; 0073 006D      # So  SERVICE MARK
2121  ; FC_NFKC; 0074 0065 006C # So  TELEPHONE SIGN
2122  ; FC_NFKC; 0074 006D      # So  TRADE MARK SIGN
2124  ; FC_NFKC; 007A           # L&  DOUBLE-STRUCK CAPITAL Z
2128  ; FC_NFKC; 007A           # L&  BLACK-LETTER CAPITAL Z
212C  ; FC_NFKC; 0062           # L&  SCRIPT CAPITAL B
212D  ; FC_NFKC; 0063           # L&  BLACK-LETTER CAPITAL C
2130  ; FC_NFKC; 0065           # L&  SCRIPT CAPITAL E
2131  ; FC_NFKC; 0066           # L&  SCRIPT CAPITAL F
2133  ; FC_NFKC; 006D           # L&  SCRIPT CAPITAL M
213B  ; FC_NFKC; 0066 0061 0078 # So  FACSIMILE SIGN
213E  ; FC_NFKC; 03B3           # L&  DOUBLE-STRUCK CAPITAL GAMMA
213F  ; FC_NFKC; 03C0           # L&  DOUBLE-STRUCK CAPITAL PI
2145  ; FC_NFKC; 0064           # L&  DOUBLE-STRUCK ITALIC CAPITAL D
2C7D  ; FC_NFKC; 0076           # Lm  MODIFIER LETTER CAPITAL V
3250  ; FC_NFKC; 0070 0074 0065 # So  PARTNERSHIP SIGN
32CC  ; FC_NFKC; 0068 0067      # So  SQUARE HG
32CE  ; FC_NFKC; 0065 0076      # So  SQUARE EV
"%string.
Definition props_text_4 := "32CF  ; FC_NFKC; 006C 0074 0064 # So  LIMITED LIABILITY SIGN
3371  ; FC_NFKC; 0068 0070 0061 # So  SQUARE HPA
3373  ; FC_NFKC; 0061 0075      # So  SQUARE AU
3375  ; FC_NFKC; 006F 0076      # So  SQUARE OV
337A  ; FC_NFKC; 0069 0075      # So  SQUARE IU
3380  ; FC_NFKC; 0070 0061      # So  SQUARE PA AMPS
3381  ; FC_NFKC; 006E 0061      # So  SQUARE NA
3382  ; FC_NFKC; 03BC 0061      # So  SQUARE MU A
3383  ; FC_NFKC; 006D 0061      # So  SQUARE MA
3384  ; FC_NFKC; 006B 0061      # So  SQUARE KA
3385  ; FC_NFKC; 006B 0062      # So  SQUARE KB
3386  ; FC_NFKC; 006D 0062      # So  SQUARE MB
3387  ; FC_NFKC; 0067 0062      # So  SQUARE GB
338A  ; FC_NFKC; 0070 0066      # So  SQUARE PF
338B  ; FC_NFKC; 006E 0066      # So  SQUARE NF
338C  ; FC_NFKC; 03BC 0066      # So  SQUARE MU F
3390  ; FC_NFKC; 0068 007A      # So  SQUARE HZ
3391  ; FC_NFKC; 006B 0068 007A # So  SQUARE KHZ
3392  ; FC_NFKC; 006D 0068 007A # So  SQUARE MHZ
3393  ; FC_NFKC; 0067 0068 007A # So  SQUARE GHZ
"%string.
Definition props_text_5 := "3394  ; FC_NFKC; 0074 0068 007A # So  SQUARE THZ
33A9  ; FC_NFKC; 0070 0061      # So  SQUARE PA
33AA  ; FC_NFKC; 006B 0070 0061 # So  SQUARE KPA
33AB  ; FC_NFKC; 006D 0070 0061 # So  SQUARE MPA
33AC  ; FC_NFKC; 0067 0070 0061 # So  SQUARE GPA
33B4  ; FC_NFKC; 0070 0076      # So  SQUARE PV
33B5  ; FC_NFKC; 006E 0076      # So  SQUARE NV
33B6  ; FC_NFKC; 03BC 0076      # So  SQUARE MU V
33B7  ; FC_NFKC; 006D 0076      # So  SQUARE MV
33B8  ; FC_NFKC; 006B 0076      # So  SQUARE KV
33B9  ; FC_NFKC; 006D 0076      # So  SQUARE MV MEGA
33BA  ; FC_NFKC; 0070 0077      # So  SQUARE PW
33BB  ; FC_NFKC; 006E 0077      # So  SQUARE NW
33BC  ; FC_NFKC; 03BC 0077      # So  SQUARE MU W
33BD  ; FC_NFKC; 006D 0077      # So  SQUARE MW
33BE  ; FC_NFKC; 006B 0077      # So  SQUARE KW
33BF  ; FC_NFKC; 006D 0077      # So  SQUARE MW MEGA
33C0  ; FC_NFKC; 006B 03C9      # So  SQUARE K OHM
33C1  ; FC_NFKC; 006D 03C9      # So  SQUARE M OHM
33C3  ; FC_NFKC; 0062 0071      # So  SQUARE BQ
"%string.
Definition props_text_6 := "33C6  ; FC_NFKC; 0063 2215 006B 0067 #So SQUARE C OVER KG
33C7  ; FC_NFKC; 0063 006F 002E # So  SQUARE CO
33C8  ; FC_NFKC; 0064 0062      # So  SQUARE DB
33C9  ; FC_NFKC; 0067 0079      # So  SQUARE GY
33CB  ; FC_NFKC; 0068 0070      # So  SQUARE HP
33CD  ; FC_NFKC; 006B 006B      # So  SQUARE KK
33CE  ; FC_NFKC; 006B 006D      # So  SQUARE KM CAPITAL
33D7  ; FC_NFKC; 0070 0068      # So  SQUARE PH
33D9  ; FC_NFKC; 0070 0070 006D # So  SQUARE PPM
33DA  ; FC_NFKC; 0070 0072      # So  SQUARE PR
33DC  ; FC_NFKC; 0073 0076      # So  SQUARE SV
33DD  ; FC_NFKC; 0077 0062      # So  SQUARE WB
33DE  ; FC_NFKC; 0076 2215 006D # So  SQUARE V OVER M
33DF  ; FC_NFKC; 0061 2215 006D # So  SQUARE A OVER M
A7F8  ; FC_NFKC; 0127           # Lm  MODIFIER LETTER CAPITAL H WITH STROKE
1D400 ; FC_NFKC; 0061           # L&  MATHEMATICAL BOLD CAPITAL A
1D401 ; FC_NFKC; 0062           # L&  MATHEMATICAL BOLD CAPITAL B
1D402 ; FC_NFKC; 0063           # L&  MATHEMATICAL BOLD CAPITAL C
1D403 ; FC_NFKC; 0064           # L&  MATHEMATICAL BOLD CAPITAL D
1D404 ; FC_NFKC; 0065           # L&  MATHEMATICAL BOLD CAPITAL E
"%string.
Definition props_text_7 := "1D405 ; FC_NFKC; 0066           # L&  MATHEMATICAL BOLD CAPITAL F
1D406 ; FC_NFKC; 0067           # L&  MATHEMATICAL BOLD CAPITAL G
1D407 ; FC_NFKC; 0068           # L&  MATHEMATICAL BOLD CAPITAL H
1D408 ; FC_NFKC; 0069           # L&  MATHEMATICAL BOLD CAPITAL I
1D409 ; FC_NFKC; 006A           # L&  MATHEMATICAL BOLD CAPITAL J
1D40A ; FC_NFKC; 006B           # L&  MATHEMATICAL BOLD CAPITAL K
1D40B ; FC_NFKC; 006C           # L&  MATHEMATICAL BOLD CAPITAL L
1D40C ; FC_NFKC; 006D           # L&  MATHEMATICAL BOLD CAPITAL M
1D40D ; FC_NFKC; 006E           # L&  MATHEMATICAL BOLD CAPITAL N
1D40E ; FC_NFKC; 006F           # L&  MATHEMATICAL BOLD CAPITAL O
1D40F ; FC_NFKC; 0070           # L&  MATHEMATICAL BOLD CAPITAL P
1D410 ; FC_NFKC; 0071           # L&  MATHEMATICAL BOLD CAPITAL Q
1D411 ; FC_NFKC; 0072           # L&  MATHEMATICAL BOLD CAPITAL R
1D412 ; FC_NFKC; 0073           # L&  MATHEMATICAL BOLD CAPITAL S
1D413 ; FC_NFKC; 0074           # L&  MATHEMATICAL BOLD CAPITAL T
1D414 ; FC_NFKC; 0075           # L&  MATHEMATICAL BOLD CAPITAL U
1D415 ; FC_NFKC; 0076           # L&  MATHEMATICAL BOLD CAPITAL V
1D416 ; FC_NFKC; 0077           # L&  MATHEMATICAL BOLD CAPITAL W
1D417 ; FC_NFKC; 0078           # L&  MATHEMATICAL BOLD CAPITAL X
1D418 ; FC_NFKC; 0079           # L&  MATHEMATICAL BOLD CAPITAL Y
"%string.
Definition props_text_8 := "1D419 ; FC_NFKC; 007A           # L&  MATHEMATICAL BOLD CAPITAL Z
1D434 ; FC_NFKC; 0061           # L&  MATHEMATICAL ITALIC CAPITAL A
1D435 ; FC_NFKC; 0062           # L&  MATHEMATICAL ITALIC CAPITAL B
1D436 ; FC_NFKC; 0063           # L&  MATHEMATICAL ITALIC CAPITAL C
1D437 ; FC_NFKC; 0064           # L&  MATHEMATICAL ITALIC CAPITAL D
1D438 ; FC_NFKC; 0065           # L&  MATHEMATICAL ITALIC CAPITAL E
1D439 ; FC_NFKC; 0066           # L&  MATHEMATICAL ITALIC CAPITAL F
1D43A ; FC_NFKC; 0067           # L&  MATHEMATICAL ITALIC CAPITAL G
1D43B ; FC_NFKC; 0068           # L&  MATHEMATICAL ITALIC CAPITAL H
1D43C ; FC_NFKC; 0069           # L&  MATHEMATICAL ITALIC CAPITAL I
1D43D ; FC_NFKC; 006A           # L&  MATHEMATICAL ITALIC CAPITAL J
1D43E ; FC_NFKC; 006B           # L&  MATHEMATICAL ITALIC CAPITAL K
1D43F ; FC_NFKC; 006C           # L&  MATHEMATICAL ITALIC CAPITAL L
1D440 ; FC_NFKC; 006D           # L&  MATHEMATICAL ITALIC CAPITAL M
1D441 ; FC_NFKC; 006E           # L&  MATHEMATICAL ITALIC CAPITAL N
1D442 ; FC_NFKC; 006F           # L&  MATHEMATICAL ITALIC CAPITAL O
1D443 ; FC_NFKC; 0070           # L&  MATHEMATICAL ITALIC CAPITAL P
1D444 ; FC_NFKC; 0071           # L&  MATHEMATICAL ITALIC CAPITAL Q
1D445 ; FC_NFKC; 0072           # L&  MATHEMATICAL ITALIC CAPITAL R
1D446 ; FC_NFKC; 0073           # L&  MATHEMATICAL ITALIC CAPITAL S
"%string.
Definition props_text_9 := "1D447 ; FC_NFKC; 0074           # L&  MATHEMATICAL ITALIC CAPITAL T
1D448 ; FC_NFKC; 0075           # L&  MATHEMATICAL ITALIC CAPITAL U
1D449 ; FC_NFKC; 0076           # L&  MATHEMATICAL ITALIC CAPITAL V
1D44A ; FC_NFKC; 0077           # L&  MATHEMATICAL ITALIC CAPITAL W
1D44B ; FC_NFKC; 0078           # L&  MATHEMATICAL ITALIC CAPITAL X
1D44C ; FC_NFKC; 0079           # L&  MATHEMATICAL ITALIC CAPITAL Y
1D44D ; FC_NFKC; 007A           # L&  MATHEMATICAL ITALIC CAPITAL Z
1D468 ; FC_NFKC; 0061           # L&  MATHEMATICAL BOLD ITALIC CAPITAL A
1D469 ; FC_NFKC; 0062           # L&  MATHEMATICAL BOLD ITALIC CAPITAL B
1D46A ; FC_NFKC; 0063           # L&  MATHEMATICAL BOLD ITALIC CAPITAL C
1D46B ; FC_NFKC; 0064           # L&  MATHEMATICAL BOLD ITALIC CAPITAL D
1D46C ; FC_NFKC; 0065           # L&  MATHEMATICAL BOLD ITALIC CAPITAL E
1D46D ; FC_NFKC; 0066           # L&  MATHEMATICAL BOLD ITALIC CAPITAL F
1D46E ; FC_NFKC; 0067           # L&  MATHEMATICAL BOLD ITALIC CAPITAL G
1D46F ; FC_NFKC; 0068           # L&  MATHEMATICAL BOLD ITALIC CAPITAL H
1D470 ; FC_NFKC; 0069           # L&  MATHEMATICAL BOLD ITALIC CAPITAL I
1D471 ; FC_NFKC; 006A           # L&  MATHEMATICAL BOLD ITALIC CAPITAL J
1D472 ; FC_NFKC; 006B           # L&  MATHEMATICAL BOLD ITALIC CAPITAL K
1D473 ; FC_NFKC; 006C           # L&  MATHEMATICAL BOLD ITALIC CAPITAL L
1D474 ; FC_NFKC; 006D           # L&  MATHEMATICAL BOLD ITALIC CAPITAL M
"%string.
Definition props_text_10 := "1D475 ; FC_NFKC; 006E           # L&  MATHEMATICAL BOLD ITALIC CAPITAL N
1D476 ; FC_NFKC; 006F           # L&  MATHEMATICAL BOLD ITALIC CAPITAL O
1D477 ; FC_NFKC; 0070           # L&  MATHEMATICAL BOLD ITALIC CAPITAL P
1D478 ; FC_NFKC; 0071           # L&  MATHEMATICAL BOLD ITALIC CAPITAL Q
1D479 ; FC_NFKC; 0072           # L&  MATHEMATICAL BOLD ITALIC CAPITAL R
1D47A ; FC_NFKC; 0073           # L&  MATHEMATICAL BOLD ITALIC CAPITAL S
1D47B ; FC_NFKC; 0074           # L&  MATHEMATICAL BOLD ITALIC CAPITAL T
1D47C ; FC_NFKC; 0075           # L&  MATHEMATICAL BOLD ITALIC CAPITAL U
1D47D ; FC_NFKC; 0076           # L&  MATHEMATICAL BOLD ITALIC CAPITAL V
1D47E ; FC_NFKC; 0077           # L&  MATHEMATICAL BOLD ITALIC CAPITAL W
1D47F ; FC_NFKC; 0078           # L&  MATHEMATICAL BOLD ITALIC CAPITAL X
1D480 ; FC_NFKC; 0079           # L&  MATHEMATICAL BOLD ITALIC CAPITAL Y
1D481 ; FC_NFKC; 007A           # L&  MATHEMATICAL BOLD ITALIC CAPITAL Z
1D49C ; FC_NFKC; 0061           # L&  MATHEMATICAL SCRIPT CAPITAL A
1D49E ; FC_NFKC; 0063           # L&  MATHEMATICAL SCRIPT CAPITAL C
1D49F ; FC_NFKC; 0064           # L&  MATHEMATICAL SCRIPT CAPITAL D
1D4A2 ; FC_NFKC; 0067           # L&  MATHEMATICAL SCRIPT CAPITAL G
1D4A5 ; FC_NFKC; 006A           # L&  MATHEMATICAL SCRIPT CAPITAL J
1D4A6 ; FC_NFKC; 006B           # L&  MATHEMATICAL SCRIPT CAPITAL K
1D4A9 ; FC_NFKC; 006E           # L&  MATHEMATICAL SCRIPT CAPITAL N
"%string.
Definition props_text_11 := "1D4AA ; FC_NFKC; 006F           # L&  MATHEMATICAL SCRIPT CAPITAL O
1D4AB ; FC_NFKC; 0070           # L&  MATHEMATICAL SCRIPT CAPITAL P
1D4AC ; FC_NFKC; 0071           # L&  MATHEMATICAL SCRIPT CAPITAL Q
1D4AE ; FC_NFKC; 0073           # L&  MATHEMATICAL SCRIPT CAPITAL S
1D4AF ; FC_NFKC; 0074           # L&  MATHEMATICAL SCRIPT CAPITAL T
1D4B0 ; FC_NFKC; 0075           # L&  MATHEMATICAL SCRIPT CAPITAL U
1D4B1 ; FC_NFKC; 0076           # L&  MATHEMATICAL SCRIPT CAPITAL V
1D4B2 ; FC_NFKC; 0077           # L&  MATHEMATICAL SCRIPT CAPITAL W
1D4B3 ; FC_NFKC; 0078           # L&  MATHEMATICAL SCRIPT CAPITAL X
1D4B4 ; FC_NFKC; 0079           # L&  MATHEMATICAL SCRIPT CAPITAL Y
1D4B5 ; FC_NFKC; 007A           # L&  MATHEMATICAL SCRIPT CAPITAL Z
1D4D0 ; FC_NFKC; 0061           # L&  MATHEMATICAL BOLD SCRIPT CAPITAL A
1D4D1 ; FC_NFKC; 0062           # L&  MATHEMATICAL BOLD SCRIPT CAPITAL B
1D4D2 ; FC_NFKC; 0063           # L&  MATHEMATICAL BOLD SCRIPT CAPITAL C
1D4D3 ; FC_NFKC; 0064           # L&  MATHEMATICAL BOLD SCRIPT CAPITAL D
1D4D4 ; FC_NFKC; 0065           # L&  MATHEMATICAL BOLD SCRIPT CAPITAL E
1D4D5 ; FC_NFKC; 0066           # L&  MATHEMATICAL BOLD SCRIPT CAPITAL F
1D4D6 ; FC_NFKC; 0067           # L&  MATHEMATICAL BOLD SCRIPT CAPITAL G
1D4D7 ; FC_NFKC; 0068           # L&  MATHEMATICAL BOLD SCRIPT CAPITAL H
1D4D8 ; FC_NFKC; 0069           # L&  MATHEMATICAL BOLD SCRIPT CAPITAL I
"%string.
Definition props_text_12 := "1D4D9 ; FC_NFKC; 006A           # L&  MATHEMATICAL BOLD SCRIPT CAPITAL J
1D4DA ; FC_NFKC; 006B           # L&  MATHEMATICAL BOLD SCRIPT CAPITAL K
1D4DB ; FC_NFKC; 006C           # L&  MATHEMATICAL BOLD SCRIPT CAPITAL L
1D4DC ; FC_NFKC; 006D           # L&  MATHEMATICAL BOLD SCRIPT CAPITAL M
1D4DD ; FC_NFKC; 006E           # L&  MATHEMATICAL BOLD SCRIPT CAPITAL N
1D4DE ; FC_NFKC; 006F           # L&  MATHEMATICAL BOLD SCRIPT CAPITAL O
1D4DF ; FC_NFKC; 0070           # L&  MATHEMATICAL BOLD SCRIPT CAPITAL P
1D4E0 ; FC_NFKC; 0071           # L&  MATHEMATICAL BOLD SCRIPT CAPITAL Q
1D4E1 ; FC_NFKC; 0072           # L&  MATHEMATICAL BOLD SCRIPT CAPITAL R
1D4E2 ; FC_NFKC; 0073           # L&  MATHEMATICAL BOLD SCRIPT CAPITAL S
1D4E3 ; FC_NFKC; 0074           # L&  MATHEMATICAL BOLD SCRIPT CAPITAL T
1D4E4 ; FC_NFKC; 0075           # L&  MATHEMATICAL BOLD SCRIPT CAPITAL U
1D4E5 ; FC_NFKC; 0076           # L&  MATHEMATICAL BOLD SCRIPT CAPITAL V
1D4E6 ; FC_NFKC; 0077           # L&  MATHEMATICAL BOLD SCRIPT CAPITAL W
1D4E7 ; FC_NFKC; 0078           # L&  MATHEMATICAL BOLD SCRIPT CAPITAL X
1D4E8 ; FC_NFKC; 0079           # L&  MATHEMATICAL BOLD SCRIPT CAPITAL Y
1D4E9 ; FC_NFKC; 007A           # L&  MATHEMATICAL BOLD SCRIPT CAPITAL Z
1D504 ; FC_NFKC; 0061           # L&  MATHEMATICAL FRAKTUR CAPITAL A
1D505 ; FC_NFKC; 0062           # L&  MATHEMATICAL FRAKTUR CAPITAL B
1D507 ; FC_NFKC; 0064           # L&  MATHEMATICAL FRAKTUR CAPITAL D
"%string.
Definition props_text_13 := "1D508 ; FC_NFKC; 0065           # L&  MATHEMATICAL FRAKTUR CAPITAL E
1D509 ; FC_NFKC; 0066           # L&  MATHEMATICAL FRAKTUR CAPITAL F
1D50A ; FC_NFKC; 0067           # L&  MATHEMATICAL FRAKTUR CAPITAL G
1D50D ; FC_NFKC; 006A           # L&  MATHEMATICAL FRAKTUR CAPITAL J
1D50E ; FC_NFKC; 006B           # L&  MATHEMATICAL FRAKTUR CAPITAL K
1D50F ; FC_NFKC; 006C           # L&  MATHEMATICAL FRAKTUR CAPITAL L
1D510 ; FC_NFKC; 006D           # L&  MATHEMATICAL FRAKTUR CAPITAL M
1D511 ; FC_NFKC; 006E           # L&  MATHEMATICAL FRAKTUR CAPITAL N
1D512 ; FC_NFKC; 006F           # L&  MATHEMATICAL FRAKTUR CAPITAL O
1D513 ; FC_NFKC; 0070           # L&  MATHEMATICAL FRAKTUR CAPITAL P
1D514 ; FC_NFKC; 0071           # L&  MATHEMATICAL FRAKTUR CAPITAL Q
1D516 ; FC_NFKC; 0073           # L&  MATHEMATICAL FRAKTUR CAPITAL S
1D517 ; FC_NFKC; 0074           # L&  MATHEMATICAL FRAKTUR CAPITAL T
1D518 ; FC_NFKC; 0075           # L&  MATHEMATICAL FRAKTUR CAPITAL U
1D519 ; FC_NFKC; 0076           # L&  MATHEMATICAL FRAKTUR CAPITAL V
1D51A ; FC_NFKC; 0077           # L&  MATHEMATICAL FRAKTUR CAPITAL W
1D51B ; FC_NFKC; 0078           # L&  MATHEMATICAL FRAKTUR CAPITAL X
1D51C ; FC_NFKC; 0079           # L&  MATHEMATICAL FRAKTUR CAPITAL Y
1D538 ; FC_NFKC; 0061           # L&  MATHEMATICAL DOUBLE-STRUCK CAPITAL A
1D539 ; FC_NFKC; 0062           # L&  MATHEMATICAL DOUBLE-STRUCK CAPITAL B
"%string.
Definition props_text_14 := "1D53B ; FC_NFKC; 0064           # L&  MATHEMATICAL DOUBLE-STRUCK CAPITAL D
1D53C ; FC_NFKC; 0065           # L&  MATHEMATICAL DOUBLE-STRUCK CAPITAL E
1D53D ; FC_NFKC; 0066           # L&  MATHEMATICAL DOUBLE-STRUCK CAPITAL F
1D53E ; FC_NFKC; 0067           # L&  MATHEMATICAL DOUBLE-STRUCK CAPITAL G
1D540 ; FC_NFKC; 0069           # L&  MATHEMATICAL DOUBLE-STRUCK CAPITAL I
1D541 ; FC_NFKC; 006A           # L&  MATHEMATICAL DOUBLE-STRUCK CAPITAL J
1D542 ; FC_NFKC; 006B           # L&  MATHEMATICAL DOUBLE-STRUCK CAPITAL K
1D543 ; FC_NFKC; 006C           # L&  MATHEMATICAL DOUBLE-STRUCK CAPITAL L
1D544 ; FC_NFKC; 006D           # L&  MATHEMATICAL DOUBLE-STRUCK CAPITAL M
1D546 ; FC_NFKC; 006F           # L&  MATHEMATICAL DOUBLE-STRUCK CAPITAL O
1D54A ; FC_NFKC; 0073           # L&  MATHEMATICAL DOUBLE-STRUCK CAPITAL S
1D54B ; FC_NFKC; 0074           # L&  MATHEMATICAL DOUBLE-STRUCK CAPITAL T
1D54C ; FC_NFKC; 0075           # L&  MATHEMATICAL DOUBLE-STRUCK CAPITAL U
1D54D ; FC_NFKC; 0076           # L&  MATHEMATICAL DOUBLE-STRUCK CAPITAL V
1D54E ; FC_NFKC; 0077           # L&  MATHEMATICAL DOUBLE-STRUCK CAPITAL W
1D54F ; FC_NFKC; 0078           # L&  MATHEMATICAL DOUBLE-STRUCK CAPITAL X
1D550 ; FC_NFKC; 0079           # L&  MATHEMATICAL DOUBLE-STRUCK CAPITAL Y
1D56C ; FC_NFKC; 0061           # L&  MATHEMATICAL BOLD FRAKTUR CAPITAL A
1D56D ; FC_NFKC; 0062           # L&  MATHEMATICAL BOLD FRAKTUR CAPITAL B
1D56E ; FC_NFKC; 0063           # L&  MATHEMATICAL BOLD FRAKTUR CAPITAL C
"%string.
Definition props_text_15 := "1D56F ; FC_NFKC; 0064           # L&  MATHEMATICAL BOLD FRAKTUR CAPITAL D
1D570 ; FC_NFKC; 0065           # L&  MATHEMATICAL BOLD FRAKTUR CAPITAL E
1D571 ; FC_NFKC; 0066           # L&  MATHEMATICAL BOLD FRAKTUR CAPITAL F
1D572 ; FC_NFKC; 0067           # L&  MATHEMATICAL BOLD FRAKTUR CAPITAL G
1D573 ; FC_NFKC; 0068           # L&  MATHEMATICAL BOLD FRAKTUR CAPITAL H
1D574 ; FC_NFKC; 0069           # L&  MATHEMATICAL BOLD FRAKTUR CAPITAL I
1D575 ; FC_NFKC; 006A           # L&  MATHEMATICAL BOLD FRAKTUR CAPITAL J
1D576 ; FC_NFKC; 006B           # L&  MATHEMATICAL BOLD FRAKTUR CAPITAL K
1D577 ; FC_NFKC; 006C           # L&  MATHEMATICAL BOLD FRAKTUR CAPITAL L
1D578 ; FC_NFKC; 006D           # L&  MATHEMATICAL BOLD FRAKTUR CAPITAL M
1D579 ; FC_NFKC; 006E           # L&  MATHEMATICAL BOLD FRAKTUR CAPITAL N
1D57A ; FC_NFKC; 006F           # L&  MATHEMATICAL BOLD FRAKTUR CAPITAL O
1D57B ; FC_NFKC; 0070           # L&  MATHEMATICAL BOLD FRAKTUR CAPITAL P
1D57C ; FC_NFKC; 0071           # L&  MATHEMATICAL BOLD FRAKTUR CAPITAL Q
1D57D ; FC_NFKC; 0072           # L&  MATHEMATICAL BOLD FRAKTUR CAPITAL R
1D57E ; FC_NFKC; 0073           # L&  MATHEMATICAL BOLD FRAKTUR CAPITAL S
1D57F ; FC_NFKC; 0074           # L&  MATHEMATICAL BOLD FRAKTUR CAPITAL T
1D580 ; FC_NFKC; 0075           # L&  MATHEMATICAL BOLD FRAKTUR CAPITAL U
1D581 ; FC_NFKC; 0076           # L&  MATHEMATICAL BOLD FRAKTUR CAPITAL V
1D582 ; FC_NFKC; 0077           # L&  MATHEMATICAL BOLD FRAKTUR CAPITAL W
"%string.
Definition props_text_16 := "1D583 ; FC_NFKC; 0078           # L&  MATHEMATICAL BOLD FRAKTUR CAPITAL X
1D584 ; FC_NFKC; 0079           # L&  MATHEMATICAL BOLD FRAKTUR CAPITAL Y
1D585 ; FC_NFKC; 007A           # L&  MATHEMATICAL BOLD FRAKTUR CAPITAL Z
1D5A0 ; FC_NFKC; 0061           # L&  MATHEMATICAL SANS-SERIF CAPITAL A
1D5A1 ; FC_NFKC; 0062           # L&  MATHEMATICAL SANS-SERIF CAPITAL B
1D5A2 ; FC_NFKC; 0063           # L&  MATHEMATICAL SANS-SERIF CAPITAL C
1D5A3 ; FC_NFKC; 0064           # L&  MATHEMATICAL SANS-SERIF CAPITAL D
1D5A4 ; FC_NFKC; 0065           # L&  MATHEMATICAL SANS-SERIF CAPITAL E
1D5A5 ; FC_NFKC; 0066           # L&  MATHEMATICAL SANS-SERIF CAPITAL F
1D5A6 ; FC_NFKC; 0067           # L&  MATHEMATICAL SANS-SERIF CAPITAL G
1D5A7 ; FC_NFKC; 0068           # L&  MATHEMATICAL SANS-SERIF CAPITAL H
1D5A8 ; FC_NFKC; 0069           # L&  MATHEMATICAL SANS-SERIF CAPITAL I
1D5A9 ; FC_NFKC; 006A           # L&  MATHEMATICAL SANS-SERIF CAPITAL J
1D5AA ; FC_NFKC; 006B           # L&  MATHEMATICAL SANS-SERIF CAPITAL K
1D5AB ; FC_NFKC; 006C           # L&  MATHEMATICAL SANS-SERIF CAPITAL L
1D5AC ; FC_NFKC; 006D           # L&  MATHEMATICAL SANS-SERIF CAPITAL M
1D5AD ; FC_NFKC; 006E           # L&  MATHEMATICAL SANS-SERIF CAPITAL N
1D5AE ; FC_NFKC; 006F           # L&  MATHEMATICAL SANS-SERIF CAPITAL O
1D5AF ; FC_NFKC; 0070           # L&  MATHEMATICAL SANS-SERIF CAPITAL P
1D5B0 ; FC_NFKC; 0071           # L&  MATHEMATICAL SANS-SERIF CAPITAL Q
"%string.
Definition props_text_17 := "1D5B1 ; FC_NFKC; 0072           # L&  MATHEMATICAL SANS-SERIF CAPITAL R
1D5B2 ; FC_NFKC; 0073           # L&  MATHEMATICAL SANS-SERIF CAPITAL S
1D5B3 ; FC_NFKC; 0074           # L&  MATHEMATICAL SANS-SERIF CAPITAL T
1D5B4 ; FC_NFKC; 0075           # L&  MATHEMATICAL SANS-SERIF CAPITAL U
1D5B5 ; FC_NFKC; 0076           # L&  MATHEMATICAL SANS-SERIF CAPITAL V
1D5B6 ; FC_NFKC; 0077           # L&  MATHEMATICAL SANS-SERIF CAPITAL W
1D5B7 ; FC_NFKC; 0078           # L&  MATHEMATICAL SANS-SERIF CAPITAL X
1D5B8 ; FC_NFKC; 0079           # L&  MATHEMATICAL SANS-SERIF CAPITAL Y
1D5B9 ; FC_NFKC; 007A           # L&  MATHEMATICAL SANS-SERIF CAPITAL Z
1D5D4 ; FC_NFKC; 0061           # L&  MATHEMATICAL SANS-SERIF BOLD CAPITAL A
1D5D5 ; FC_NFKC; 0062           # L&  MATHEMATICAL SANS-SERIF BOLD CAPITAL B
1D5D6 ; FC_NFKC; 0063           # L&  MATHEMATICAL SANS-SERIF BOLD CAPITAL C
1D5D7 ; FC_NFKC; 0064           # L&  MATHEMATICAL SANS-SERIF BOLD CAPITAL D
1D5D8 ; FC_NFKC; 0065           # L&  MATHEMATICAL SANS-SERIF BOLD CAPITAL E
1D5D9 ; FC_NFKC; 0066           # L&  MATHEMATICAL SANS-SERIF BOLD CAPITAL F
1D5DA ; FC_NFKC; 0067           # L&  MATHEMATICAL SANS-SERIF BOLD CAPITAL G
1D5DB ; FC_NFKC; 0068           # L&  MATHEMATICAL SANS-SERIF BOLD CAPITAL H
1D5DC ; FC_NFKC; 0069           # L&  MATHEMATICAL SANS-SERIF BOLD CAPITAL I
1D5DD ; FC_NFKC; 006A           # L&  MATHEMATICAL SANS-SERIF BOLD CAPITAL J
1D5DE ; FC_NFKC; 006B           # L&  MATHEMATICAL SANS-SERIF BOLD CAPITAL K
"%string.
Definition props_text_18 := "1D5DF ; FC_NFKC; 006C           # L&  MATHEMATICAL SANS-SERIF BOLD CAPITAL L
1D5E0 ; FC_NFKC; 006D           # L&  MATHEMATICAL SANS-SERIF BOLD CAPITAL M
1D5E1 ; FC_NFKC; 006E           # L&  MATHEMATICAL SANS-SERIF BOLD CAPITAL N
1D5E2 ; FC_NFKC; 006F           # L&  MATHEMATICAL SANS-SERIF BOLD CAPITAL O
1D5E3 ; FC_NFKC; 0070           # L&  MATHEMATICAL SANS-SERIF BOLD CAPITAL P
1D5E4 ; FC_NFKC; 0071           # L&  MATHEMATICAL SANS-SERIF BOLD CAPITAL Q
1D5E5 ; FC_NFKC; 0072           # L&  MATHEMATICAL SANS-SERIF BOLD CAPITAL R
1D5E6 ; FC_NFKC; 0073           # L&  MATHEMATICAL SANS-SERIF BOLD CAPITAL S
1D5E7 ; FC_NFKC; 0074           # L&  MATHEMATICAL SANS-SERIF BOLD CAPITAL T
1D5E8 ; FC_NFKC; 0075           # L&  MATHEMATICAL SANS-SERIF BOLD CAPITAL U
1D5E9 ; FC_NFKC; 0076           # L&  MATHEMATICAL SANS-SERIF BOLD CAPITAL V
1D5EA ; FC_NFKC; 0077           # L&  MATHEMATICAL SANS-SERIF BOLD CAPITAL W
1D5EB ; FC_NFKC; 0078           # L&  MATHEMATICAL SANS-SERIF BOLD CAPITAL X
1D5EC ; FC_NFKC; 0079           # L&  MATHEMATICAL SANS-SERIF BOLD CAPITAL Y
1D5ED ; FC_NFKC; 007A           # L&  MATHEMATICAL SANS-SERIF BOLD CAPITAL Z
1D608 ; FC_NFKC; 0061           # L&  MATHEMATICAL SANS-SERIF ITALIC CAPITAL A
1D609 ; FC_NFKC; 0062           # L&  MATHEMATICAL SANS-SERIF ITALIC CAPITAL B
1D60A ; FC_NFKC; 0063           # L&  MATHEMATICAL SANS-SERIF ITALIC CAPITAL C
1D60B ; FC_NFKC; 0064           # L&  MATHEMATICAL SANS-SERIF ITALIC CAPITAL D
1D60C ; FC_NFKC; 0065           # L&  MATHEMATICAL SANS-SERIF ITALIC CAPITAL E
"%string.
Definition props_text_19 := "1D60D ; FC_NFKC; 0066           # L&  MATHEMATICAL SANS-SERIF ITALIC CAPITAL F
1D60E ; FC_NFKC; 0067           # L&  MATHEMATICAL SANS-SERIF ITALIC CAPITAL G
1D60F ; FC_NFKC; 0068           # L&  MATHEMATICAL SANS-SERIF ITALIC CAPITAL H
1D610 ; FC_NFKC; 0069           # L&  MATHEMATICAL SANS-SERIF ITALIC CAPITAL I
1D611 ; FC_NFKC; 006A           # L&  MATHEMATICAL SANS-SERIF ITALIC CAPITAL J
1D612 ; FC_NFKC; 006B           # L&  MATHEMATICAL SANS-SERIF ITALIC CAPITAL K
1D613 ; FC_NFKC; 006C           # L&  MATHEMATICAL SANS-SERIF ITALIC CAPITAL L
1D614 ; FC_NFKC; 006D           # L&  MATHEMATICAL SANS-SERIF ITALIC CAPITAL M
1D615 ; FC_NFKC; 006E           # L&  MATHEMATICAL SANS-SERIF ITALIC CAPITAL N
1D616 ; FC_NFKC; 006F           # L&  MATHEMATICAL SANS-SERIF ITALIC CAPITAL O
1D617 ; FC_NFKC; 0070           # L&  MATHEMATICAL SANS-SERIF ITALIC CAPITAL P
1D618 ; FC_NFKC; 0071           # L&  MATHEMATICAL SANS-SERIF ITALIC CAPITAL Q
1D619 ; FC_NFKC; 0072           # L&  MATHEMATICAL SANS-SERIF ITALIC CAPITAL R
1D61A ; FC_NFKC; 0073           # L&  MATHEMATICAL SANS-SERIF ITALIC CAPITAL S
1D61B ; FC_NFKC; 0074           # L&  MATHEMATICAL SANS-SERIF ITALIC CAPITAL T
1D61C ; FC_NFKC; 0075           # L&  MATHEMATICAL SANS-SERIF ITALIC CAPITAL U
1D61D ; FC_NFKC; 0076           # L&  MATHEMATICAL SANS-SERIF ITALIC CAPITAL V
1D61E ; FC_NFKC; 0077           # L&  MATHEMATICAL SANS-SERIF ITALIC CAPITAL W
1D61F ; FC_NFKC; 0078           # L&  MATHEMATICAL SANS-SERIF ITALIC CAPITAL X
1D620 ; FC_NFKC; 0079           # L&  MATHEMATICAL SANS-SERIF ITALIC CAPITAL Y
"%string.
Definition props_text_20 := "1D621 ; FC_NFKC; 007A           # L&  MATHEMATICAL SANS-SERIF ITALIC CAPITAL Z
1D63C ; FC_NFKC; 0061           # L&  MATHEMATICAL SANS-SERIF BOLD ITALIC CAPITAL A
1D63D ; FC_NFKC; 0062           # L&  MATHEMATICAL SANS-SERIF BOLD ITALIC CAPITAL B
1D63E ; FC_NFKC; 0063           # L&  MATHEMATICAL SANS-SERIF BOLD ITALIC CAPITAL C
1D63F ; FC_NFKC; 0064           # L&  MATHEMATICAL SANS-SERIF BOLD ITALIC CAPITAL D
1D640 ; FC_NFKC; 0065           # L&  MATHEMATICAL SANS-SERIF BOLD ITALIC CAPITAL E
1D641 ; FC_NFKC; 0066           # L&  MATHEMATICAL SANS-SERIF BOLD ITALIC CAPITAL F
1D642 ; FC_NFKC; 0067           # L&  MATHEMATICAL SANS-SERIF BOLD ITALIC CAPITAL G
1D643 ; FC_NFKC; 0068           # L&  MATHEMATICAL SANS-SERIF BOLD ITALIC CAPITAL H
1D644 ; FC_NFKC; 0069           # L&  MATHEMATICAL SANS-SERIF BOLD ITALIC CAPITAL I
1D645 ; FC_NFKC; 006A           # L&  MATHEMATICAL SANS-SERIF BOLD ITALIC CAPITAL J
1D646 ; FC_NFKC; 006B           # L&  MATHEMATICAL SANS-SERIF BOLD ITALIC CAPITAL K
1D647 ; FC_NFKC; 006C           # L&  MATHEMATICAL SANS-SERIF BOLD ITALIC CAPITAL L
1D648 ; FC_NFKC; 006D           # L&  MATHEMATICAL SANS-SERIF BOLD ITALIC CAPITAL M
1D649 ; FC_NFKC; 006E           # L&  MATHEMATICAL SANS-SERIF BOLD ITALIC CAPITAL N
1D64A ; FC_NFKC; 006F           # L&  MATHEMATICAL SANS-SERIF BOLD ITALIC CAPITAL O
1D64B ; FC_NFKC; 0070           # L&  MATHEMATICAL SANS-SERIF BOLD ITALIC CAPITAL P
1D64C ; FC_NFKC; 0071           # L&  MATHEMATICAL SANS-SERIF BOLD ITALIC CAPITAL Q
1D64D ; FC_NFKC; 0072           # L&  MATHEMATICAL SANS-SERIF BOLD ITALIC CAPITAL R
1D64E ; FC_NFKC; 0073           # L&  MATHEMATICAL SANS-SERIF BOLD ITALIC CAPITAL S
"%string.
Definition props_text_21 := "1D64F ; FC_NFKC; 0074           # L&  MATHEMATICAL SANS-SERIF BOLD ITALIC CAPITAL T
1D650 ; FC_NFKC; 0075           # L&  MATHEMATICAL SANS-SERIF BOLD ITALIC CAPITAL U
1D651 ; FC_NFKC; 0076           # L&  MATHEMATICAL SANS-SERIF BOLD ITALIC CAPITAL V
1D652 ; FC_NFKC; 0077           # L&  MATHEMATICAL SANS-SERIF BOLD ITALIC CAPITAL W
1D653 ; FC_NFKC; 0078           # L&  MATHEMATICAL SANS-SERIF BOLD ITALIC CAPITAL X
1D654 ; FC_NFKC; 0079           # L&  MATHEMATICAL SANS-SERIF BOLD ITALIC CAPITAL Y
1D655 ; FC_NFKC; 007A           # L&  MATHEMATICAL SANS-SERIF BOLD ITALIC CAPITAL Z
1D670 ; FC_NFKC; 0061           # L&  MATHEMATICAL MONOSPACE CAPITAL A
1D671 ; FC_NFKC; 0062           # L&  MATHEMATICAL MONOSPACE CAPITAL B
1D672 ; FC_NFKC; 0063           # L&  MATHEMATICAL MONOSPACE CAPITAL C
1D673 ; FC_NFKC; 0064           # L&  MATHEMATICAL MONOSPACE CAPITAL D
1D674 ; FC_NFKC; 0065           # L&  MATHEMATICAL MONOSPACE CAPITAL E
1D675 ; FC_NFKC; 0066           # L&  MATHEMATICAL MONOSPACE CAPITAL F
1D676 ; FC_NFKC; 0067           # L&  MATHEMATICAL MONOSPACE CAPITAL G
1D677 ; FC_NFKC; 0068           # L&  MATHEMATICAL MONOSPACE CAPITAL H
1D678 ; FC_NFKC; 0069           # L&  MATHEMATICAL MONOSPACE CAPITAL I
1D679 ; FC_NFKC; 006A           # L&  MATHEMATICAL MONOSPACE CAPITAL J
1D67A ; FC_NFKC; 006B           # L&  MATHEMATICAL MONOSPACE CAPITAL K
1D67B ; FC_NFKC; 006C           # L&  MATHEMATICAL MONOSPACE CAPITAL L
1D67C ; FC_NFKC; 006D           # L&  MATHEMATICAL MONOSPACE CAPITAL M
"%string.
Definition props_text_22 := "1D67D ; FC_NFKC; 006E           # L&  MATHEMATICAL MONOSPACE CAPITAL N
1D67E ; FC_NFKC; 006F           # L&  MATHEMATICAL MONOSPACE CAPITAL O
1D67F ; FC_NFKC; 0070           # L&  MATHEMATICAL MONOSPACE CAPITAL P
1D680 ; FC_NFKC; 0071           # L&  MATHEMATICAL MONOSPACE CAPITAL Q
1D681 ; FC_NFKC; 0072           # L&  MATHEMATICAL MONOSPACE CAPITAL R
1D682 ; FC_NFKC; 0073           # L&  MATHEMATICAL MONOSPACE CAPITAL S
1D683 ; FC_NFKC; 0074           # L&  MATHEMATICAL MONOSPACE CAPITAL T
1D684 ; FC_NFKC; 0075           # L&  MATHEMATICAL MONOSPACE CAPITAL U
1D685 ; FC_NFKC; 0076           # L&  MATHEMATICAL MONOSPACE CAPITAL V
1D686 ; FC_NFKC; 0077           # L&  MATHEMATICAL MONOSPACE CAPITAL W
1D687 ; FC_NFKC; 0078           # L&  MATHEMATICAL MONOSPACE CAPITAL X
1D688 ; FC_NFKC; 0079           # L&  MATHEMATICAL MONOSPACE CAPITAL Y
1D689 ; FC_NFKC; 007A           # L&  MATHEMATICAL MONOSPACE CAPITAL Z
1D6A8 ; FC_NFKC; 03B1           # L&  MATHEMATICAL BOLD CAPITAL ALPHA
1D6A9 ; FC_NFKC; 03B2           # L&  MATHEMATICAL BOLD CAPITAL BETA
1D6AA ; FC_NFKC; 03B3           # L&  MATHEMATICAL BOLD CAPITAL GAMMA
1D6AB ; FC_NFKC; 03B4           # L&  MATHEMATICAL BOLD CAPITAL DELTA
1D6AC ; FC_NFKC; 03B5           # L&  MATHEMATICAL BOLD CAPITAL EPSILON
1D6AD ; FC_NFKC; 03B6           # L&  MATHEMATICAL BOLD CAPITAL ZETA
1D6AE ; FC_NFKC; 03B7           # L&  MATHEMATICAL BOLD CAPITAL ETA
"%string.
Definition props_text_23 := "1D6AF ; FC_NFKC; 03B8           # L&  MATHEMATICAL BOLD CAPITAL THETA
1D6B0 ; FC_NFKC; 03B9           # L&  MATHEMATICAL BOLD CAPITAL IOTA
1D6B1 ; FC_NFKC; 03BA           # L&  MATHEMATICAL BOLD CAPITAL KAPPA
1D6B2 ; FC_NFKC; 03BB           # L&  MATHEMATICAL BOLD CAPITAL LAMDA
1D6B3 ; FC_NFKC; 03BC           # L&  MATHEMATICAL BOLD CAPITAL MU
1D6B4 ; FC_NFKC; 03BD           # L&  MATHEMATICAL BOLD CAPITAL NU
1D6B5 ; FC_NFKC; 03BE           # L&  MATHEMATICAL BOLD CAPITAL XI
1D6B6 ; FC_NFKC; 03BF           # L&  MATHEMATICAL BOLD CAPITAL OMICRON
1D6B7 ; FC_NFKC; 03C0           # L&  MATHEMATICAL BOLD CAPITAL PI
1D6B8 ; FC_NFKC; 03C1           # L&  MATHEMATICAL BOLD CAPITAL RHO
1D6B9 ; FC_NFKC; 03B8           # L&  MATHEMATICAL BOLD CAPITAL THETA SYMBOL
1D6BA ; FC_NFKC; 03C3           # L&  MATHEMATICAL BOLD CAPITAL SIGMA
1D6BB ; FC_NFKC; 03C4           # L&  MATHEMATICAL BOLD CAPITAL TAU
1D6BC ; FC_NFKC; 03C5           # L&  MATHEMATICAL BOLD CAPITAL UPSILON
1D6BD ; FC_NFKC; 03C6           # L&  MATHEMATICAL BOLD CAPITAL PHI
1D6BE ; FC_NFKC; 03C7           # L&  MATHEMATICAL BOLD CAPITAL CHI
1D6BF ; FC_NFKC; 03C8           # L&  MATHEMATICAL BOLD CAPITAL PSI
1D6C0 ; FC_NFKC; 03C9           # L&  MATHEMATICAL BOLD CAPITAL OMEGA
1D6D3 ; FC_NFKC; 03C3           # L&  MATHEMATICAL BOLD SMALL FINAL SIGMA
1D6E2 ; FC_NFKC; 03B1           # L&  MATHEMATICAL ITALIC CAPITAL ALPHA
"%string.
Definition props_text_24 := "1D6E3 ; FC_NFKC; 03B2           # L&  MATHEMATICAL ITALIC CAPITAL BETA
1D6E4 ; FC_NFKC; 03B3           # L&  MATHEMATICAL ITALIC CAPITAL GAMMA
1D6E5 ; FC_NFKC; 03B4           # L&  MATHEMATICAL ITALIC CAPITAL DELTA
1D6E6 ; FC_NFKC; 03B5           # L&  MATHEMATICAL ITALIC CAPITAL EPSILON
1D6E7 ; FC_NFKC; 03B6           # L&  MATHEMATICAL ITALIC CAPITAL ZETA
1D6E8 ; FC_NFKC; 03B7           # L&  MATHEMATICAL ITALIC CAPITAL ETA
1D6E9 ; FC_NFKC; 03B8           # L&  MATHEMATICAL ITALIC CAPITAL THETA
1D6EA ; FC_NFKC; 03B9           # L&  MATHEMATICAL ITALIC CAPITAL IOTA
1D6EB ; FC_NFKC; 03BA           # L&  MATHEMATICAL ITALIC CAPITAL KAPPA
1D6EC ; FC_NFKC; 03BB           # L&  MATHEMATICAL ITALIC CAPITAL LAMDA
1D6ED ; FC_NFKC; 03BC           # L&  MATHEMATICAL ITALIC CAPITAL MU
1D6EE ; FC_NFKC; 03BD           # L&  MATHEMATICAL ITALIC CAPITAL NU
1D6EF ; FC_NFKC; 03BE           # L&  MATHEMATICAL ITALIC CAPITAL XI
1D6F0 ; FC_NFKC; 03BF           # L&  MATHEMATICAL ITALIC CAPITAL OMICRON
1D6F1 ; FC_NFKC; 03C0           # L&  MATHEMATICAL ITALIC CAPITAL PI
1D6F2 ; FC_NFKC; 03C1           # L&  MATHEMATICAL ITALIC CAPITAL RHO
1D6F3 ; FC_NFKC; 03B8           # L&  MATHEMATICAL ITALIC CAPITAL THETA SYMBOL
1D6F4 ; FC_NFKC; 03C3           # L&  MATHEMATICAL ITALIC CAPITAL SIGMA
1D6F5 ; FC_NFKC; 03C4           # L&  MATHEMATICAL ITALIC CAPITAL TAU
1D6F6 ; FC_NFKC; 03C5           # L&  MATHEMATICAL ITALIC CAPITAL UPSILON
"%string.
Definition props_text_25 := "1D6F7 ; FC_NFKC; 03C6           # L&  MATHEMATICAL ITALIC CAPITAL PHI
1D6F8 ; FC_NFKC; 03C7           # L&  MATHEMATICAL ITALIC CAPITAL CHI
1D6F9 ; FC_NFKC; 03C8           # L&  MATHEMATICAL ITALIC CAPITAL PSI
1D6FA ; FC_NFKC; 03C9           # L&  MATHEMATICAL ITALIC CAPITAL OMEGA
1D70D ; FC_NFKC; 03C3           # L&  MATHEMATICAL ITALIC SMALL FINAL SIGMA
1D71C ; FC_NFKC; 03B1           # L&  MATHEMATICAL BOLD ITALIC CAPITAL ALPHA
1D71D ; FC_NFKC; 03B2           # L&  MATHEMATICAL BOLD ITALIC CAPITAL BETA
1D71E ; FC_NFKC; 03B3           # L&  MATHEMATICAL BOLD ITALIC CAPITAL GAMMA
1D71F ; FC_NFKC; 03B4           # L&  MATHEMATICAL BOLD ITALIC CAPITAL DELTA
1D720 ; FC_NFKC; 03B5           # L&  MATHEMATICAL BOLD ITALIC CAPITAL EPSILON
1D721 ; FC_NFKC; 03B6           # L&  MATHEMATICAL BOLD ITALIC CAPITAL ZETA
1D722 ; FC_NFKC; 03B7           # L&  MATHEMATICAL BOLD ITALIC CAPITAL ETA
1D723 ; FC_NFKC; 03B8           # L&  MATHEMATICAL BOLD ITALIC CAPITAL THETA
1D724 ; FC_NFKC; 03B9           # L&  MATHEMATICAL BOLD ITALIC CAPITAL IOTA
1D725 ; FC_NFKC; 03BA           # L&  MATHEMATICAL BOLD ITALIC CAPITAL KAPPA
1D726 ; FC_NFKC; 03BB           # L&  MATHEMATICAL BOLD ITALIC CAPITAL LAMDA
1D727 ; FC_NFKC; 03BC           # L&  MATHEMATICAL BOLD ITALIC CAPITAL MU
1D728 ; FC_NFKC; 03BD           # L&  MATHEMATICAL BOLD ITALIC CAPITAL NU
1D729 ; FC_NFKC; 03BE           # L&  MATHEMATICAL BOLD ITALIC CAPITAL XI
1D72A ; FC_NFKC; 03BF           # L&  MATHEMATICAL BOLD ITALIC CAPITAL OMICRON
"%string.
Definition props_text_26 := "1D72B ; FC_NFKC; 03C0           # L&  MATHEMATICAL BOLD ITALIC CAPITAL PI
1D72C ; FC_NFKC; 03C1           # L&  MATHEMATICAL BOLD ITALIC CAPITAL RHO
1D72D ; FC_NFKC; 03B8           # L&  MATHEMATICAL BOLD ITALIC CAPITAL THETA SYMBOL
1D72E ; FC_NFKC; 03C3           # L&  MATHEMATICAL BOLD ITALIC CAPITAL SIGMA
1D72F ; FC_NFKC; 03C4           # L&  MATHEMATICAL BOLD ITALIC CAPITAL TAU
1D730 ; FC_NFKC; 03C5           # L&  MATHEMATICAL BOLD ITALIC CAPITAL UPSILON
1D731 ; FC_NFKC; 03C6           # L&  MATHEMATICAL BOLD ITALIC CAPITAL PHI
1D732 ; FC_NFKC; 03C7           # L&  MATHEMATICAL BOLD ITALIC CAPITAL CHI
1D733 ; FC_NFKC; 03C8           # L&  MATHEMATICAL BOLD ITALIC CAPITAL PSI
1D734 ; FC_NFKC; 03C9           # L&  MATHEMATICAL BOLD ITALIC CAPITAL OMEGA
1D747 ; FC_NFKC; 03C3           # L&  MATHEMATICAL BOLD ITALIC SMALL FINAL SIGMA
1D756 ; FC_NFKC; 03B1           # L&  MATHEMATICAL SANS-SERIF BOLD CAPITAL ALPHA
1D757 ; FC_NFKC; 03B2           # L&  MATHEMATICAL SANS-SERIF BOLD CAPITAL BETA
1D758 ; FC_NFKC; 03B3           # L&  MATHEMATICAL SANS-SERIF BOLD CAPITAL GAMMA
1D759 ; FC_NFKC; 03B4           # L&  MATHEMATICAL SANS-SERIF BOLD CAPITAL DELTA
1D75A ; FC_NFKC; 03B5           # L&  MATHEMATICAL SANS-SERIF BOLD CAPITAL EPSILON
1D75B ; FC_NFKC; 03B6           # L&  MATHEMATICAL SANS-SERIF BOLD CAPITAL ZETA
1D75C ; FC_NFKC; 03B7           # L&  MATHEMATICAL SANS-SERIF BOLD CAPITAL ETA
1D75D ; FC_NFKC; 03B8           # L&  MATHEMATICAL SANS-SERIF BOLD CAPITAL THETA
1D75E ; FC_NFKC; 03B9           # L&  MATHEMATICAL SANS-SERIF BOLD CAPITAL IOTA
"%string.
Definition props_text_27 := "1D75F ; FC_NFKC; 03BA           # L&  MATHEMATICAL SANS-SERIF BOLD CAPITAL KAPPA
1D760 ; FC_NFKC; 03BB           # L&  MATHEMATICAL SANS-SERIF BOLD CAPITAL LAMDA
1D761 ; FC_NFKC; 03BC           # L&  MATHEMATICAL SANS-SERIF BOLD CAPITAL MU
1D762 ; FC_NFKC; 03BD           # L&  MATHEMATICAL SANS-SERIF BOLD CAPITAL NU
1D763 ; FC_NFKC; 03BE           # L&  MATHEMATICAL SANS-SERIF BOLD CAPITAL XI
1D764 ; FC_NFKC; 03BF           # L&  MATHEMATICAL SANS-SERIF BOLD CAPITAL OMICRON
1D765 ; FC_NFKC; 03C0           # L&  MATHEMATICAL SANS-SERIF BOLD CAPITAL PI
1D766 ; FC_NFKC; 03C1           # L&  MATHEMATICAL SANS-SERIF BOLD CAPITAL RHO
1D767 ; FC_NFKC; 03B8           # L&  MATHEMATICAL SANS-SERIF BOLD CAPITAL THETA SYMBOL
1D768 ; FC_NFKC; 03C3           # L&  MATHEMATICAL SANS-SERIF BOLD CAPITAL SIGMA
1D769 ; FC_NFKC; 03C4           # L&  MATHEMATICAL SANS-SERIF BOLD CAPITAL TAU
1D76A ; FC_NFKC; 03C5           # L&  MATHEMATICAL SANS-SERIF BOLD CAPITAL UPSILON
1D76B ; FC_NFKC; 03C6           # L&  MATHEMATICAL SANS-SERIF BOLD CAPITAL PHI
1D76C ; FC_NFKC; 03C7           # L&  MATHEMATICAL SANS-SERIF BOLD CAPITAL CHI
1D76D ; FC_NFKC; 03C8           # L&  MATHEMATICAL SANS-SERIF BOLD CAPITAL PSI
1D76E ; FC_NFKC; 03C9           # L&  MATHEMATICAL SANS-SERIF BOLD CAPITAL OMEGA
1D781 ; FC_NFKC; 03C3           # L&  MATHEMATICAL SANS-SERIF BOLD SMALL FINAL SIGMA
1D790 ; FC_NFKC; 03B1           # L&  MATHEMATICAL SANS-SERIF BOLD ITALIC CAPITAL ALPHA
1D791 ; FC_NFKC; 03B2           # L&  MATHEMATICAL SANS-SERIF BOLD ITALIC CAPITAL BETA
1D792 ; FC_NFKC; 03B3           # L&  MATHEMATICAL SANS-SERIF BOLD ITALIC CAPITAL GAMMA
"%string.
Definition props_text_28 := "1D793 ; FC_NFKC; 03B4           # L&  MATHEMATICAL SANS-SERIF BOLD ITALIC CAPITAL DELTA
1D794 ; FC_NFKC; 03B5           # L&  MATHEMATICAL SANS-SERIF BOLD ITALIC CAPITAL EPSILON
1D795 ; FC_NFKC; 03B6           # L&  MATHEMATICAL SANS-SERIF BOLD ITALIC CAPITAL ZETA
1D796 ; FC_NFKC; 03B7           # L&  MATHEMATICAL SANS-SERIF BOLD ITALIC CAPITAL ETA
1D797 ; FC_NFKC; 03B8           # L&  MATHEMATICAL SANS-SERIF BOLD ITALIC CAPITAL THETA
1D798 ; FC_NFKC; 03B9           # L&  MATHEMATICAL SANS-SERIF BOLD ITALIC CAPITAL IOTA
1D799 ; FC_NFKC; 03BA           # L&  MATHEMATICAL SANS-SERIF BOLD ITALIC CAPITAL KAPPA
1D79A ; FC_NFKC; 03BB           # L&  MATHEMATICAL SANS-SERIF BOLD ITALIC CAPITAL LAMDA
1D79B ; FC_NFKC; 03BC           # L&  MATHEMATICAL SANS-SERIF BOLD ITALIC CAPITAL MU
1D79C ; FC_NFKC; 03BD           # L&  MATHEMATICAL SANS-SERIF BOLD ITALIC CAPITAL NU
1D79D ; FC_NFKC; 03BE           # L&  MATHEMATICAL SANS-SERIF BOLD ITALIC CAPITAL XI
1D79E ; FC_NFKC; 03BF           # L&  MATHEMATICAL SANS-SERIF BOLD ITALIC CAPITAL OMICRON
1D79F ; FC_NFKC; 03C0           # L&  MATHEMATICAL SANS-SERIF BOLD ITALIC CAPITAL PI
1D7A0 ; FC_NFKC; 03C1           # L&  MATHEMATICAL SANS-SERIF BOLD ITALIC CAPITAL RHO
1D7A1 ; FC_NFKC; 03B8           # L&  MATHEMATICAL SANS-SERIF BOLD ITALIC CAPITAL THETA SYMBOL
1D7A2 ; FC_NFKC; 03C3           # L&  MATHEMATICAL SANS-SERIF BOLD ITALIC CAPITAL SIGMA
1D7A3 ; FC_NFKC; 03C4           # L&  MATHEMATICAL SANS-SERIF BOLD ITALIC CAPITAL TAU
1D7A4 ; FC_NFKC; 03C5           # L&  MATHEMATICAL SANS-SERIF BOLD ITALIC CAPITAL UPSILON
1D7A5 ; FC_NFKC; 03C6           # L&  MATHEMATICAL SANS-SERIF BOLD ITALIC CAPITAL PHI
1D7A6 ; FC_NFKC; 03C7           # L&  MATHEMATICAL SANS-SERIF BOLD ITALIC CAPITAL CHI
"%string.
Definition props_text_29 := "1D7A7 ; FC_NFKC; 03C8           # L&  MATHEMATICAL SANS-SERIF BOLD ITALIC CAPITAL PSI
1D7A8 ; FC_NFKC; 03C9           # L&  MATHEMATICAL SANS-SERIF BOLD ITALIC CAPITAL OMEGA
1D7BB ; FC_NFKC; 03C3           # L&  MATHEMATICAL SANS-SERIF BOLD ITALIC SMALL FINAL SIGMA
1D7CA ; FC_NFKC; 03DD           # L&  MATHEMATICAL BOLD CAPITAL DIGAMMA
1F110 ; FC_NFKC; 0028 0061 0029 # So  PARENTHESIZED LATIN CAPITAL LETTER A
1F111 ; FC_NFKC; 0028 0062 0029 # So  PARENTHESIZED LATIN CAPITAL LETTER B
1F112 ; FC_NFKC; 0028 0063 0029 # So  PARENTHESIZED LATIN CAPITAL LETTER C
1F113 ; FC_NFKC; 0028 0064 0029 # So  PARENTHESIZED LATIN CAPITAL LETTER D
1F114 ; FC_NFKC; 0028 0065 0029 # So  PARENTHESIZED LATIN CAPITAL LETTER E
1F115 ; FC_NFKC; 0028 0066 0029 # So  PARENTHESIZED LATIN CAPITAL LETTER F
1F116 ; FC_NFKC; 0028 0067 0029 # So  PARENTHESIZED LATIN CAPITAL LETTER G
1F117 ; FC_NFKC; 0028 0068 0029 # So  PARENTHESIZED LATIN CAPITAL LETTER H
1F118 ; FC_NFKC; 0028 0069 0029 # So  PARENTHESIZED LATIN CAPITAL LETTER I
1F119 ; FC_NFKC; 0028 006A 0029 # So  PARENTHESIZED LATIN CAPITAL LETTER J
1F11A ; FC_NFKC; 0028 006B 0029 # So  PARENTHESIZED LATIN CAPITAL LETTER K
1F11B ; FC_NFKC; 0028 006C 0029 # So  PARENTHESIZED LATIN CAPITAL LETTER L
1F11C ; FC_NFKC; 0028 006D 0029 # So  PARENTHESIZED LATIN CAPITAL LETTER M
1F11D ; FC_NFKC; 0028 006E 0029 # So  PARENTHESIZED LATIN CAPITAL LETTER N
1F11E ; FC_NFKC; 0028 006F 0029 # So  PARENTHESIZED LATIN CAPITAL LETTER O
1F11F ; FC_NFKC; 0028 0070 0029 # So  PARENTHESIZED LATIN CAPITAL LETTER P
"%string.
Definition props_text_30 := "1F120 ; FC_NFKC; 0028 0071 0029 # So  PARENTHESIZED LATIN CAPITAL LETTER Q
1F121 ; FC_NFKC; 0028 0072 0029 # So  PARENTHESIZED LATIN CAPITAL LETTER R
1F122 ; FC_NFKC; 0028 0073 0029 # So  PARENTHESIZED LATIN CAPITAL LETTER S
1F123 ; FC_NFKC; 0028 0074 0029 # So  PARENTHESIZED LATIN CAPITAL LETTER T
1F124 ; FC_NFKC; 0028 0075 0029 # So  PARENTHESIZED LATIN CAPITAL LETTER U
1F125 ; FC_NFKC; 0028 0076 0029 # So  PARENTHESIZED LATIN CAPITAL LETTER V
1F126 ; FC_NFKC; 0028 0077 0029 # So  PARENTHESIZED LATIN CAPITAL LETTER W
1F127 ; FC_NFKC; 0028 0078 0029 # So  PARENTHESIZED LATIN CAPITAL LETTER X
1F128 ; FC_NFKC; 0028 0079 0029 # So  PARENTHESIZED LATIN CAPITAL LETTER Y
1F129 ; FC_NFKC; 0028 007A 0029 # So  PARENTHESIZED LATIN CAPITAL LETTER Z
1F12A ; FC_NFKC; 3014 0073 3015 # So  TORTOISE SHELL BRACKETED LATIN CAPITAL LETTER S
1F12B ; FC_NFKC; 0063           # So  CIRCLED ITALIC LATIN CAPITAL LETTER C
1F12C ; FC_NFKC; 0072           # So  CIRCLED ITALIC LATIN CAPITAL LETTER R
1F12D ; FC_NFKC; 0063 0064      # So  CIRCLED CD
1F12E ; FC_NFKC; 0077 007A      # So  CIRCLED WZ
1F130 ; FC_NFKC; 0061           # So  SQUARED LATIN CAPITAL LETTER A
1F131 ; FC_NFKC; 0062           # So  SQUARED LATIN CAPITAL LETTER B
1F132 ; FC_NFKC; 0063           # So  SQUARED LATIN CAPITAL LETTER C
1F133 ; FC_NFKC; 0064           # So  SQUARED LATIN CAPITAL LETTER D
1F134 ; FC_NFKC; 0065           # So  SQUARED LATIN CAPITAL LETTER E
"%string.
Definition props_text_31 := "1F135 ; FC_NFKC; 0066           # So  SQUARED LATIN CAPITAL LETTER F
1F136 ; FC_NFKC; 0067           # So  SQUARED LATIN CAPITAL LETTER G
1F137 ; FC_NFKC; 0068           # So  SQUARED LATIN CAPITAL LETTER H
1F138 ; FC_NFKC; 0069           # So  SQUARED LATIN CAPITAL LETTER I
1F139 ; FC_NFKC; 006A           # So  SQUARED LATIN CAPITAL LETTER J
1F13A ; FC_NFKC; 006B           # So  SQUARED LATIN CAPITAL LETTER K
1F13B ; FC_NFKC; 006C           # So  SQUARED LATIN CAPITAL LETTER L
1F13C ; FC_NFKC; 006D           # So  SQUARED LATIN CAPITAL LETTER M
1F13D ; FC_NFKC; 006E           # So  SQUARED LATIN CAPITAL LETTER N
1F13E ; FC_NFKC; 006F           # So  SQUARED LATIN CAPITAL LETTER O
1F13F ; FC_NFKC; 0070           # So  SQUARED LATIN CAPITAL LETTER P
1F140 ; FC_NFKC; 0071           # So  SQUARED LATIN CAPITAL LETTER Q
1F141 ; FC_NFKC; 0072           # So  SQUARED LATIN CAPITAL LETTER R
1F142 ; FC_NFKC; 0073           # So  SQUARED LATIN CAPITAL LETTER S
1F143 ; FC_NFKC; 0074           # So  SQUARED LATIN CAPITAL LETTER T
1F144 ; FC_NFKC; 0075           # So  SQUARED LATIN CAPITAL LETTER U
1F145 ; FC_NFKC; 0076           # So  SQUARED LATIN CAPITAL LETTER V
1F146 ; FC_NFKC; 0077           # So  SQUARED LATIN CAPITAL LETTER W
1F147 ; FC_NFKC; 0078           # So  SQUARED LATIN CAPITAL LETTER X
1F148 ; FC_NFKC; 0079           # So  SQUARED LATIN CAPITAL LETTER Y
"%string.
Definition props_text_32 := "1F149 ; FC_NFKC; 007A           # So  SQUARED LATIN CAPITAL LETTER Z
1F14A ; FC_NFKC; 0068 0076      # So  SQUARED HV
1F14B ; FC_NFKC; 006D 0076      # So  SQUARED MV
1F14C ; FC_NFKC; 0073 0064      # So  SQUARED SD
1F14D ; FC_NFKC; 0073 0073      # So  SQUARED SS
1F14E ; FC_NFKC; 0070 0070 0076 # So  SQUARED PPV
1F14F ; FC_NFKC; 0077 0063      # So  SQUARED WC
1F16A ; FC_NFKC; 006D 0063      # So  RAISED MC SIGN
1F16B ; FC_NFKC; 006D 0064      # So  RAISED MD SIGN
1F16C ; FC_NFKC; 006D 0072      # So  RAISED MR SIGN
1F190 ; FC_NFKC; 0064 006A      # So  SQUARE DJ

# Total code points: 634

# ================================================

# Derived Property: Full_Composition_Exclusion
#  Generated from: Composition Exclusions + Singletons + Non-Starter Decompositions

0340..0341    ; Full_Composition_Exclusion # Mn   [2] COMBINING GRAVE TONE MARK..COMBINING ACUTE TONE MARK
"%string.
Definition props_text_33 := "0343..0344    ; Full_Composition_Exclusion # Mn   [2] COMBINING GREEK KORONIS..COMBINING GREEK DIALYTIKA TONOS
0374          ; Full_Composition_Exclusion # Lm       GREEK NUMERAL SIGN
037E          ; Full_Composition_Exclusion # Po       GREEK QUESTION MARK
0387          ; Full_Composition_Exclusion # Po       GREEK ANO TELEIA
0958..095F    ; Full_Composition_Exclusion # Lo   [8] DEVANAGARI LETTER QA..DEVANAGARI LETTER YYA
09DC..09DD    ; Full_Composition_Exclusion # Lo   [2] BENGALI LETTER RRA..BENGALI LETTER RHA
09DF          ; Full_Composition_Exclusion # Lo       BENGALI LETTER YYA
0A33          ; Full_Composition_Exclusion # Lo       GURMUKHI LETTER LLA
0A36          ; Full_Composition_Exclusion # Lo       GURMUKHI LETTER SHA
0A59..0A5B    ; Full_Composition_Exclusion # Lo   [3] GURMUKHI LETTER KHHA..GURMUKHI LETTER ZA
0A5E          ; Full_Composition_Exclusion # Lo       GURMUKHI LETTER FA
0B5C..0B5D    ; Full_Composition_Exclusion # Lo   [2] ORIYA LETTER RRA..ORIYA LETTER RHA
0F43          ; Full_Composition_Exclusion # Lo       TIBETAN LETTER GHA
0F4D          ; Full_Composition_Exclusion # Lo       TIBETAN LETTER DDHA
0F52          ; Full_Composition_Exclusion # Lo       TIBETAN LETTER DHA
0F57          ; Full_Composition_Exclusion # Lo       TIBETAN LETTER BHA
0F5C          ; Full_Composition_Exclusion # Lo       TIBETAN LETTER DZHA
0F69          ; Full_Composition_Exclusion # Lo       TIBETAN LETTER KSSA
0F73          ; Full_Composition_Exclusion # Mn       TIBETAN VOWEL SIGN II
0F75..0F76    ; Full_Composition_Exclusion # Mn   [2] TIBETAN VOWEL SIGN UU..TIBETAN VOWEL SIGN VOCALIC R
"%string.
Definition props_text_34 := "0F78          ; Full_Composition_Exclusion # Mn       TIBETAN VOWEL SIGN VOCALIC L
0F81          ; Full_Composition_Exclusion # Mn       TIBETAN VOWEL SIGN REVERSED II
0F93          ; Full_Composition_Exclusion # Mn       TIBETAN SUBJOINED LETTER GHA
0F9D          ; Full_Composition_Exclusion # Mn       TIBETAN SUBJOINED LETTER DDHA
0FA2          ; Full_Composition_Exclusion # Mn       TIBETAN SUBJOINED LETTER DHA
0FA7          ; Full_Composition_Exclusion # Mn       TIBETAN SUBJOINED LETTER BHA
0FAC          ; Full_Composition_Exclusion # Mn       TIBETAN SUBJOINED LETTER DZHA
0FB9          ; Full_Composition_Exclusion # Mn       TIBETAN SUBJOINED LETTER KSSA
1F71          ; Full_Composition_Exclusion # L&       GREEK SMALL LETTER ALPHA WITH OXIA
1F73          ; Full_Composition_Exclusion # L&       GREEK SMALL LETTER EPSILON WITH OXIA
1F75          ; Full_Composition_Exclusion # L&       GREEK SMALL LETTER ETA WITH OXIA
1F77          ; Full_Composition_Exclusion # L&       GREEK SMALL LETTER IOTA WITH OXIA
1F79          ; Full_Composition_Exclusion # L&       GREEK SMALL LETTER OMICRON WITH OXIA
1F7B          ; Full_Composition_Exclusion # L&       GREEK SMALL LETTER UPSILON WITH OXIA
1F7D          ; Full_Composition_Exclusion # L&       GREEK SMALL LETTER OMEGA WITH OXIA
1FBB          ; Full_Composition_Exclusion # L&       GREEK CAPITAL LETTER ALPHA WITH OXIA
1FBE          ; Full_Composition_Exclusion # L&       GREEK PROSGEGRAMMENI
1FC9          ; Full_Composition_Exclusion # L&       GREEK CAPITAL LETTER EPSILON WITH OXIA
1FCB          ; Full_Composition_Exclusion # L&       GREEK CAPITAL LETTER ETA WITH OXIA
1FD3          ; Full_Composition_Exclusion # L&       GREEK SMALL LETTER IOTA WITH DIALYTIKA AND OXIA
"%string.
Definition props_text_35 := "1FDB          ; Full_Composition_Exclusion # L&       GREEK CAPITAL LETTER IOTA WITH OXIA
1FE3          ; Full_Composition_Exclusion # L&       GREEK SMALL LETTER UPSILON WITH DIALYTIKA AND OXIA
1FEB          ; Full_Composition_Exclusion # L&       GREEK CAPITAL LETTER UPSILON WITH OXIA
1FEE..1FEF    ; Full_Composition_Exclusion # Sk   [2] GREEK DIALYTIKA AND OXIA..GREEK VARIA
1FF9          ; Full_Composition_Exclusion # L&       GREEK CAPITAL LETTER OMICRON WITH OXIA
1FFB          ; Full_Composition_Exclusion # L&       GREEK CAPITAL LETTER OMEGA WITH OXIA
1FFD          ; Full_Composition_Exclusion # Sk       GREEK OXIA
2000..2001    ; Full_Composition_Exclusion # Zs   [2] EN QUAD..EM QUAD
2126          ; Full_Composition_Exclusion # L&       OHM SIGN
212A..212B    ; Full_Composition_Exclusion # L&   [2] KELVIN SIGN..ANGSTROM SIGN
2329          ; Full_Composition_Exclusion # Ps       LEFT-POINTING ANGLE BRACKET
232A          ; Full_Composition_Exclusion # Pe       RIGHT-POINTING ANGLE BRACKET
2ADC          ; Full_Composition_Exclusion # Sm       FORKING
F900..FA0D    ; Full_Composition_Exclusion # Lo [270] CJK COMPATIBILITY IDEOGRAPH-F900..CJK COMPATIBILITY IDEOGRAPH-FA0D
FA10          ; Full_Composition_Exclusion # Lo       CJK COMPATIBILITY IDEOGRAPH-FA10
FA12          ; Full_Composition_Exclusion # Lo       CJK COMPATIBILITY IDEOGRAPH-FA12
FA15..FA1E    ; Full_Composition_Exclusion # Lo  [10] CJK COMPATIBILITY IDEOGRAPH-FA15..CJK COMPATIBILITY IDEOGRAPH-FA1E
FA20          ; Full_Composition_Exclusion # Lo       CJK COMPATIBILITY IDEOGRAPH-FA20
FA22          ; Full_Composition_Exclusion # Lo       CJK COMPATIBILITY IDEOGRAPH-FA22
FA25..FA26    ; Full_Composition_Exclusion # Lo   [2] CJK COMPATIBILITY IDEOGRAPH-FA25..CJK COMPATIBILITY IDEOGRAPH-FA26
"%string.
Definition props_text_36 := "FA2A..FA6D    ; Full_Composition_Exclusion # Lo  [68] CJK COMPATIBILITY IDEOGRAPH-FA2A..CJK COMPATIBILITY IDEOGRAPH-FA6D
FA70..FAD9    ; Full_Composition_Exclusion # Lo [106] CJK COMPATIBILITY IDEOGRAPH-FA70..CJK COMPATIBILITY IDEOGRAPH-FAD9
FB1D          ; Full_Composition_Exclusion # Lo       HEBREW LETTER YOD WITH HIRIQ
FB1F          ; Full_Composition_Exclusion # Lo       HEBREW LIGATURE YIDDISH YOD YOD PATAH
FB2A..FB36    ; Full_Composition_Exclusion # Lo  [13] HEBREW LETTER SHIN WITH SHIN DOT..HEBREW LETTER ZAYIN WITH DAGESH
FB38..FB3C    ; Full_Composition_Exclusion # Lo   [5] HEBREW LETTER TET WITH DAGESH..HEBREW LETTER LAMED WITH DAGESH
FB3E          ; Full_Composition_Exclusion # Lo       HEBREW LETTER MEM WITH DAGESH
FB40..FB41    ; Full_Composition_Exclusion # Lo   [2] HEBREW LETTER NUN WITH DAGESH..HEBREW LETTER SAMEKH WITH DAGESH
FB43..FB44    ; Full_Composition_Exclusion # Lo   [2] HEBREW LETTER FINAL PE WITH DAGESH..HEBREW LETTER PE WITH DAGESH
FB46..FB4E    ; Full_Composition_Exclusion # Lo   [9] HEBREW LETTER TSADI WITH DAGESH..HEBREW LETTER PE WITH RAFE
1D15E..1D164  ; Full_Composition_Exclusion # So   [7] MUSICAL SYMBOL HALF NOTE..MUSICAL SYMBOL ONE HUNDRED TWENTY-EIGHTH NOTE
1D1BB..1D1C0  ; Full_Composition_Exclusion # So   [6] MUSICAL SYMBOL MINIMA..MUSICAL SYMBOL FUSA BLACK
2F800..2FA1D  ; Full_Composition_Exclusion # Lo [542] CJK COMPATIBILITY IDEOGRAPH-2F800..CJK COMPATIBILITY IDEOGRAPH-2FA1D

# Total code points: 1120

# ================================================

# Property:	NFD_Quick_Check

"%string.
Definition props_text_37 := "#  All code points not explicitly listed for NFD_Quick_Check
#  have the value Yes (Y).

# @missing: 0000..10FFFF; NFD_QC; Yes

# ================================================

# NFD_Quick_Check=No

00C0..00C5    ; NFD_QC; N # L&   [6] LATIN CAPITAL LETTER A WITH GRAVE..LATIN CAPITAL LETTER A WITH RING ABOVE
00C7..00CF    ; NFD_QC; N # L&   [9] LATIN CAPITAL LETTER C WITH CEDILLA..LATIN CAPITAL LETTER I WITH DIAERESIS
00D1..00D6    ; NFD_QC; N # L&   [6] LATIN CAPITAL LETTER N WITH TILDE..LATIN CAPITAL LETTER O WITH DIAERESIS
00D9..00DD    ; NFD_QC; N # L&   [5] LATIN CAPITAL LETTER U WITH GRAVE..LATIN CAPITAL LETTER Y WITH ACUTE
00E0..00E5    ; NFD_QC; N # L&   [6] LATIN SMALL LETTER A WITH GRAVE..LATIN SMALL LETTER A WITH RING ABOVE
00E7..00EF    ; NFD_QC; N # L&   [9] LATIN SMALL LETTER C WITH CEDILLA..LATIN SMALL LETTER I WITH DIAERESIS
00F1..00F6    ; NFD_QC; N # L&   [6] LATIN SMALL LETTER N WITH TILDE..LATIN SMALL LETTER O WITH DIAERESIS
00F9..00FD    ; NFD_QC; N # L&   [5] LATIN SMALL LETTER U WITH GRAVE..LATIN SMALL LETTER Y WITH ACUTE
00FF..010F    ; NFD_QC; N # L&  [17] LATIN SMALL LETTER Y WITH DIAERESIS..LATIN SMALL LETTER D WITH CARON
0112..0125    ; NFD_QC; N # L&  [20] LATIN CAPITAL LETTER E WITH MACRON..LATIN SMALL LETTER H WITH CIRCUMFLEX
0128..0130    ; NFD_QC; N # L&   [9] LATIN CAPITAL LETTER I WITH TILDE..LATIN CAPITAL LETTER I WITH DOT ABOVE
"%string.
Definition props_text_38 := "0134..0137    ; NFD_QC; N # L&   [4] LATIN CAPITAL LETTER J WITH CIRCUMFLEX..LATIN SMALL LETTER K WITH CEDILLA
0139..013E    ; NFD_QC; N # L&   [6] LATIN CAPITAL LETTER L WITH ACUTE..LATIN SMALL LETTER L WITH CARON
0143..0148    ; NFD_QC; N # L&   [6] LATIN CAPITAL LETTER N WITH ACUTE..LATIN SMALL LETTER N WITH CARON
014C..0151    ; NFD_QC; N # L&   [6] LATIN CAPITAL LETTER O WITH MACRON..LATIN SMALL LETTER O WITH DOUBLE ACUTE
0154..0165    ; NFD_QC; N # L&  [18] LATIN CAPITAL LETTER R WITH ACUTE..LATIN SMALL LETTER T WITH CARON
0168..017E    ; NFD_QC; N # L&  [23] LATIN CAPITAL LETTER U WITH TILDE..LATIN SMALL LETTER Z WITH CARON
01A0..01A1    ; NFD_QC; N # L&   [2] LATIN CAPITAL LETTER O WITH HORN..LATIN SMALL LETTER O WITH HORN
01AF..01B0    ; NFD_QC; N # L&   [2] LATIN CAPITAL LETTER U WITH HORN..LATIN SMALL LETTER U WITH HORN
01CD..01DC    ; NFD_QC; N # L&  [16] LATIN CAPITAL LETTER A WITH CARON..LATIN SMALL LETTER U WITH DIAERESIS AND GRAVE
01DE..01E3    ; NFD_QC; N # L&   [6] LATIN CAPITAL LETTER A WITH DIAERESIS AND MACRON..LATIN SMALL LETTER AE WITH MACRON
01E6..01F0    ; NFD_QC; N # L&  [11] LATIN CAPITAL LETTER G WITH CARON..LATIN SMALL LETTER J WITH CARON
01F4..01F5    ; NFD_QC; N # L&   [2] LATIN CAPITAL LETTER G WITH ACUTE..LATIN SMALL LETTER G WITH ACUTE
01F8..021B    ; NFD_QC; N # L&  [36] LATIN CAPITAL LETTER N WITH GRAVE..LATIN SMALL LETTER T WITH COMMA BELOW
021E..021F    ; NFD_QC; N # L&   [2] LATIN CAPITAL LETTER H WITH CARON..LATIN SMALL LETTER H WITH CARON
0226..0233    ; NFD_QC; N # L&  [14] LATIN CAPITAL LETTER A WITH DOT ABOVE..LATIN SMALL LETTER Y WITH MACRON
0340..0341    ; NFD_QC; N # Mn   [2] COMBINING GRAVE TONE MARK..COMBINING ACUTE TONE MARK
0343..0344    ; NFD_QC; N # Mn   [2] COMBINING GREEK KORONIS..COMBINING GREEK DIALYTIKA TONOS
0374          ; NFD_QC; N # Lm       GREEK NUMERAL SIGN
037E          ; NFD_QC; N # Po       GREEK QUESTION MARK
0385          ; NFD_QC; N # Sk       GREEK DIALYTIKA TONOS
"%string.
Definition props_text_39 := "0386          ; NFD_QC; N # L&       GREEK CAPITAL LETTER ALPHA WITH TONOS
0387          ; NFD_QC; N # Po       GREEK ANO TELEIA
0388..038A    ; NFD_QC; N # L&   [3] GREEK CAPITAL LETTER EPSILON WITH TONOS..GREEK CAPITAL LETTER IOTA WITH TONOS
038C          ; NFD_QC; N # L&       GREEK CAPITAL LETTER OMICRON WITH TONOS
038E..0390    ; NFD_QC; N # L&   [3] GREEK CAPITAL LETTER UPSILON WITH TONOS..GREEK SMALL LETTER IOTA WITH DIALYTIKA AND TONOS
03AA..03B0    ; NFD_QC; N # L&   [7] GREEK CAPITAL LETTER IOTA WITH DIALYTIKA..GREEK SMALL LETTER UPSILON WITH DIALYTIKA AND TONOS
03CA..03CE    ; NFD_QC; N # L&   [5] GREEK SMALL LETTER IOTA WITH DIALYTIKA..GREEK SMALL LETTER OMEGA WITH TONOS
03D3..03D4    ; NFD_QC; N # L&   [2] GREEK UPSILON WITH ACUTE AND HOOK SYMBOL..GREEK UPSILON WITH DIAERESIS AND HOOK SYMBOL
0400..0401    ; NFD_QC; N # L&   [2] CYRILLIC CAPITAL LETTER IE WITH GRAVE..CYRILLIC CAPITAL LETTER IO
0403          ; NFD_QC; N # L&       CYRILLIC CAPITAL LETTER GJE
0407          ; NFD_QC; N # L&       CYRILLIC CAPITAL LETTER YI
040C..040E    ; NFD_QC; N # L&   [3] CYRILLIC CAPITAL LETTER KJE..CYRILLIC CAPITAL LETTER SHORT U
0419          ; NFD_QC; N # L&       CYRILLIC CAPITAL LETTER SHORT I
0439          ; NFD_QC; N # L&       CYRILLIC SMALL LETTER SHORT I
0450..0451    ; NFD_QC; N # L&   [2] CYRILLIC SMALL LETTER IE WITH GRAVE..CYRILLIC SMALL LETTER IO
0453          ; NFD_QC; N # L&       CYRILLIC SMALL LETTER GJE
0457          ; NFD_QC; N # L&       CYRILLIC SMALL LETTER YI
045C..045E    ; NFD_QC; N # L&   [3] CYRILLIC SMALL LETTER KJE..CYRILLIC SMALL LETTER SHORT U
0476..0477    ; NFD_QC; N # L&   [2] CYRILLIC CAPITAL LETTER IZHITSA WITH DOUBLE GRAVE ACCENT..CYRILLIC SMALL LETTER IZHITSA WITH DOUBLE GRAVE ACCENT
04C1..04C2    ; NFD_QC; N # L&   [2] CYRILLIC CAPITAL LETTER ZHE WITH BREVE..CYRILLIC SMALL LETTER ZHE WITH BREVE
"%string.
Definition props_text_40 := "04D0..04D3    ; NFD_QC; N # L&   [4] CYRILLIC CAPITAL LETTER A WITH BREVE..CYRILLIC SMALL LETTER A WITH DIAERESIS
04D6..04D7    ; NFD_QC; N # L&   [2] CYRILLIC CAPITAL LETTER IE WITH BREVE..CYRILLIC SMALL LETTER IE WITH BREVE
04DA..04DF    ; NFD_QC; N # L&   [6] CYRILLIC CAPITAL LETTER SCHWA WITH DIAERESIS..CYRILLIC SMALL LETTER ZE WITH DIAERESIS
04E2..04E7    ; NFD_QC; N # L&   [6] CYRILLIC CAPITAL LETTER I WITH MACRON..CYRILLIC SMALL LETTER O WITH DIAERESIS
04EA..04F5    ; NFD_QC; N # L&  [12] CYRILLIC CAPITAL LETTER BARRED O WITH DIAERESIS..CYRILLIC SMALL LETTER CHE WITH DIAERESIS
04F8..04F9    ; NFD_QC; N # L&   [2] CYRILLIC CAPITAL LETTER YERU WITH DIAERESIS..CYRILLIC SMALL LETTER YERU WITH DIAERESIS
0622..0626    ; NFD_QC; N # Lo   [5] ARABIC LETTER ALEF WITH MADDA ABOVE..ARABIC LETTER YEH WITH HAMZA ABOVE
06C0          ; NFD_QC; N # Lo       ARABIC LETTER HEH WITH YEH ABOVE
06C2          ; NFD_QC; N # Lo       ARABIC LETTER HEH GOAL WITH HAMZA ABOVE
06D3          ; NFD_QC; N # Lo       ARABIC LETTER YEH BARREE WITH HAMZA ABOVE
0929          ; NFD_QC; N # Lo       DEVANAGARI LETTER NNNA
0931          ; NFD_QC; N # Lo       DEVANAGARI LETTER RRA
0934          ; NFD_QC; N # Lo       DEVANAGARI LETTER LLLA
0958..095F    ; NFD_QC; N # Lo   [8] DEVANAGARI LETTER QA..DEVANAGARI LETTER YYA
09CB..09CC    ; NFD_QC; N # Mc   [2] BENGALI VOWEL SIGN O..BENGALI VOWEL SIGN AU
09DC..09DD    ; NFD_QC; N # Lo   [2] BENGALI LETTER RRA..BENGALI LETTER RHA
09DF          ; NFD_QC; N # Lo       BENGALI LETTER YYA
0A33          ; NFD_QC; N # Lo       GURMUKHI LETTER LLA
0A36          ; NFD_QC; N # Lo       GURMUKHI LETTER SHA
0A59..0A5B    ; NFD_QC; N # Lo   [3] GURMUKHI LETTER KHHA..GURMUKHI LETTER ZA
"%string.
Definition props_text_41 := "0A5E          ; NFD_QC; N # Lo       GURMUKHI LETTER FA
0B48          ; NFD_QC; N # Mc       ORIYA VOWEL SIGN AI
0B4B..0B4C    ; NFD_QC; N # Mc   [2] ORIYA VOWEL SIGN O..ORIYA VOWEL SIGN AU
0B5C..0B5D    ; NFD_QC; N # Lo   [2] ORIYA LETTER RRA..ORIYA LETTER RHA
0B94          ; NFD_QC; N # Lo       TAMIL LETTER AU
0BCA..0BCC    ; NFD_QC; N # Mc   [3] TAMIL VOWEL SIGN O..TAMIL VOWEL SIGN AU
0C48          ; NFD_QC; N # Mn       TELUGU VOWEL SIGN AI
0CC0          ; NFD_QC; N # Mc       KANNADA VOWEL SIGN II
0CC7..0CC8    ; NFD_QC; N # Mc   [2] KANNADA VOWEL SIGN EE..KANNADA VOWEL SIGN AI
0CCA..0CCB    ; NFD_QC; N # Mc   [2] KANNADA VOWEL SIGN O..KANNADA VOWEL SIGN OO
0D4A..0D4C    ; NFD_QC; N # Mc   [3] MALAYALAM VOWEL SIGN O..MALAYALAM VOWEL SIGN AU
0DDA          ; NFD_QC; N # Mc       SINHALA VOWEL SIGN DIGA KOMBUVA
0DDC..0DDE    ; NFD_QC; N # Mc   [3] SINHALA VOWEL SIGN KOMBUVA HAA AELA-PILLA..SINHALA VOWEL SIGN KOMBUVA HAA GAYANUKITTA
0F43          ; NFD_QC; N # Lo       TIBETAN LETTER GHA
0F4D          ; NFD_QC; N # Lo       TIBETAN LETTER DDHA
0F52          ; NFD_QC; N # Lo       TIBETAN LETTER DHA
0F57          ; NFD_QC; N # Lo       TIBETAN LETTER BHA
0F5C          ; NFD_QC; N # Lo       TIBETAN LETTER DZHA
0F69          ; NFD_QC; N # Lo       TIBETAN LETTER KSSA
0F73          ; NFD_QC; N # Mn       TIBETAN VOWEL SIGN II
"%string.
Definition props_text_42 := "0F75..0F76    ; NFD_QC; N # Mn   [2] TIBETAN VOWEL SIGN UU..TIBETAN VOWEL SIGN VOCALIC R
0F78          ; NFD_QC; N # Mn       TIBETAN VOWEL SIGN VOCALIC L
0F81          ; NFD_QC; N # Mn       TIBETAN VOWEL SIGN REVERSED II
0F93          ; NFD_QC; N # Mn       TIBETAN SUBJOINED LETTER GHA
0F9D          ; NFD_QC; N # Mn       TIBETAN SUBJOINED LETTER DDHA
0FA2          ; NFD_QC; N # Mn       TIBETAN SUBJOINED LETTER DHA
0FA7          ; NFD_QC; N # Mn       TIBETAN SUBJOINED LETTER BHA
0FAC          ; NFD_QC; N # Mn       TIBETAN SUBJOINED LETTER DZHA
0FB9          ; NFD_QC; N # Mn       TIBETAN SUBJOINED LETTER KSSA
1026          ; NFD_QC; N # Lo       MYANMAR LETTER UU
1B06          ; NFD_QC; N # Lo       BALINESE LETTER AKARA TEDUNG
1B08          ; NFD_QC; N # Lo       BALINESE LETTER IKARA TEDUNG
1B0A          ; NFD_QC; N # Lo       BALINESE LETTER UKARA TEDUNG
1B0C          ; NFD_QC; N # Lo       BALINESE LETTER RA REPA TEDUNG
1B0E          ; NFD_QC; N # Lo       BALINESE LETTER LA LENGA TEDUNG
1B12          ; NFD_QC; N # Lo       BALINESE LETTER OKARA TEDUNG
1B3B          ; NFD_QC; N # Mc       BALINESE VOWEL SIGN RA REPA TEDUNG
1B3D          ; NFD_QC; N # Mc       BALINESE VOWEL SIGN LA LENGA TEDUNG
1B40..1B41    ; NFD_QC; N # Mc   [2] BALINESE VOWEL SIGN TALING TEDUNG..BALINESE VOWEL SIGN TALING REPA TEDUNG
1B43          ; NFD_QC; N # Mc       BALINESE VOWEL SIGN PEPET TEDUNG
"%string.
Definition props_text_43 := "1E00..1E99    ; NFD_QC; N # L& [154] LATIN CAPITAL LETTER A WITH RING BELOW..LATIN SMALL LETTER Y WITH RING ABOVE
1E9B          ; NFD_QC; N # L&       LATIN SMALL LETTER LONG S WITH DOT ABOVE
1EA0..1EF9    ; NFD_QC; N # L&  [90] LATIN CAPITAL LETTER A WITH DOT BELOW..LATIN SMALL LETTER Y WITH TILDE
1F00..1F15    ; NFD_QC; N # L&  [22] GREEK SMALL LETTER ALPHA WITH PSILI..GREEK SMALL LETTER EPSILON WITH DASIA AND OXIA
1F18..1F1D    ; NFD_QC; N # L&   [6] GREEK CAPITAL LETTER EPSILON WITH PSILI..GREEK CAPITAL LETTER EPSILON WITH DASIA AND OXIA
1F20..1F45    ; NFD_QC; N # L&  [38] GREEK SMALL LETTER ETA WITH PSILI..GREEK SMALL LETTER OMICRON WITH DASIA AND OXIA
1F48..1F4D    ; NFD_QC; N # L&   [6] GREEK CAPITAL LETTER OMICRON WITH PSILI..GREEK CAPITAL LETTER OMICRON WITH DASIA AND OXIA
1F50..1F57    ; NFD_QC; N # L&   [8] GREEK SMALL LETTER UPSILON WITH PSILI..GREEK SMALL LETTER UPSILON WITH DASIA AND PERISPOMENI
1F59          ; NFD_QC; N # L&       GREEK CAPITAL LETTER UPSILON WITH DASIA
1F5B          ; NFD_QC; N # L&       GREEK CAPITAL LETTER UPSILON WITH DASIA AND VARIA
1F5D          ; NFD_QC; N # L&       GREEK CAPITAL LETTER UPSILON WITH DASIA AND OXIA
1F5F..1F7D    ; NFD_QC; N # L&  [31] GREEK CAPITAL LETTER UPSILON WITH DASIA AND PERISPOMENI..GREEK SMALL LETTER OMEGA WITH OXIA
1F80..1FB4    ; NFD_QC; N # L&  [53] GREEK SMALL LETTER ALPHA WITH PSILI AND YPOGEGRAMMENI..GREEK SMALL LETTER ALPHA WITH OXIA AND YPOGEGRAMMENI
1FB6..1FBC    ; NFD_QC; N # L&   [7] GREEK SMALL LETTER ALPHA WITH PERISPOMENI..GREEK CAPITAL LETTER ALPHA WITH PROSGEGRAMMENI
1FBE          ; NFD_QC; N # L&       GREEK PROSGEGRAMMENI
1FC1          ; NFD_QC; N # Sk       GREEK DIALYTIKA AND PERISPOMENI
1FC2..1FC4    ; NFD_QC; N # L&   [3] GREEK SMALL LETTER ETA WITH VARIA AND YPOGEGRAMMENI..GREEK SMALL LETTER ETA WITH OXIA AND YPOGEGRAMMENI
1FC6..1FCC    ; NFD_QC; N # L&   [7] GREEK SMALL LETTER ETA WITH PERISPOMENI..GREEK CAPITAL LETTER ETA WITH PROSGEGRAMMENI
1FCD..1FCF    ; NFD_QC; N # Sk   [3] GREEK PSILI AND VARIA..GREEK PSILI AND PERISPOMENI
1FD0..1FD3    ; NFD_QC; N # L&   [4] GREEK SMALL LETTER IOTA WITH VRACHY..GREEK SMALL LETTER IOTA WITH DIALYTIKA AND OXIA
"%string.
Definition props_text_44 := "1FD6..1FDB    ; NFD_QC; N # L&   [6] GREEK SMALL LETTER IOTA WITH PERISPOMENI..GREEK CAPITAL LETTER IOTA WITH OXIA
1FDD..1FDF    ; NFD_QC; N # Sk   [3] GREEK DASIA AND VARIA..GREEK DASIA AND PERISPOMENI
1FE0..1FEC    ; NFD_QC; N # L&  [13] GREEK SMALL LETTER UPSILON WITH VRACHY..GREEK CAPITAL LETTER RHO WITH DASIA
1FED..1FEF    ; NFD_QC; N # Sk   [3] GREEK DIALYTIKA AND VARIA..GREEK VARIA
1FF2..1FF4    ; NFD_QC; N # L&   [3] GREEK SMALL LETTER OMEGA WITH VARIA AND YPOGEGRAMMENI..GREEK SMALL LETTER OMEGA WITH OXIA AND YPOGEGRAMMENI
1FF6..1FFC    ; NFD_QC; N # L&   [7] GREEK SMALL LETTER OMEGA WITH PERISPOMENI..GREEK CAPITAL LETTER OMEGA WITH PROSGEGRAMMENI
1FFD          ; NFD_QC; N # Sk       GREEK OXIA
2000..2001    ; NFD_QC; N # Zs   [2] EN QUAD..EM QUAD
2126          ; NFD_QC; N # L&       OHM SIGN
212A..212B    ; NFD_QC; N # L&   [2] KELVIN SIGN..ANGSTROM SIGN
219A..219B    ; NFD_QC; N # Sm   [2] LEFTWARDS ARROW WITH STROKE..RIGHTWARDS ARROW WITH STROKE
21AE          ; NFD_QC; N # Sm       LEFT RIGHT ARROW WITH STROKE
21CD          ; NFD_QC; N # So       LEFTWARDS DOUBLE ARROW WITH STROKE
21CE..21CF    ; NFD_QC; N # Sm   [2] LEFT RIGHT DOUBLE ARROW WITH STROKE..RIGHTWARDS DOUBLE ARROW WITH STROKE
2204          ; NFD_QC; N # Sm       THERE DOES NOT EXIST
2209          ; NFD_QC; N # Sm       NOT AN ELEMENT OF
220C          ; NFD_QC; N # Sm       DOES NOT CONTAIN AS MEMBER
2224          ; NFD_QC; N # Sm       DOES NOT DIVIDE
2226          ; NFD_QC; N # Sm       NOT PARALLEL TO
2241          ; NFD_QC; N # Sm       NOT TILDE
"%string.
Definition props_text_45 := "2244          ; NFD_QC; N # Sm       NOT ASYMPTOTICALLY EQUAL TO
2247          ; NFD_QC; N # Sm       NEITHER APPROXIMATELY NOR ACTUALLY EQUAL TO
2249          ; NFD_QC; N # Sm       NOT ALMOST EQUAL TO
2260          ; NFD_QC; N # Sm       NOT EQUAL TO
2262          ; NFD_QC; N # Sm       NOT IDENTICAL TO
226D..2271    ; NFD_QC; N # Sm   [5] NOT EQUIVALENT TO..NEITHER GREATER-THAN NOR EQUAL TO
2274..2275    ; NFD_QC; N # Sm   [2] NEITHER LESS-THAN NOR EQUIVALENT TO..NEITHER GREATER-THAN NOR EQUIVALENT TO
2278..2279    ; NFD_QC; N # Sm   [2] NEITHER LESS-THAN NOR GREATER-THAN..NEITHER GREATER-THAN NOR LESS-THAN
2280..2281    ; NFD_QC; N # Sm   [2] DOES NOT PRECEDE..DOES NOT SUCCEED
2284..2285    ; NFD_QC; N # Sm   [2] NOT A SUBSET OF..NOT A SUPERSET OF
2288..2289    ; NFD_QC; N # Sm   [2] NEITHER A SUBSET OF NOR EQUAL TO..NEITHER A SUPERSET OF NOR EQUAL TO
22AC..22AF    ; NFD_QC; N # Sm   [4] DOES NOT PROVE..NEGATED DOUBLE VERTICAL BAR DOUBLE RIGHT TURNSTILE
22E0..22E3    ; NFD_QC; N # Sm   [4] DOES NOT PRECEDE OR EQUAL..NOT SQUARE ORIGINAL OF OR EQUAL TO
22EA..22ED    ; NFD_QC; N # Sm   [4] NOT NORMAL SUBGROUP OF..DOES NOT CONTAIN AS NORMAL SUBGROUP OR EQUAL
2329          ; NFD_QC; N # Ps       LEFT-POINTING ANGLE BRACKET
232A          ; NFD_QC; N # Pe       RIGHT-POINTING ANGLE BRACKET
2ADC          ; NFD_QC; N # Sm       FORKING
304C          ; NFD_QC; N # Lo       HIRAGANA LETTER GA
304E          ; NFD_QC; N # Lo       HIRAGANA LETTER GI
3050          ; NFD_QC; N # Lo       HIRAGANA LETTER GU
"%string.
Definition props_text_46 := "3052          ; NFD_QC; N # Lo       HIRAGANA LETTER GE
3054          ; NFD_QC; N # Lo       HIRAGANA LETTER GO
3056          ; NFD_QC; N # Lo       HIRAGANA LETTER ZA
3058          ; NFD_QC; N # Lo       HIRAGANA LETTER ZI
305A          ; NFD_QC; N # Lo       HIRAGANA LETTER ZU
305C          ; NFD_QC; N # Lo       HIRAGANA LETTER ZE
305E          ; NFD_QC; N # Lo       HIRAGANA LETTER ZO
3060          ; NFD_QC; N # Lo       HIRAGANA LETTER DA
3062          ; NFD_QC; N # Lo       HIRAGANA LETTER DI
3065          ; NFD_QC; N # Lo       HIRAGANA LETTER DU
3067          ; NFD_QC; N # Lo       HIRAGANA LETTER DE
3069          ; NFD_QC; N # Lo       HIRAGANA LETTER DO
3070..3071    ; NFD_QC; N # Lo   [2] HIRAGANA LETTER BA..HIRAGANA LETTER PA
3073..3074    ; NFD_QC; N # Lo   [2] HIRAGANA LETTER BI..HIRAGANA LETTER PI
3076..3077    ; NFD_QC; N # Lo   [2] HIRAGANA LETTER BU..HIRAGANA LETTER PU
3079..307A    ; NFD_QC; N # Lo   [2] HIRAGANA LETTER BE..HIRAGANA LETTER PE
307C..307D    ; NFD_QC; N # Lo   [2] HIRAGANA LETTER BO..HIRAGANA LETTER PO
3094          ; NFD_QC; N # Lo       HIRAGANA LETTER VU
309E          ; NFD_QC; N # Lm       HIRAGANA VOICED ITERATION MARK
30AC          ; NFD_QC; N # Lo       KATAKANA LETTER GA
"%string.
Definition props_text_47 := "30AE          ; NFD_QC; N # Lo       KATAKANA LETTER GI
30B0          ; NFD_QC; N # Lo       KATAKANA LETTER GU
30B2          ; NFD_QC; N # Lo       KATAKANA LETTER GE
30B4          ; NFD_QC; N # Lo       KATAKANA LETTER GO
30B6          ; NFD_QC; N # Lo       KATAKANA LETTER ZA
30B8          ; NFD_QC; N # Lo       KATAKANA LETTER ZI
30BA          ; NFD_QC; N # Lo       KATAKANA LETTER ZU
30BC          ; NFD_QC; N # Lo       KATAKANA LETTER ZE
30BE          ; NFD_QC; N # Lo       KATAKANA LETTER ZO
30C0          ; NFD_QC; N # Lo       KATAKANA LETTER DA
30C2          ; NFD_QC; N # Lo       KATAKANA LETTER DI
30C5          ; NFD_QC; N # Lo       KATAKANA LETTER DU
30C7          ; NFD_QC; N # Lo       KATAKANA LETTER DE
30C9          ; NFD_QC; N # Lo       KATAKANA LETTER DO
30D0..30D1    ; NFD_QC; N # Lo   [2] KATAKANA LETTER BA..KATAKANA LETTER PA
30D3..30D4    ; NFD_QC; N # Lo   [2] KATAKANA LETTER BI..KATAKANA LETTER PI
30D6..30D7    ; NFD_QC; N # Lo   [2] KATAKANA LETTER BU..KATAKANA LETTER PU
30D9..30DA    ; NFD_QC; N # Lo   [2] KATAKANA LETTER BE..KATAKANA LETTER PE
30DC..30DD    ; NFD_QC; N # Lo   [2] KATAKANA LETTER BO..KATAKANA LETTER PO
30F4          ; NFD_QC; N # Lo       KATAKANA LETTER VU
"%string.
Definition props_text_48 := "30F7..30FA    ; NFD_QC; N # Lo   [4] KATAKANA LETTER VA..KATAKANA LETTER VO
30FE          ; NFD_QC; N # Lm       KATAKANA VOICED ITERATION MARK
AC00..D7A3    ; NFD_QC; N # Lo [11172] HANGUL SYLLABLE GA..HANGUL SYLLABLE HIH
F900..FA0D    ; NFD_QC; N # Lo [270] CJK COMPATIBILITY IDEOGRAPH-F900..CJK COMPATIBILITY IDEOGRAPH-FA0D
FA10          ; NFD_QC; N # Lo       CJK COMPATIBILITY IDEOGRAPH-FA10
FA12          ; NFD_QC; N # Lo       CJK COMPATIBILITY IDEOGRAPH-FA12
FA15..FA1E    ; NFD_QC; N # Lo  [10] CJK COMPATIBILITY IDEOGRAPH-FA15..CJK COMPATIBILITY IDEOGRAPH-FA1E
FA20          ; NFD_QC; N # Lo       CJK COMPATIBILITY IDEOGRAPH-FA20
FA22          ; NFD_QC; N # Lo       CJK COMPATIBILITY IDEOGRAPH-FA22
FA25..FA26    ; NFD_QC; N # Lo   [2] CJK COMPATIBILITY IDEOGRAPH-FA25..CJK COMPATIBILITY IDEOGRAPH-FA26
FA2A..FA6D    ; NFD_QC; N # Lo  [68] CJK COMPATIBILITY IDEOGRAPH-FA2A..CJK COMPATIBILITY IDEOGRAPH-FA6D
FA70..FAD9    ; NFD_QC; N # Lo [106] CJK COMPATIBILITY IDEOGRAPH-FA70..CJK COMPATIBILITY IDEOGRAPH-FAD9
FB1D          ; NFD_QC; N # Lo       HEBREW LETTER YOD WITH HIRIQ
FB1F          ; NFD_QC; N # Lo       HEBREW LIGATURE YIDDISH YOD YOD PATAH
FB2A..FB36    ; NFD_QC; N # Lo  [13] HEBREW LETTER SHIN WITH SHIN DOT..HEBREW LETTER ZAYIN WITH DAGESH
FB38..FB3C    ; NFD_QC; N # Lo   [5] HEBREW LETTER TET WITH DAGESH..HEBREW LETTER LAMED WITH DAGESH
FB3E          ; NFD_QC; N # Lo       HEBREW LETTER MEM WITH DAGESH
FB40..FB41    ; NFD_QC; N # Lo   [2] HEBREW LETTER NUN WITH DAGESH..HEBREW LETTER SAMEKH WITH DAGESH
FB43..FB44    ; NFD_QC; N # Lo   [2] HEBREW LETTER FINAL PE WITH DAGESH..HEBREW LETTER PE WITH DAGESH
FB46..FB4E    ; NFD_QC; N # Lo   [9] HEBREW LETTER TSADI WITH DAGESH..HEBREW LETTER PE WITH RAFE
"%string.
Definition props_text_49 := "1109A         ; NFD_QC; N # Lo       KAITHI LETTER DDDHA
1109C         ; NFD_QC; N # Lo       KAITHI LETTER RHA
110AB         ; NFD_QC; N # Lo       KAITHI LETTER VA
1112E..1112F  ; NFD_QC; N # Mn   [2] CHAKMA VOWEL SIGN O..CHAKMA VOWEL SIGN AU
1134B..1134C  ; NFD_QC; N # Mc   [2] GRANTHA VOWEL SIGN OO..GRANTHA VOWEL SIGN AU
114BB..114BC  ; NFD_QC; N # Mc   [2] TIRHUTA VOWEL SIGN AI..TIRHUTA VOWEL SIGN O
114BE         ; NFD_QC; N # Mc       TIRHUTA VOWEL SIGN AU
115BA..115BB  ; NFD_QC; N # Mc   [2] SIDDHAM VOWEL SIGN O..SIDDHAM VOWEL SIGN AU
11938         ; NFD_QC; N # Mc       DIVES AKURU VOWEL SIGN O
1D15E..1D164  ; NFD_QC; N # So   [7] MUSICAL SYMBOL HALF NOTE..MUSICAL SYMBOL ONE HUNDRED TWENTY-EIGHTH NOTE
1D1BB..1D1C0  ; NFD_QC; N # So   [6] MUSICAL SYMBOL MINIMA..MUSICAL SYMBOL FUSA BLACK
2F800..2FA1D  ; NFD_QC; N # Lo [542] CJK COMPATIBILITY IDEOGRAPH-2F800..CJK COMPATIBILITY IDEOGRAPH-2FA1D

# Total code points: 13233

# ================================================

# Property:	NFC_Quick_Check

#  All code points not explicitly listed for NFC_Quick_Check
"%string.
Definition props_text_50 := "#  have the value Yes (Y).

# @missing: 0000..10FFFF; NFC_QC; Yes

# ================================================

# NFC_Quick_Check=No

0340..0341    ; NFC_QC; N # Mn   [2] COMBINING GRAVE TONE MARK..COMBINING ACUTE TONE MARK
0343..0344    ; NFC_QC; N # Mn   [2] COMBINING GREEK KORONIS..COMBINING GREEK DIALYTIKA TONOS
0374          ; NFC_QC; N # Lm       GREEK NUMERAL SIGN
037E          ; NFC_QC; N # Po       GREEK QUESTION MARK
0387          ; NFC_QC; N # Po       GREEK ANO TELEIA
0958..095F    ; NFC_QC; N # Lo   [8] DEVANAGARI LETTER QA..DEVANAGARI LETTER YYA
09DC..09DD    ; NFC_QC; N # Lo   [2] BENGALI LETTER RRA..BENGALI LETTER RHA
09DF          ; NFC_QC; N # Lo       BENGALI LETTER YYA
0A33          ; NFC_QC; N # Lo       GURMUKHI LETTER LLA
0A36          ; NFC_QC; N # Lo       GURMUKHI LETTER SHA
0A59..0A5B    ; NFC_QC; N # Lo   [3] GURMUKHI LETTER KHHA..GURMUKHI LETTER ZA
0A5E          ; NFC_QC; N # Lo       GURMUKHI LETTER FA
"%string.
Definition props_text_51 := "0B5C..0B5D    ; NFC_QC; N # Lo   [2] ORIYA LETTER RRA..ORIYA LETTER RHA
0F43          ; NFC_QC; N # Lo       TIBETAN LETTER GHA
0F4D          ; NFC_QC; N # Lo       TIBETAN LETTER DDHA
0F52          ; NFC_QC; N # Lo       TIBETAN LETTER DHA
0F57          ; NFC_QC; N # Lo       TIBETAN LETTER BHA
0F5C          ; NFC_QC; N # Lo       TIBETAN LETTER DZHA
0F69          ; NFC_QC; N # Lo       TIBETAN LETTER KSSA
0F73          ; NFC_QC; N # Mn       TIBETAN VOWEL SIGN II
0F75..0F76    ; NFC_QC; N # Mn   [2] TIBETAN VOWEL SIGN UU..TIBETAN VOWEL SIGN VOCALIC R
0F78          ; NFC_QC; N # Mn       TIBETAN VOWEL SIGN VOCALIC L
0F81          ; NFC_QC; N # Mn       TIBETAN VOWEL SIGN REVERSED II
0F93          ; NFC_QC; N # Mn       TIBETAN SUBJOINED LETTER GHA
0F9D          ; NFC_QC; N # Mn       TIBETAN SUBJOINED LETTER DDHA
0FA2          ; NFC_QC; N # Mn       TIBETAN SUBJOINED LETTER DHA
0FA7          ; NFC_QC; N # Mn       TIBETAN SUBJOINED LETTER BHA
0FAC          ; NFC_QC; N # Mn       TIBETAN SUBJOINED LETTER DZHA
0FB9          ; NFC_QC; N # Mn       TIBETAN SUBJOINED LETTER KSSA
1F71          ; NFC_QC; N # L&       GREEK SMALL LETTER ALPHA WITH OXIA
1F73          ; NFC_QC; N # L&       GREEK SMALL LETTER EPSILON WITH OXIA
1F75          ; NFC_QC; N # L&       GREEK SMALL LETTER ETA WITH OXIA
"%string.
Definition props_text_52 := "1F77          ; NFC_QC; N # L&       GREEK SMALL LETTER IOTA WITH OXIA
1F79          ; NFC_QC; N # L&       GREEK SMALL LETTER OMICRON WITH OXIA
1F7B          ; NFC_QC; N # L&       GREEK SMALL LETTER UPSILON WITH OXIA
1F7D          ; NFC_QC; N # L&       GREEK SMALL LETTER OMEGA WITH OXIA
1FBB          ; NFC_QC; N # L&       GREEK CAPITAL LETTER ALPHA WITH OXIA
1FBE          ; NFC_QC; N # L&       GREEK PROSGEGRAMMENI
1FC9          ; NFC_QC; N # L&       GREEK CAPITAL LETTER EPSILON WITH OXIA
1FCB          ; NFC_QC; N # L&       GREEK CAPITAL LETTER ETA WITH OXIA
1FD3          ; NFC_QC; N # L&       GREEK SMALL LETTER IOTA WITH DIALYTIKA AND OXIA
1FDB          ; NFC_QC; N # L&       GREEK CAPITAL LETTER IOTA WITH OXIA
1FE3          ; NFC_QC; N # L&       GREEK SMALL LETTER UPSILON WITH DIALYTIKA AND OXIA
1FEB          ; NFC_QC; N # L&       GREEK CAPITAL LETTER UPSILON WITH OXIA
1FEE..1FEF    ; NFC_QC; N # Sk   [2] GREEK DIALYTIKA AND OXIA..GREEK VARIA
1FF9          ; NFC_QC; N # L&       GREEK CAPITAL LETTER OMICRON WITH OXIA
1FFB          ; NFC_QC; N # L&       GREEK CAPITAL LETTER OMEGA WITH OXIA
1FFD          ; NFC_QC; N # Sk       GREEK OXIA
2000..2001    ; NFC_QC; N # Zs   [2] EN QUAD..EM QUAD
2126          ; NFC_QC; N # L&       OHM SIGN
212A..212B    ; NFC_QC; N # L&   [2] KELVIN SIGN..ANGSTROM SIGN
2329          ; NFC_QC; N # Ps       LEFT-POINTING ANGLE BRACKET
"%string.
Definition props_text_53 := "232A          ; NFC_QC; N # Pe       RIGHT-POINTING ANGLE BRACKET
2ADC          ; NFC_QC; N # Sm       FORKING
F900..FA0D    ; NFC_QC; N # Lo [270] CJK COMPATIBILITY IDEOGRAPH-F900..CJK COMPATIBILITY IDEOGRAPH-FA0D
FA10          ; NFC_QC; N # Lo       CJK COMPATIBILITY IDEOGRAPH-FA10
FA12          ; NFC_QC; N # Lo       CJK COMPATIBILITY IDEOGRAPH-FA12
FA15..FA1E    ; NFC_QC; N # Lo  [10] CJK COMPATIBILITY IDEOGRAPH-FA15..CJK COMPATIBILITY IDEOGRAPH-FA1E
FA20          ; NFC_QC; N # Lo       CJK COMPATIBILITY IDEOGRAPH-FA20
FA22          ; NFC_QC; N # Lo       CJK COMPATIBILITY IDEOGRAPH-FA22
FA25..FA26    ; NFC_QC; N # Lo   [2] CJK COMPATIBILITY IDEOGRAPH-FA25..CJK COMPATIBILITY IDEOGRAPH-FA26
FA2A..FA6D    ; NFC_QC; N # Lo  [68] CJK COMPATIBILITY IDEOGRAPH-FA2A..CJK COMPATIBILITY IDEOGRAPH-FA6D
FA70..FAD9    ; NFC_QC; N # Lo [106] CJK COMPATIBILITY IDEOGRAPH-FA70..CJK COMPATIBILITY IDEOGRAPH-FAD9
FB1D          ; NFC_QC; N # Lo       HEBREW LETTER YOD WITH HIRIQ
FB1F          ; NFC_QC; N # Lo       HEBREW LIGATURE YIDDISH YOD YOD PATAH
FB2A..FB36    ; NFC_QC; N # Lo  [13] HEBREW LETTER SHIN WITH SHIN DOT..HEBREW LETTER ZAYIN WITH DAGESH
FB38..FB3C    ; NFC_QC; N # Lo   [5] HEBREW LETTER TET WITH DAGESH..HEBREW LETTER LAMED WITH DAGESH
FB3E          ; NFC_QC; N # Lo       HEBREW LETTER MEM WITH DAGESH
FB40..FB41    ; NFC_QC; N # Lo   [2] HEBREW LETTER NUN WITH DAGESH..HEBREW LETTER SAMEKH WITH DAGESH
FB43..FB44    ; NFC_QC; N # Lo   [2] HEBREW LETTER FINAL PE WITH DAGESH..HEBREW LETTER PE WITH DAGESH
FB46..FB4E    ; NFC_QC; N # Lo   [9] HEBREW LETTER TSADI WITH DAGESH..HEBREW LETTER PE WITH RAFE
1D15E..1D164  ; NFC_QC; N # So   [7] MUSICAL SYMBOL HALF NOTE..MUSICAL SYMBOL ONE HUNDRED TWENTY-EIGHTH NOTE
"%string.
Definition props_text_54 := "1D1BB..1D1C0  ; NFC_QC; N # So   [6] MUSICAL SYMBOL MINIMA..MUSICAL SYMBOL FUSA BLACK
2F800..2FA1D  ; NFC_QC; N # Lo [542] CJK COMPATIBILITY IDEOGRAPH-2F800..CJK COMPATIBILITY IDEOGRAPH-2FA1D

# Total code points: 1120

# ================================================

# NFC_Quick_Check=Maybe

0300..0304    ; NFC_QC; M # Mn   [5] COMBINING GRAVE ACCENT..COMBINING MACRON
0306..030C    ; NFC_QC; M # Mn   [7] COMBINING BREVE..COMBINING CARON
030F          ; NFC_QC; M # Mn       COMBINING DOUBLE GRAVE ACCENT
0311          ; NFC_QC; M # Mn       COMBINING INVERTED BREVE
0313..0314    ; NFC_QC; M # Mn   [2] COMBINING COMMA ABOVE..COMBINING REVERSED COMMA ABOVE
031B          ; NFC_QC; M # Mn       COMBINING HORN
0323..0328    ; NFC_QC; M # Mn   [6] COMBINING DOT BELOW..COMBINING OGONEK
032D..032E    ; NFC_QC; M # Mn   [2] COMBINING CIRCUMFLEX ACCENT BELOW..COMBINING BREVE BELOW
0330..0331    ; NFC_QC; M # Mn   [2] COMBINING TILDE BELOW..COMBINING MACRON BELOW
0338          ; NFC_QC; M # Mn       COMBINING LONG SOLIDUS OVERLAY
0342          ; NFC_QC; M # Mn       COMBINING GREEK PERISPOMENI
"%string.
Definition props_text_55 := "0345          ; NFC_QC; M # Mn       COMBINING GREEK YPOGEGRAMMENI
0653..0655    ; NFC_QC; M # Mn   [3] ARABIC MADDAH ABOVE..ARABIC HAMZA BELOW
093C          ; NFC_QC; M # Mn       DEVANAGARI SIGN NUKTA
09BE          ; NFC_QC; M # Mc       BENGALI VOWEL SIGN AA
09D7          ; NFC_QC; M # Mc       BENGALI AU LENGTH MARK
0B3E          ; NFC_QC; M # Mc       ORIYA VOWEL SIGN AA
0B56          ; NFC_QC; M # Mn       ORIYA AI LENGTH MARK
0B57          ; NFC_QC; M # Mc       ORIYA AU LENGTH MARK
0BBE          ; NFC_QC; M # Mc       TAMIL VOWEL SIGN AA
0BD7          ; NFC_QC; M # Mc       TAMIL AU LENGTH MARK
0C56          ; NFC_QC; M # Mn       TELUGU AI LENGTH MARK
0CC2          ; NFC_QC; M # Mc       KANNADA VOWEL SIGN UU
0CD5..0CD6    ; NFC_QC; M # Mc   [2] KANNADA LENGTH MARK..KANNADA AI LENGTH MARK
0D3E          ; NFC_QC; M # Mc       MALAYALAM VOWEL SIGN AA
0D57          ; NFC_QC; M # Mc       MALAYALAM AU LENGTH MARK
0DCA          ; NFC_QC; M # Mn       SINHALA SIGN AL-LAKUNA
0DCF          ; NFC_QC; M # Mc       SINHALA VOWEL SIGN AELA-PILLA
0DDF          ; NFC_QC; M # Mc       SINHALA VOWEL SIGN GAYANUKITTA
102E          ; NFC_QC; M # Mn       MYANMAR VOWEL SIGN II
1161..1175    ; NFC_QC; M # Lo  [21] HANGUL JUNGSEONG A..HANGUL JUNGSEONG I
"%string.
Definition props_text_56 := "11A8..11C2    ; NFC_QC; M # Lo  [27] HANGUL JONGSEONG KIYEOK..HANGUL JONGSEONG HIEUH
1B35          ; NFC_QC; M # Mc       BALINESE VOWEL SIGN TEDUNG
3099..309A    ; NFC_QC; M # Mn   [2] COMBINING KATAKANA-HIRAGANA VOICED SOUND MARK..COMBINING KATAKANA-HIRAGANA SEMI-VOICED SOUND MARK
110BA         ; NFC_QC; M # Mn       KAITHI SIGN NUKTA
11127         ; NFC_QC; M # Mn       CHAKMA VOWEL SIGN A
1133E         ; NFC_QC; M # Mc       GRANTHA VOWEL SIGN AA
11357         ; NFC_QC; M # Mc       GRANTHA AU LENGTH MARK
114B0         ; NFC_QC; M # Mc       TIRHUTA VOWEL SIGN AA
114BA         ; NFC_QC; M # Mn       TIRHUTA VOWEL SIGN SHORT E
114BD         ; NFC_QC; M # Mc       TIRHUTA VOWEL SIGN SHORT O
115AF         ; NFC_QC; M # Mc       SIDDHAM VOWEL SIGN AA
11930         ; NFC_QC; M # Mc       DIVES AKURU VOWEL SIGN AA

# Total code points: 111

# ================================================

# Property:	NFKD_Quick_Check

#  All code points not explicitly listed for NFKD_Quick_Check
"%string.
Definition props_text_57 := "#  have the value Yes (Y).

# @missing: 0000..10FFFF; NFKD_QC; Yes

# ================================================

# NFKD_Quick_Check=No

00A0          ; NFKD_QC; N # Zs       NO-BREAK SPACE
00A8          ; NFKD_QC; N # Sk       DIAERESIS
00AA          ; NFKD_QC; N # Lo       FEMININE ORDINAL INDICATOR
00AF          ; NFKD_QC; N # Sk       MACRON
00B2..00B3    ; NFKD_QC; N # No   [2] SUPERSCRIPT TWO..SUPERSCRIPT THREE
00B4          ; NFKD_QC; N # Sk       ACUTE ACCENT
00B5          ; NFKD_QC; N # L&       MICRO SIGN
00B8          ; NFKD_QC; N # Sk       CEDILLA
00B9          ; NFKD_QC; N # No       SUPERSCRIPT ONE
00BA          ; NFKD_QC; N # Lo       MASCULINE ORDINAL INDICATOR
00BC..00BE    ; NFKD_QC; N # No   [3] VULGAR FRACTION ONE QUARTER..VULGAR FRACTION THREE QUARTERS
00C0..00C5    ; NFKD_QC; N # L&   [6] LATIN CAPITAL LETTER A WITH GRAVE..LATIN CAPITAL LETTER A WITH RING ABOVE
"%string.
Definition props_text_58 := "00C7..00CF    ; NFKD_QC; N # L&   [9] LATIN CAPITAL LETTER C WITH CEDILLA..LATIN CAPITAL LETTER I WITH DIAERESIS
00D1..00D6    ; NFKD_QC; N # L&   [6] LATIN CAPITAL LETTER N WITH TILDE..LATIN CAPITAL LETTER O WITH DIAERESIS
00D9..00DD    ; NFKD_QC; N # L&   [5] LATIN CAPITAL LETTER U WITH GRAVE..LATIN CAPITAL LETTER Y WITH ACUTE
00E0..00E5    ; NFKD_QC; N # L&   [6] LATIN SMALL LETTER A WITH GRAVE..LATIN SMALL LETTER A WITH RING ABOVE
00E7..00EF    ; NFKD_QC; N # L&   [9] LATIN SMALL LETTER C WITH CEDILLA..LATIN SMALL LETTER I WITH DIAERESIS
00F1..00F6    ; NFKD_QC; N # L&   [6] LATIN SMALL LETTER N WITH TILDE..LATIN SMALL LETTER O WITH DIAERESIS
00F9..00FD    ; NFKD_QC; N # L&   [5] LATIN SMALL LETTER U WITH GRAVE..LATIN SMALL LETTER Y WITH ACUTE
00FF..010F    ; NFKD_QC; N # L&  [17] LATIN SMALL LETTER Y WITH DIAERESIS..LATIN SMALL LETTER D WITH CARON
0112..0125    ; NFKD_QC; N # L&  [20] LATIN CAPITAL LETTER E WITH MACRON..LATIN SMALL LETTER H WITH CIRCUMFLEX
0128..0130    ; NFKD_QC; N # L&   [9] LATIN CAPITAL LETTER I WITH TILDE..LATIN CAPITAL LETTER I WITH DOT ABOVE
0132..0137    ; NFKD_QC; N # L&   [6] LATIN CAPITAL LIGATURE IJ..LATIN SMALL LETTER K WITH CEDILLA
0139..0140    ; NFKD_QC; N # L&   [8] LATIN CAPITAL LETTER L WITH ACUTE..LATIN SMALL LETTER L WITH MIDDLE DOT
0143..0149    ; NFKD_QC; N # L&   [7] LATIN CAPITAL LETTER N WITH ACUTE..LATIN SMALL LETTER N PRECEDED BY APOSTROPHE
014C..0151    ; NFKD_QC; N # L&   [6] LATIN CAPITAL LETTER O WITH MACRON..LATIN SMALL LETTER O WITH DOUBLE ACUTE
0154..0165    ; NFKD_QC; N # L&  [18] LATIN CAPITAL LETTER R WITH ACUTE..LATIN SMALL LETTER T WITH CARON
0168..017F    ; NFKD_QC; N # L&  [24] LATIN CAPITAL LETTER U WITH TILDE..LATIN SMALL LETTER LONG S
01A0..01A1    ; NFKD_QC; N # L&   [2] LATIN CAPITAL LETTER O WITH HORN..LATIN SMALL LETTER O WITH HORN
01AF..01B0    ; NFKD_QC; N # L&   [2] LATIN CAPITAL LETTER U WITH HORN..LATIN SMALL LETTER U WITH HORN
01C4..01DC    ; NFKD_QC; N # L&  [25] LATIN CAPITAL LETTER DZ WITH CARON..LATIN SMALL LETTER U WITH DIAERESIS AND GRAVE
01DE..01E3    ; NFKD_QC; N # L&   [6] LATIN CAPITAL LETTER A WITH DIAERESIS AND MACRON..LATIN SMALL LETTER AE WITH MACRON
"%string.
Definition props_text_59 := "01E6..01F5    ; NFKD_QC; N # L&  [16] LATIN CAPITAL LETTER G WITH CARON..LATIN SMALL LETTER G WITH ACUTE
01F8..021B    ; NFKD_QC; N # L&  [36] LATIN CAPITAL LETTER N WITH GRAVE..LATIN SMALL LETTER T WITH COMMA BELOW
021E..021F    ; NFKD_QC; N # L&   [2] LATIN CAPITAL LETTER H WITH CARON..LATIN SMALL LETTER H WITH CARON
0226..0233    ; NFKD_QC; N # L&  [14] LATIN CAPITAL LETTER A WITH DOT ABOVE..LATIN SMALL LETTER Y WITH MACRON
02B0..02B8    ; NFKD_QC; N # Lm   [9] MODIFIER LETTER SMALL H..MODIFIER LETTER SMALL Y
02D8..02DD    ; NFKD_QC; N # Sk   [6] BREVE..DOUBLE ACUTE ACCENT
02E0..02E4    ; NFKD_QC; N # Lm   [5] MODIFIER LETTER SMALL GAMMA..MODIFIER LETTER SMALL REVERSED GLOTTAL STOP
0340..0341    ; NFKD_QC; N # Mn   [2] COMBINING GRAVE TONE MARK..COMBINING ACUTE TONE MARK
0343..0344    ; NFKD_QC; N # Mn   [2] COMBINING GREEK KORONIS..COMBINING GREEK DIALYTIKA TONOS
0374          ; NFKD_QC; N # Lm       GREEK NUMERAL SIGN
037A          ; NFKD_QC; N # Lm       GREEK YPOGEGRAMMENI
037E          ; NFKD_QC; N # Po       GREEK QUESTION MARK
0384..0385    ; NFKD_QC; N # Sk   [2] GREEK TONOS..GREEK DIALYTIKA TONOS
0386          ; NFKD_QC; N # L&       GREEK CAPITAL LETTER ALPHA WITH TONOS
0387          ; NFKD_QC; N # Po       GREEK ANO TELEIA
0388..038A    ; NFKD_QC; N # L&   [3] GREEK CAPITAL LETTER EPSILON WITH TONOS..GREEK CAPITAL LETTER IOTA WITH TONOS
038C          ; NFKD_QC; N # L&       GREEK CAPITAL LETTER OMICRON WITH TONOS
038E..0390    ; NFKD_QC; N # L&   [3] GREEK CAPITAL LETTER UPSILON WITH TONOS..GREEK SMALL LETTER IOTA WITH DIALYTIKA AND TONOS
03AA..03B0    ; NFKD_QC; N # L&   [7] GREEK CAPITAL LETTER IOTA WITH DIALYTIKA..GREEK SMALL LETTER UPSILON WITH DIALYTIKA AND TONOS
03CA..03CE    ; NFKD_QC; N # L&   [5] GREEK SMALL LETTER IOTA WITH DIALYTIKA..GREEK SMALL LETTER OMEGA WITH TONOS
"%string.
Definition props_text_60 := "03D0..03D6    ; NFKD_QC; N # L&   [7] GREEK BETA SYMBOL..GREEK PI SYMBOL
03F0..03F2    ; NFKD_QC; N # L&   [3] GREEK KAPPA SYMBOL..GREEK LUNATE SIGMA SYMBOL
03F4..03F5    ; NFKD_QC; N # L&   [2] GREEK CAPITAL THETA SYMBOL..GREEK LUNATE EPSILON SYMBOL
03F9          ; NFKD_QC; N # L&       GREEK CAPITAL LUNATE SIGMA SYMBOL
0400..0401    ; NFKD_QC; N # L&   [2] CYRILLIC CAPITAL LETTER IE WITH GRAVE..CYRILLIC CAPITAL LETTER IO
0403          ; NFKD_QC; N # L&       CYRILLIC CAPITAL LETTER GJE
0407          ; NFKD_QC; N # L&       CYRILLIC CAPITAL LETTER YI
040C..040E    ; NFKD_QC; N # L&   [3] CYRILLIC CAPITAL LETTER KJE..CYRILLIC CAPITAL LETTER SHORT U
0419          ; NFKD_QC; N # L&       CYRILLIC CAPITAL LETTER SHORT I
0439          ; NFKD_QC; N # L&       CYRILLIC SMALL LETTER SHORT I
0450..0451    ; NFKD_QC; N # L&   [2] CYRILLIC SMALL LETTER IE WITH GRAVE..CYRILLIC SMALL LETTER IO
0453          ; NFKD_QC; N # L&       CYRILLIC SMALL LETTER GJE
0457          ; NFKD_QC; N # L&       CYRILLIC SMALL LETTER YI
045C..045E    ; NFKD_QC; N # L&   [3] CYRILLIC SMALL LETTER KJE..CYRILLIC SMALL LETTER SHORT U
0476..0477    ; NFKD_QC; N # L&   [2] CYRILLIC CAPITAL LETTER IZHITSA WITH DOUBLE GRAVE ACCENT..CYRILLIC SMALL LETTER IZHITSA WITH DOUBLE GRAVE ACCENT
04C1..04C2    ; NFKD_QC; N # L&   [2] CYRILLIC CAPITAL LETTER ZHE WITH BREVE..CYRILLIC SMALL LETTER ZHE WITH BREVE
04D0..04D3    ; NFKD_QC; N # L&   [4] CYRILLIC CAPITAL LETTER A WITH BREVE..CYRILLIC SMALL LETTER A WITH DIAERESIS
04D6..04D7    ; NFKD_QC; N # L&   [2] CYRILLIC CAPITAL LETTER IE WITH BREVE..CYRILLIC SMALL LETTER IE WITH BREVE
04DA..04DF    ; NFKD_QC; N # L&   [6] CYRILLIC CAPITAL LETTER SCHWA WITH DIAERESIS..CYRILLIC SMALL LETTER ZE WITH DIAERESIS
04E2..04E7    ; NFKD_QC; N # L&   [6] CYRILLIC CAPITAL LETTER I WITH MACRON..CYRILLIC SMALL LETTER O WITH DIAERESIS
"%string.
Definition props_text_61 := "04EA..04F5    ; NFKD_QC; N # L&  [12] CYRILLIC CAPITAL LETTER BARRED O WITH DIAERESIS..CYRILLIC SMALL LETTER CHE WITH DIAERESIS
04F8..04F9    ; NFKD_QC; N # L&   [2] CYRILLIC CAPITAL LETTER YERU WITH DIAERESIS..CYRILLIC SMALL LETTER YERU WITH DIAERESIS
0587          ; NFKD_QC; N # L&       ARMENIAN SMALL LIGATURE ECH YIWN
0622..0626    ; NFKD_QC; N # Lo   [5] ARABIC LETTER ALEF WITH MADDA ABOVE..ARABIC LETTER YEH WITH HAMZA ABOVE
0675..0678    ; NFKD_QC; N # Lo   [4] ARABIC LETTER HIGH HAMZA ALEF..ARABIC LETTER HIGH HAMZA YEH
06C0          ; NFKD_QC; N # Lo       ARABIC LETTER HEH WITH YEH ABOVE
06C2          ; NFKD_QC; N # Lo       ARABIC LETTER HEH GOAL WITH HAMZA ABOVE
06D3          ; NFKD_QC; N # Lo       ARABIC LETTER YEH BARREE WITH HAMZA ABOVE
0929          ; NFKD_QC; N # Lo       DEVANAGARI LETTER NNNA
0931          ; NFKD_QC; N # Lo       DEVANAGARI LETTER RRA
0934          ; NFKD_QC; N # Lo       DEVANAGARI LETTER LLLA
0958..095F    ; NFKD_QC; N # Lo   [8] DEVANAGARI LETTER QA..DEVANAGARI LETTER YYA
09CB..09CC    ; NFKD_QC; N # Mc   [2] BENGALI VOWEL SIGN O..BENGALI VOWEL SIGN AU
09DC..09DD    ; NFKD_QC; N # Lo   [2] BENGALI LETTER RRA..BENGALI LETTER RHA
09DF          ; NFKD_QC; N # Lo       BENGALI LETTER YYA
0A33          ; NFKD_QC; N # Lo       GURMUKHI LETTER LLA
0A36          ; NFKD_QC; N # Lo       GURMUKHI LETTER SHA
0A59..0A5B    ; NFKD_QC; N # Lo   [3] GURMUKHI LETTER KHHA..GURMUKHI LETTER ZA
0A5E          ; NFKD_QC; N # Lo       GURMUKHI LETTER FA
0B48          ; NFKD_QC; N # Mc       ORIYA VOWEL SIGN AI
"%string.
Definition props_text_62 := "0B4B..0B4C    ; NFKD_QC; N # Mc   [2] ORIYA VOWEL SIGN O..ORIYA VOWEL SIGN AU
0B5C..0B5D    ; NFKD_QC; N # Lo   [2] ORIYA LETTER RRA..ORIYA LETTER RHA
0B94          ; NFKD_QC; N # Lo       TAMIL LETTER AU
0BCA..0BCC    ; NFKD_QC; N # Mc   [3] TAMIL VOWEL SIGN O..TAMIL VOWEL SIGN AU
0C48          ; NFKD_QC; N # Mn       TELUGU VOWEL SIGN AI
0CC0          ; NFKD_QC; N # Mc       KANNADA VOWEL SIGN II
0CC7..0CC8    ; NFKD_QC; N # Mc   [2] KANNADA VOWEL SIGN EE..KANNADA VOWEL SIGN AI
0CCA..0CCB    ; NFKD_QC; N # Mc   [2] KANNADA VOWEL SIGN O..KANNADA VOWEL SIGN OO
0D4A..0D4C    ; NFKD_QC; N # Mc   [3] MALAYALAM VOWEL SIGN O..MALAYALAM VOWEL SIGN AU
0DDA          ; NFKD_QC; N # Mc       SINHALA VOWEL SIGN DIGA KOMBUVA
0DDC..0DDE    ; NFKD_QC; N # Mc   [3] SINHALA VOWEL SIGN KOMBUVA HAA AELA-PILLA..SINHALA VOWEL SIGN KOMBUVA HAA GAYANUKITTA
0E33          ; NFKD_QC; N # Lo       THAI CHARACTER SARA AM
0EB3          ; NFKD_QC; N # Lo       LAO VOWEL SIGN AM
0EDC..0EDD    ; NFKD_QC; N # Lo   [2] LAO HO NO..LAO HO MO
0F0C          ; NFKD_QC; N # Po       TIBETAN MARK DELIMITER TSHEG BSTAR
0F43          ; NFKD_QC; N # Lo       TIBETAN LETTER GHA
0F4D          ; NFKD_QC; N # Lo       TIBETAN LETTER DDHA
0F52          ; NFKD_QC; N # Lo       TIBETAN LETTER DHA
0F57          ; NFKD_QC; N # Lo       TIBETAN LETTER BHA
0F5C          ; NFKD_QC; N # Lo       TIBETAN LETTER DZHA
"%string.
Definition props_text_63 := "0F69          ; NFKD_QC; N # Lo       TIBETAN LETTER KSSA
0F73          ; NFKD_QC; N # Mn       TIBETAN VOWEL SIGN II
0F75..0F79    ; NFKD_QC; N # Mn   [5] TIBETAN VOWEL SIGN UU..TIBETAN VOWEL SIGN VOCALIC LL
0F81          ; NFKD_QC; N # Mn       TIBETAN VOWEL SIGN REVERSED II
0F93          ; NFKD_QC; N # Mn       TIBETAN SUBJOINED LETTER GHA
0F9D          ; NFKD_QC; N # Mn       TIBETAN SUBJOINED LETTER DDHA
0FA2          ; NFKD_QC; N # Mn       TIBETAN SUBJOINED LETTER DHA
0FA7          ; NFKD_QC; N # Mn       TIBETAN SUBJOINED LETTER BHA
0FAC          ; NFKD_QC; N # Mn       TIBETAN SUBJOINED LETTER DZHA
0FB9          ; NFKD_QC; N # Mn       TIBETAN SUBJOINED LETTER KSSA
1026          ; NFKD_QC; N # Lo       MYANMAR LETTER UU
10FC          ; NFKD_QC; N # Lm       MODIFIER LETTER GEORGIAN NAR
1B06          ; NFKD_QC; N # Lo       BALINESE LETTER AKARA TEDUNG
1B08          ; NFKD_QC; N # Lo       BALINESE LETTER IKARA TEDUNG
1B0A          ; NFKD_QC; N # Lo       BALINESE LETTER UKARA TEDUNG
1B0C          ; NFKD_QC; N # Lo       BALINESE LETTER RA REPA TEDUNG
1B0E          ; NFKD_QC; N # Lo       BALINESE LETTER LA LENGA TEDUNG
1B12          ; NFKD_QC; N # Lo       BALINESE LETTER OKARA TEDUNG
1B3B          ; NFKD_QC; N # Mc       BALINESE VOWEL SIGN RA REPA TEDUNG
1B3D          ; NFKD_QC; N # Mc       BALINESE VOWEL SIGN LA LENGA TEDUNG
"%string.
Definition props_text_64 := "1B40..1B41    ; NFKD_QC; N # Mc   [2] BALINESE VOWEL SIGN TALING TEDUNG..BALINESE VOWEL SIGN TALING REPA TEDUNG
1B43          ; NFKD_QC; N # Mc       BALINESE VOWEL SIGN PEPET TEDUNG
1D2C..1D2E    ; NFKD_QC; N # Lm   [3] MODIFIER LETTER CAPITAL A..MODIFIER LETTER CAPITAL B
1D30..1D3A    ; NFKD_QC; N # Lm  [11] MODIFIER LETTER CAPITAL D..MODIFIER LETTER CAPITAL N
1D3C..1D4D    ; NFKD_QC; N # Lm  [18] MODIFIER LETTER CAPITAL O..MODIFIER LETTER SMALL G
1D4F..1D6A    ; NFKD_QC; N # Lm  [28] MODIFIER LETTER SMALL K..GREEK SUBSCRIPT SMALL LETTER CHI
1D78          ; NFKD_QC; N # Lm       MODIFIER LETTER CYRILLIC EN
1D9B..1DBF    ; NFKD_QC; N # Lm  [37] MODIFIER LETTER SMALL TURNED ALPHA..MODIFIER LETTER SMALL THETA
1E00..1E9B    ; NFKD_QC; N # L& [156] LATIN CAPITAL LETTER A WITH RING BELOW..LATIN SMALL LETTER LONG S WITH DOT ABOVE
1EA0..1EF9    ; NFKD_QC; N # L&  [90] LATIN CAPITAL LETTER A WITH DOT BELOW..LATIN SMALL LETTER Y WITH TILDE
1F00..1F15    ; NFKD_QC; N # L&  [22] GREEK SMALL LETTER ALPHA WITH PSILI..GREEK SMALL LETTER EPSILON WITH DASIA AND OXIA
1F18..1F1D    ; NFKD_QC; N # L&   [6] GREEK CAPITAL LETTER EPSILON WITH PSILI..GREEK CAPITAL LETTER EPSILON WITH DASIA AND OXIA
1F20..1F45    ; NFKD_QC; N # L&  [38] GREEK SMALL LETTER ETA WITH PSILI..GREEK SMALL LETTER OMICRON WITH DASIA AND OXIA
1F48..1F4D    ; NFKD_QC; N # L&   [6] GREEK CAPITAL LETTER OMICRON WITH PSILI..GREEK CAPITAL LETTER OMICRON WITH DASIA AND OXIA
1F50..1F57    ; NFKD_QC; N # L&   [8] GREEK SMALL LETTER UPSILON WITH PSILI..GREEK SMALL LETTER UPSILON WITH DASIA AND PERISPOMENI
1F59          ; NFKD_QC; N # L&       GREEK CAPITAL LETTER UPSILON WITH DASIA
1F5B          ; NFKD_QC; N # L&       GREEK CAPITAL LETTER UPSILON WITH DASIA AND VARIA
1F5D          ; NFKD_QC; N # L&       GREEK CAPITAL LETTER UPSILON WITH DASIA AND OXIA
1F5F..1F7D    ; NFKD_QC; N # L&  [31] GREEK CAPITAL LETTER UPSILON WITH DASIA AND PERISPOMENI..GREEK SMALL LETTER OMEGA WITH OXIA
1F80..1FB4    ; NFKD_QC; N # L&  [53] GREEK SMALL LETTER ALPHA WITH PSILI AND YPOGEGRAMMENI..GREEK SMALL LETTER ALPHA WITH OXIA AND YPOGEGRAMMENI
"%string.
Definition props_text_65 := "1FB6..1FBC    ; NFKD_QC; N # L&   [7] GREEK SMALL LETTER ALPHA WITH PERISPOMENI..GREEK CAPITAL LETTER ALPHA WITH PROSGEGRAMMENI
1FBD          ; NFKD_QC; N # Sk       GREEK KORONIS
1FBE          ; NFKD_QC; N # L&       GREEK PROSGEGRAMMENI
1FBF..1FC1    ; NFKD_QC; N # Sk   [3] GREEK PSILI..GREEK DIALYTIKA AND PERISPOMENI
1FC2..1FC4    ; NFKD_QC; N # L&   [3] GREEK SMALL LETTER ETA WITH VARIA AND YPOGEGRAMMENI..GREEK SMALL LETTER ETA WITH OXIA AND YPOGEGRAMMENI
1FC6..1FCC    ; NFKD_QC; N # L&   [7] GREEK SMALL LETTER ETA WITH PERISPOMENI..GREEK CAPITAL LETTER ETA WITH PROSGEGRAMMENI
1FCD..1FCF    ; NFKD_QC; N # Sk   [3] GREEK PSILI AND VARIA..GREEK PSILI AND PERISPOMENI
1FD0..1FD3    ; NFKD_QC; N # L&   [4] GREEK SMALL LETTER IOTA WITH VRACHY..GREEK SMALL LETTER IOTA WITH DIALYTIKA AND OXIA
1FD6..1FDB    ; NFKD_QC; N # L&   [6] GREEK SMALL LETTER IOTA WITH PERISPOMENI..GREEK CAPITAL LETTER IOTA WITH OXIA
1FDD..1FDF    ; NFKD_QC; N # Sk   [3] GREEK DASIA AND VARIA..GREEK DASIA AND PERISPOMENI
1FE0..1FEC    ; NFKD_QC; N # L&  [13] GREEK SMALL LETTER UPSILON WITH VRACHY..GREEK CAPITAL LETTER RHO WITH DASIA
1FED..1FEF    ; NFKD_QC; N # Sk   [3] GREEK DIALYTIKA AND VARIA..GREEK VARIA
1FF2..1FF4    ; NFKD_QC; N # L&   [3] GREEK SMALL LETTER OMEGA WITH VARIA AND YPOGEGRAMMENI..GREEK SMALL LETTER OMEGA WITH OXIA AND YPOGEGRAMMENI
1FF6..1FFC    ; NFKD_QC; N # L&   [7] GREEK SMALL LETTER OMEGA WITH PERISPOMENI..GREEK CAPITAL LETTER OMEGA WITH PROSGEGRAMMENI
1FFD..1FFE    ; NFKD_QC; N # Sk   [2] GREEK OXIA..GREEK DASIA
2000..200A    ; NFKD_QC; N # Zs  [11] EN QUAD..HAIR SPACE
2011          ; NFKD_QC; N # Pd       NON-BREAKING HYPHEN
2017          ; NFKD_QC; N # Po       DOUBLE LOW LINE
2024..2026    ; NFKD_QC; N # Po   [3] ONE DOT LEADER..HORIZONTAL ELLIPSIS
202F          ; NFKD_QC; N # Zs       NARROW NO-BREAK SPACE
"%string.
Definition props_text_66 := "2033..2034    ; NFKD_QC; N # Po   [2] DOUBLE PRIME..TRIPLE PRIME
2036..2037    ; NFKD_QC; N # Po   [2] REVERSED DOUBLE PRIME..REVERSED TRIPLE PRIME
203C          ; NFKD_QC; N # Po       DOUBLE EXCLAMATION MARK
203E          ; NFKD_QC; N # Po       OVERLINE
2047..2049    ; NFKD_QC; N # Po   [3] DOUBLE QUESTION MARK..EXCLAMATION QUESTION MARK
2057          ; NFKD_QC; N # Po       QUADRUPLE PRIME
205F          ; NFKD_QC; N # Zs       MEDIUM MATHEMATICAL SPACE
2070          ; NFKD_QC; N # No       SUPERSCRIPT ZERO
2071          ; NFKD_QC; N # Lm       SUPERSCRIPT LATIN SMALL LETTER I
2074..2079    ; NFKD_QC; N # No   [6] SUPERSCRIPT FOUR..SUPERSCRIPT NINE
207A..207C    ; NFKD_QC; N # Sm   [3] SUPERSCRIPT PLUS SIGN..SUPERSCRIPT EQUALS SIGN
207D          ; NFKD_QC; N # Ps       SUPERSCRIPT LEFT PARENTHESIS
207E          ; NFKD_QC; N # Pe       SUPERSCRIPT RIGHT PARENTHESIS
207F          ; NFKD_QC; N # Lm       SUPERSCRIPT LATIN SMALL LETTER N
2080..2089    ; NFKD_QC; N # No  [10] SUBSCRIPT ZERO..SUBSCRIPT NINE
208A..208C    ; NFKD_QC; N # Sm   [3] SUBSCRIPT PLUS SIGN..SUBSCRIPT EQUALS SIGN
208D          ; NFKD_QC; N # Ps       SUBSCRIPT LEFT PARENTHESIS
208E          ; NFKD_QC; N # Pe       SUBSCRIPT RIGHT PARENTHESIS
2090..209C    ; NFKD_QC; N # Lm  [13] LATIN SUBSCRIPT SMALL LETTER A..LATIN SUBSCRIPT SMALL LETTER T
20A8          ; NFKD_QC; N # Sc       RUPEE SIGN
"%string.
Definition props_text_67 := "2100..2101    ; NFKD_QC; N # So   [2] ACCOUNT OF..ADDRESSED TO THE SUBJECT
2102          ; NFKD_QC; N # L&       DOUBLE-STRUCK CAPITAL C
2103          ; NFKD_QC; N # So       DEGREE CELSIUS
2105..2106    ; NFKD_QC; N # So   [2] CARE OF..CADA UNA
2107          ; NFKD_QC; N # L&       EULER CONSTANT
2109          ; NFKD_QC; N # So       DEGREE FAHRENHEIT
210A..2113    ; NFKD_QC; N # L&  [10] SCRIPT SMALL G..SCRIPT SMALL L
2115          ; NFKD_QC; N # L&       DOUBLE-STRUCK CAPITAL N
2116          ; NFKD_QC; N # So       NUMERO SIGN
2119..211D    ; NFKD_QC; N # L&   [5] DOUBLE-STRUCK CAPITAL P..DOUBLE-STRUCK CAPITAL R
2120..2122    ; NFKD_QC; N # So   [3] SERVICE MARK..TRADE MARK SIGN
2124          ; NFKD_QC; N # L&       DOUBLE-STRUCK CAPITAL Z
2126          ; NFKD_QC; N # L&       OHM SIGN
2128          ; NFKD_QC; N # L&       BLACK-LETTER CAPITAL Z
212A..212D    ; NFKD_QC; N # L&   [4] KELVIN SIGN..BLACK-LETTER CAPITAL C
212F..2131    ; NFKD_QC; N # L&   [3] SCRIPT SMALL E..SCRIPT CAPITAL F
2133..2134    ; NFKD_QC; N # L&   [2] SCRIPT CAPITAL M..SCRIPT SMALL O
2135..2138    ; NFKD_QC; N # Lo   [4] ALEF SYMBOL..DALET SYMBOL
2139          ; NFKD_QC; N # L&       INFORMATION SOURCE
213B          ; NFKD_QC; N # So       FACSIMILE SIGN
"%string.
Definition props_text_68 := "213C..213F    ; NFKD_QC; N # L&   [4] DOUBLE-STRUCK SMALL PI..DOUBLE-STRUCK CAPITAL PI
2140          ; NFKD_QC; N # Sm       DOUBLE-STRUCK N-ARY SUMMATION
2145..2149    ; NFKD_QC; N # L&   [5] DOUBLE-STRUCK ITALIC CAPITAL D..DOUBLE-STRUCK ITALIC SMALL J
2150..215F    ; NFKD_QC; N # No  [16] VULGAR FRACTION ONE SEVENTH..FRACTION NUMERATOR ONE
2160..217F    ; NFKD_QC; N # Nl  [32] ROMAN NUMERAL ONE..SMALL ROMAN NUMERAL ONE THOUSAND
2189          ; NFKD_QC; N # No       VULGAR FRACTION ZERO THIRDS
219A..219B    ; NFKD_QC; N # Sm   [2] LEFTWARDS ARROW WITH STROKE..RIGHTWARDS ARROW WITH STROKE
21AE          ; NFKD_QC; N # Sm       LEFT RIGHT ARROW WITH STROKE
21CD          ; NFKD_QC; N # So       LEFTWARDS DOUBLE ARROW WITH STROKE
21CE..21CF    ; NFKD_QC; N # Sm   [2] LEFT RIGHT DOUBLE ARROW WITH STROKE..RIGHTWARDS DOUBLE ARROW WITH STROKE
2204          ; NFKD_QC; N # Sm       THERE DOES NOT EXIST
2209          ; NFKD_QC; N # Sm       NOT AN ELEMENT OF
220C          ; NFKD_QC; N # Sm       DOES NOT CONTAIN AS MEMBER
2224          ; NFKD_QC; N # Sm       DOES NOT DIVIDE
2226          ; NFKD_QC; N # Sm       NOT PARALLEL TO
222C..222D    ; NFKD_QC; N # Sm   [2] DOUBLE INTEGRAL..TRIPLE INTEGRAL
222F..2230    ; NFKD_QC; N # Sm   [2] SURFACE INTEGRAL..VOLUME INTEGRAL
2241          ; NFKD_QC; N # Sm       NOT TILDE
2244          ; NFKD_QC; N # Sm       NOT ASYMPTOTICALLY EQUAL TO
2247          ; NFKD_QC; N # Sm       NEITHER APPROXIMATELY NOR ACTUALLY EQUAL TO
"%string.
Definition props_text_69 := "2249          ; NFKD_QC; N # Sm       NOT ALMOST EQUAL TO
2260          ; NFKD_QC; N # Sm       NOT EQUAL TO
2262          ; NFKD_QC; N # Sm       NOT IDENTICAL TO
226D..2271    ; NFKD_QC; N # Sm   [5] NOT EQUIVALENT TO..NEITHER GREATER-THAN NOR EQUAL TO
2274..2275    ; NFKD_QC; N # Sm   [2] NEITHER LESS-THAN NOR EQUIVALENT TO..NEITHER GREATER-THAN NOR EQUIVALENT TO
2278..2279    ; NFKD_QC; N # Sm   [2] NEITHER LESS-THAN NOR GREATER-THAN..NEITHER GREATER-THAN NOR LESS-THAN
2280..2281    ; NFKD_QC; N # Sm   [2] DOES NOT PRECEDE..DOES NOT SUCCEED
2284..2285    ; NFKD_QC; N # Sm   [2] NOT A SUBSET OF..NOT A SUPERSET OF
2288..2289    ; NFKD_QC; N # Sm   [2] NEITHER A SUBSET OF NOR EQUAL TO..NEITHER A SUPERSET OF NOR EQUAL TO
22AC..22AF    ; NFKD_QC; N # Sm   [4] DOES NOT PROVE..NEGATED DOUBLE VERTICAL BAR DOUBLE RIGHT TURNSTILE
22E0..22E3    ; NFKD_QC; N # Sm   [4] DOES NOT PRECEDE OR EQUAL..NOT SQUARE ORIGINAL OF OR EQUAL TO
22EA..22ED    ; NFKD_QC; N # Sm   [4] NOT NORMAL SUBGROUP OF..DOES NOT CONTAIN AS NORMAL SUBGROUP OR EQUAL
2329          ; NFKD_QC; N # Ps       LEFT-POINTING ANGLE BRACKET
232A          ; NFKD_QC; N # Pe       RIGHT-POINTING ANGLE BRACKET
2460..249B    ; NFKD_QC; N # No  [60] CIRCLED DIGIT ONE..NUMBER TWENTY FULL STOP
249C..24E9    ; NFKD_QC; N # So  [78] PARENTHESIZED LATIN SMALL LETTER A..CIRCLED LATIN SMALL LETTER Z
24EA          ; NFKD_QC; N # No       CIRCLED DIGIT ZERO
2A0C          ; NFKD_QC; N # Sm       QUADRUPLE INTEGRAL OPERATOR
2A74..2A76    ; NFKD_QC; N # Sm   [3] DOUBLE COLON EQUAL..THREE CONSECUTIVE EQUALS SIGNS
2ADC          ; NFKD_QC; N # Sm       FORKING
"%string.
Definition props_text_70 := "2C7C..2C7D    ; NFKD_QC; N # Lm   [2] LATIN SUBSCRIPT SMALL LETTER J..MODIFIER LETTER CAPITAL V
2D6F          ; NFKD_QC; N # Lm       TIFINAGH MODIFIER LETTER LABIALIZATION MARK
2E9F          ; NFKD_QC; N # So       CJK RADICAL MOTHER
2EF3          ; NFKD_QC; N # So       CJK RADICAL C-SIMPLIFIED TURTLE
2F00..2FD5    ; NFKD_QC; N # So [214] KANGXI RADICAL ONE..KANGXI RADICAL FLUTE
3000          ; NFKD_QC; N # Zs       IDEOGRAPHIC SPACE
3036          ; NFKD_QC; N # So       CIRCLED POSTAL MARK
3038..303A    ; NFKD_QC; N # Nl   [3] HANGZHOU NUMERAL TEN..HANGZHOU NUMERAL THIRTY
304C          ; NFKD_QC; N # Lo       HIRAGANA LETTER GA
304E          ; NFKD_QC; N # Lo       HIRAGANA LETTER GI
3050          ; NFKD_QC; N # Lo       HIRAGANA LETTER GU
3052          ; NFKD_QC; N # Lo       HIRAGANA LETTER GE
3054          ; NFKD_QC; N # Lo       HIRAGANA LETTER GO
3056          ; NFKD_QC; N # Lo       HIRAGANA LETTER ZA
3058          ; NFKD_QC; N # Lo       HIRAGANA LETTER ZI
305A          ; NFKD_QC; N # Lo       HIRAGANA LETTER ZU
305C          ; NFKD_QC; N # Lo       HIRAGANA LETTER ZE
305E          ; NFKD_QC; N # Lo       HIRAGANA LETTER ZO
3060          ; NFKD_QC; N # Lo       HIRAGANA LETTER DA
3062          ; NFKD_QC; N # Lo       HIRAGANA LETTER DI
"%string.
Definition props_text_71 := "3065          ; NFKD_QC; N # Lo       HIRAGANA LETTER DU
3067          ; NFKD_QC; N # Lo       HIRAGANA LETTER DE
3069          ; NFKD_QC; N # Lo       HIRAGANA LETTER DO
3070..3071    ; NFKD_QC; N # Lo   [2] HIRAGANA LETTER BA..HIRAGANA LETTER PA
3073..3074    ; NFKD_QC; N # Lo   [2] HIRAGANA LETTER BI..HIRAGANA LETTER PI
3076..3077    ; NFKD_QC; N # Lo   [2] HIRAGANA LETTER BU..HIRAGANA LETTER PU
3079..307A    ; NFKD_QC; N # Lo   [2] HIRAGANA LETTER BE..HIRAGANA LETTER PE
307C..307D    ; NFKD_QC; N # Lo   [2] HIRAGANA LETTER BO..HIRAGANA LETTER PO
3094          ; NFKD_QC; N # Lo       HIRAGANA LETTER VU
309B..309C    ; NFKD_QC; N # Sk   [2] KATAKANA-HIRAGANA VOICED SOUND MARK..KATAKANA-HIRAGANA SEMI-VOICED SOUND MARK
309E          ; NFKD_QC; N # Lm       HIRAGANA VOICED ITERATION MARK
309F          ; NFKD_QC; N # Lo       HIRAGANA DIGRAPH YORI
30AC          ; NFKD_QC; N # Lo       KATAKANA LETTER GA
30AE          ; NFKD_QC; N # Lo       KATAKANA LETTER GI
30B0          ; NFKD_QC; N # Lo       KATAKANA LETTER GU
30B2          ; NFKD_QC; N # Lo       KATAKANA LETTER GE
30B4          ; NFKD_QC; N # Lo       KATAKANA LETTER GO
30B6          ; NFKD_QC; N # Lo       KATAKANA LETTER ZA
30B8          ; NFKD_QC; N # Lo       KATAKANA LETTER ZI
30BA          ; NFKD_QC; N # Lo       KATAKANA LETTER ZU
"%string.
Definition props_text_72 := "30BC          ; NFKD_QC; N # Lo       KATAKANA LETTER ZE
30BE          ; NFKD_QC; N # Lo       KATAKANA LETTER ZO
30C0          ; NFKD_QC; N # Lo       KATAKANA LETTER DA
30C2          ; NFKD_QC; N # Lo       KATAKANA LETTER DI
30C5          ; NFKD_QC; N # Lo       KATAKANA LETTER DU
30C7          ; NFKD_QC; N # Lo       KATAKANA LETTER DE
30C9          ; NFKD_QC; N # Lo       KATAKANA LETTER DO
30D0..30D1    ; NFKD_QC; N # Lo   [2] KATAKANA LETTER BA..KATAKANA LETTER PA
30D3..30D4    ; NFKD_QC; N # Lo   [2] KATAKANA LETTER BI..KATAKANA LETTER PI
30D6..30D7    ; NFKD_QC; N # Lo   [2] KATAKANA LETTER BU..KATAKANA LETTER PU
30D9..30DA    ; NFKD_QC; N # Lo   [2] KATAKANA LETTER BE..KATAKANA LETTER PE
30DC..30DD    ; NFKD_QC; N # Lo   [2] KATAKANA LETTER BO..KATAKANA LETTER PO
30F4          ; NFKD_QC; N # Lo       KATAKANA LETTER VU
30F7..30FA    ; NFKD_QC; N # Lo   [4] KATAKANA LETTER VA..KATAKANA LETTER VO
30FE          ; NFKD_QC; N # Lm       KATAKANA VOICED ITERATION MARK
30FF          ; NFKD_QC; N # Lo       KATAKANA DIGRAPH KOTO
3131..318E    ; NFKD_QC; N # Lo  [94] HANGUL LETTER KIYEOK..HANGUL LETTER ARAEAE
3192..3195    ; NFKD_QC; N # No   [4] IDEOGRAPHIC ANNOTATION ONE MARK..IDEOGRAPHIC ANNOTATION FOUR MARK
3196..319F    ; NFKD_QC; N # So  [10] IDEOGRAPHIC ANNOTATION TOP MARK..IDEOGRAPHIC ANNOTATION MAN MARK
3200..321E    ; NFKD_QC; N # So  [31] PARENTHESIZED HANGUL KIYEOK..PARENTHESIZED KOREAN CHARACTER O HU
"%string.
Definition props_text_73 := "3220..3229    ; NFKD_QC; N # No  [10] PARENTHESIZED IDEOGRAPH ONE..PARENTHESIZED IDEOGRAPH TEN
322A..3247    ; NFKD_QC; N # So  [30] PARENTHESIZED IDEOGRAPH MOON..CIRCLED IDEOGRAPH KOTO
3250          ; NFKD_QC; N # So       PARTNERSHIP SIGN
3251..325F    ; NFKD_QC; N # No  [15] CIRCLED NUMBER TWENTY ONE..CIRCLED NUMBER THIRTY FIVE
3260..327E    ; NFKD_QC; N # So  [31] CIRCLED HANGUL KIYEOK..CIRCLED HANGUL IEUNG U
3280..3289    ; NFKD_QC; N # No  [10] CIRCLED IDEOGRAPH ONE..CIRCLED IDEOGRAPH TEN
328A..32B0    ; NFKD_QC; N # So  [39] CIRCLED IDEOGRAPH MOON..CIRCLED IDEOGRAPH NIGHT
32B1..32BF    ; NFKD_QC; N # No  [15] CIRCLED NUMBER THIRTY SIX..CIRCLED NUMBER FIFTY
32C0..33FF    ; NFKD_QC; N # So [320] IDEOGRAPHIC TELEGRAPH SYMBOL FOR JANUARY..SQUARE GAL
A69C..A69D    ; NFKD_QC; N # Lm   [2] MODIFIER LETTER CYRILLIC HARD SIGN..MODIFIER LETTER CYRILLIC SOFT SIGN
A770          ; NFKD_QC; N # Lm       MODIFIER LETTER US
A7F8..A7F9    ; NFKD_QC; N # Lm   [2] MODIFIER LETTER CAPITAL H WITH STROKE..MODIFIER LETTER SMALL LIGATURE OE
AB5C..AB5F    ; NFKD_QC; N # Lm   [4] MODIFIER LETTER SMALL HENG..MODIFIER LETTER SMALL U WITH LEFT HOOK
AB69          ; NFKD_QC; N # Lm       MODIFIER LETTER SMALL TURNED W
AC00..D7A3    ; NFKD_QC; N # Lo [11172] HANGUL SYLLABLE GA..HANGUL SYLLABLE HIH
F900..FA0D    ; NFKD_QC; N # Lo [270] CJK COMPATIBILITY IDEOGRAPH-F900..CJK COMPATIBILITY IDEOGRAPH-FA0D
FA10          ; NFKD_QC; N # Lo       CJK COMPATIBILITY IDEOGRAPH-FA10
FA12          ; NFKD_QC; N # Lo       CJK COMPATIBILITY IDEOGRAPH-FA12
FA15..FA1E    ; NFKD_QC; N # Lo  [10] CJK COMPATIBILITY IDEOGRAPH-FA15..CJK COMPATIBILITY IDEOGRAPH-FA1E
FA20          ; NFKD_QC; N # Lo       CJK COMPATIBILITY IDEOGRAPH-FA20
"%string.
Definition props_text_74 := "FA22          ; NFKD_QC; N # Lo       CJK COMPATIBILITY IDEOGRAPH-FA22
FA25..FA26    ; NFKD_QC; N # Lo   [2] CJK COMPATIBILITY IDEOGRAPH-FA25..CJK COMPATIBILITY IDEOGRAPH-FA26
FA2A..FA6D    ; NFKD_QC; N # Lo  [68] CJK COMPATIBILITY IDEOGRAPH-FA2A..CJK COMPATIBILITY IDEOGRAPH-FA6D
FA70..FAD9    ; NFKD_QC; N # Lo [106] CJK COMPATIBILITY IDEOGRAPH-FA70..CJK COMPATIBILITY IDEOGRAPH-FAD9
FB00..FB06    ; NFKD_QC; N # L&   [7] LATIN SMALL LIGATURE FF..LATIN SMALL LIGATURE ST
FB13..FB17    ; NFKD_QC; N # L&   [5] ARMENIAN SMALL LIGATURE MEN NOW..ARMENIAN SMALL LIGATURE MEN XEH
FB1D          ; NFKD_QC; N # Lo       HEBREW LETTER YOD WITH HIRIQ
FB1F..FB28    ; NFKD_QC; N # Lo  [10] HEBREW LIGATURE YIDDISH YOD YOD PATAH..HEBREW LETTER WIDE TAV
FB29          ; NFKD_QC; N # Sm       HEBREW LETTER ALTERNATIVE PLUS SIGN
FB2A..FB36    ; NFKD_QC; N # Lo  [13] HEBREW LETTER SHIN WITH SHIN DOT..HEBREW LETTER ZAYIN WITH DAGESH
FB38..FB3C    ; NFKD_QC; N # Lo   [5] HEBREW LETTER TET WITH DAGESH..HEBREW LETTER LAMED WITH DAGESH
FB3E          ; NFKD_QC; N # Lo       HEBREW LETTER MEM WITH DAGESH
FB40..FB41    ; NFKD_QC; N # Lo   [2] HEBREW LETTER NUN WITH DAGESH..HEBREW LETTER SAMEKH WITH DAGESH
FB43..FB44    ; NFKD_QC; N # Lo   [2] HEBREW LETTER FINAL PE WITH DAGESH..HEBREW LETTER PE WITH DAGESH
FB46..FBB1    ; NFKD_QC; N # Lo [108] HEBREW LETTER TSADI WITH DAGESH..ARABIC LETTER YEH BARREE WITH HAMZA ABOVE FINAL FORM
FBD3..FD3D    ; NFKD_QC; N # Lo [363] ARABIC LETTER NG ISOLATED FORM..ARABIC LIGATURE ALEF WITH FATHATAN ISOLATED FORM
FD50..FD8F    ; NFKD_QC; N # Lo  [64] ARABIC LIGATURE TEH WITH JEEM WITH MEEM INITIAL FORM..ARABIC LIGATURE MEEM WITH KHAH WITH MEEM INITIAL FORM
FD92..FDC7    ; NFKD_QC; N # Lo  [54] ARABIC LIGATURE MEEM WITH JEEM WITH KHAH INITIAL FORM..ARABIC LIGATURE NOON WITH JEEM WITH YEH FINAL FORM
FDF0..FDFB    ; NFKD_QC; N # Lo  [12] ARABIC LIGATURE SALLA USED AS KORANIC STOP SIGN ISOLATED FORM..ARABIC LIGATURE JALLAJALALOUHOU
FDFC          ; NFKD_QC; N # Sc       RIAL SIGN
"%string.
Definition props_text_75 := "FE10..FE16    ; NFKD_QC; N # Po   [7] PRESENTATION FORM FOR VERTICAL COMMA..PRESENTATION FORM FOR VERTICAL QUESTION MARK
FE17          ; NFKD_QC; N # Ps       PRESENTATION FORM FOR VERTICAL LEFT WHITE LENTICULAR BRACKET
FE18          ; NFKD_QC; N # Pe       PRESENTATION FORM FOR VERTICAL RIGHT WHITE LENTICULAR BRAKCET
FE19          ; NFKD_QC; N # Po       PRESENTATION FORM FOR VERTICAL HORIZONTAL ELLIPSIS
FE30          ; NFKD_QC; N # Po       PRESENTATION FORM FOR VERTICAL TWO DOT LEADER
FE31..FE32    ; NFKD_QC; N # Pd   [2] PRESENTATION FORM FOR VERTICAL EM DASH..PRESENTATION FORM FOR VERTICAL EN DASH
FE33..FE34    ; NFKD_QC; N # Pc   [2] PRESENTATION FORM FOR VERTICAL LOW LINE..PRESENTATION FORM FOR VERTICAL WAVY LOW LINE
FE35          ; NFKD_QC; N # Ps       PRESENTATION FORM FOR VERTICAL LEFT PARENTHESIS
FE36          ; NFKD_QC; N # Pe       PRESENTATION FORM FOR VERTICAL RIGHT PARENTHESIS
FE37          ; NFKD_QC; N # Ps       PRESENTATION FORM FOR VERTICAL LEFT CURLY BRACKET
FE38          ; NFKD_QC; N # Pe       PRESENTATION FORM FOR VERTICAL RIGHT CURLY BRACKET
FE39          ; NFKD_QC; N # Ps       PRESENTATION FORM FOR VERTICAL LEFT TORTOISE SHELL BRACKET
FE3A          ; NFKD_QC; N # Pe       PRESENTATION FORM FOR VERTICAL RIGHT TORTOISE SHELL BRACKET
FE3B          ; NFKD_QC; N # Ps       PRESENTATION FORM FOR VERTICAL LEFT BLACK LENTICULAR BRACKET
FE3C          ; NFKD_QC; N # Pe       PRESENTATION FORM FOR VERTICAL RIGHT BLACK LENTICULAR BRACKET
FE3D          ; NFKD_QC; N # Ps       PRESENTATION FORM FOR VERTICAL LEFT DOUBLE ANGLE BRACKET
FE3E          ; NFKD_QC; N # Pe       PRESENTATION FORM FOR VERTICAL RIGHT DOUBLE ANGLE BRACKET
FE3F          ; NFKD_QC; N # Ps       PRESENTATION FORM FOR VERTICAL LEFT ANGLE BRACKET
FE40          ; NFKD_QC; N # Pe       PRESENTATION FORM FOR VERTICAL RIGHT ANGLE BRACKET
FE41          ; NFKD_QC; N # Ps       PRESENTATION FORM FOR VERTICAL LEFT CORNER BRACKET
"%string.
Definition props_text_76 := "FE42          ; NFKD_QC; N # Pe       PRESENTATION FORM FOR VERTICAL RIGHT CORNER BRACKET
FE43          ; NFKD_QC; N # Ps       PRESENTATION FORM FOR VERTICAL LEFT WHITE CORNER BRACKET
FE44          ; NFKD_QC; N # Pe       PRESENTATION FORM FOR VERTICAL RIGHT WHITE CORNER BRACKET
FE47          ; NFKD_QC; N # Ps       PRESENTATION FORM FOR VERTICAL LEFT SQUARE BRACKET
FE48          ; NFKD_QC; N # Pe       PRESENTATION FORM FOR VERTICAL RIGHT SQUARE BRACKET
FE49..FE4C    ; NFKD_QC; N # Po   [4] DASHED OVERLINE..DOUBLE WAVY OVERLINE
FE4D..FE4F    ; NFKD_QC; N # Pc   [3] DASHED LOW LINE..WAVY LOW LINE
FE50..FE52    ; NFKD_QC; N # Po   [3] SMALL COMMA..SMALL FULL STOP
FE54..FE57    ; NFKD_QC; N # Po   [4] SMALL SEMICOLON..SMALL EXCLAMATION MARK
FE58          ; NFKD_QC; N # Pd       SMALL EM DASH
FE59          ; NFKD_QC; N # Ps       SMALL LEFT PARENTHESIS
FE5A          ; NFKD_QC; N # Pe       SMALL RIGHT PARENTHESIS
FE5B          ; NFKD_QC; N # Ps       SMALL LEFT CURLY BRACKET
FE5C          ; NFKD_QC; N # Pe       SMALL RIGHT CURLY BRACKET
FE5D          ; NFKD_QC; N # Ps       SMALL LEFT TORTOISE SHELL BRACKET
FE5E          ; NFKD_QC; N # Pe       SMALL RIGHT TORTOISE SHELL BRACKET
FE5F..FE61    ; NFKD_QC; N # Po   [3] SMALL NUMBER SIGN..SMALL ASTERISK
FE62          ; NFKD_QC; N # Sm       SMALL PLUS SIGN
FE63          ; NFKD_QC; N # Pd       SMALL HYPHEN-MINUS
FE64..FE66    ; NFKD_QC; N # Sm   [3] SMALL LESS-THAN SIGN..SMALL EQUALS SIGN
"%string.
Definition props_text_77 := "FE68          ; NFKD_QC; N # Po       SMALL REVERSE SOLIDUS
FE69          ; NFKD_QC; N # Sc       SMALL DOLLAR SIGN
FE6A..FE6B    ; NFKD_QC; N # Po   [2] SMALL PERCENT SIGN..SMALL COMMERCIAL AT
FE70..FE72    ; NFKD_QC; N # Lo   [3] ARABIC FATHATAN ISOLATED FORM..ARABIC DAMMATAN ISOLATED FORM
FE74          ; NFKD_QC; N # Lo       ARABIC KASRATAN ISOLATED FORM
FE76..FEFC    ; NFKD_QC; N # Lo [135] ARABIC FATHA ISOLATED FORM..ARABIC LIGATURE LAM WITH ALEF FINAL FORM
FF01..FF03    ; NFKD_QC; N # Po   [3] FULLWIDTH EXCLAMATION MARK..FULLWIDTH NUMBER SIGN
FF04          ; NFKD_QC; N # Sc       FULLWIDTH DOLLAR SIGN
FF05..FF07    ; NFKD_QC; N # Po   [3] FULLWIDTH PERCENT SIGN..FULLWIDTH APOSTROPHE
FF08          ; NFKD_QC; N # Ps       FULLWIDTH LEFT PARENTHESIS
FF09          ; NFKD_QC; N # Pe       FULLWIDTH RIGHT PARENTHESIS
FF0A          ; NFKD_QC; N # Po       FULLWIDTH ASTERISK
FF0B          ; NFKD_QC; N # Sm       FULLWIDTH PLUS SIGN
FF0C          ; NFKD_QC; N # Po       FULLWIDTH COMMA
FF0D          ; NFKD_QC; N # Pd       FULLWIDTH HYPHEN-MINUS
FF0E..FF0F    ; NFKD_QC; N # Po   [2] FULLWIDTH FULL STOP..FULLWIDTH SOLIDUS
FF10..FF19    ; NFKD_QC; N # Nd  [10] FULLWIDTH DIGIT ZERO..FULLWIDTH DIGIT NINE
FF1A..FF1B    ; NFKD_QC; N # Po   [2] FULLWIDTH COLON..FULLWIDTH SEMICOLON
FF1C..FF1E    ; NFKD_QC; N # Sm   [3] FULLWIDTH LESS-THAN SIGN..FULLWIDTH GREATER-THAN SIGN
FF1F..FF20    ; NFKD_QC; N # Po   [2] FULLWIDTH QUESTION MARK..FULLWIDTH COMMERCIAL AT
"%string.
Definition props_text_78 := "FF21..FF3A    ; NFKD_QC; N # L&  [26] FULLWIDTH LATIN CAPITAL LETTER A..FULLWIDTH LATIN CAPITAL LETTER Z
FF3B          ; NFKD_QC; N # Ps       FULLWIDTH LEFT SQUARE BRACKET
FF3C          ; NFKD_QC; N # Po       FULLWIDTH REVERSE SOLIDUS
FF3D          ; NFKD_QC; N # Pe       FULLWIDTH RIGHT SQUARE BRACKET
FF3E          ; NFKD_QC; N # Sk       FULLWIDTH CIRCUMFLEX ACCENT
FF3F          ; NFKD_QC; N # Pc       FULLWIDTH LOW LINE
FF40          ; NFKD_QC; N # Sk       FULLWIDTH GRAVE ACCENT
FF41..FF5A    ; NFKD_QC; N # L&  [26] FULLWIDTH LATIN SMALL LETTER A..FULLWIDTH LATIN SMALL LETTER Z
FF5B          ; NFKD_QC; N # Ps       FULLWIDTH LEFT CURLY BRACKET
FF5C          ; NFKD_QC; N # Sm       FULLWIDTH VERTICAL LINE
FF5D          ; NFKD_QC; N # Pe       FULLWIDTH RIGHT CURLY BRACKET
FF5E          ; NFKD_QC; N # Sm       FULLWIDTH TILDE
FF5F          ; NFKD_QC; N # Ps       FULLWIDTH LEFT WHITE PARENTHESIS
FF60          ; NFKD_QC; N # Pe       FULLWIDTH RIGHT WHITE PARENTHESIS
FF61          ; NFKD_QC; N # Po       HALFWIDTH IDEOGRAPHIC FULL STOP
FF62          ; NFKD_QC; N # Ps       HALFWIDTH LEFT CORNER BRACKET
FF63          ; NFKD_QC; N # Pe       HALFWIDTH RIGHT CORNER BRACKET
FF64..FF65    ; NFKD_QC; N # Po   [2] HALFWIDTH IDEOGRAPHIC COMMA..HALFWIDTH KATAKANA MIDDLE DOT
FF66..FF6F    ; NFKD_QC; N # Lo  [10] HALFWIDTH KATAKANA LETTER WO..HALFWIDTH KATAKANA LETTER SMALL TU
FF70          ; NFKD_QC; N # Lm       HALFWIDTH KATAKANA-HIRAGANA PROLONGED SOUND MARK
"%string.
Definition props_text_79 := "FF71..FF9D    ; NFKD_QC; N # Lo  [45] HALFWIDTH KATAKANA LETTER A..HALFWIDTH KATAKANA LETTER N
FF9E..FF9F    ; NFKD_QC; N # Lm   [2] HALFWIDTH KATAKANA VOICED SOUND MARK..HALFWIDTH KATAKANA SEMI-VOICED SOUND MARK
FFA0..FFBE    ; NFKD_QC; N # Lo  [31] HALFWIDTH HANGUL FILLER..HALFWIDTH HANGUL LETTER HIEUH
FFC2..FFC7    ; NFKD_QC; N # Lo   [6] HALFWIDTH HANGUL LETTER A..HALFWIDTH HANGUL LETTER E
FFCA..FFCF    ; NFKD_QC; N # Lo   [6] HALFWIDTH HANGUL LETTER YEO..HALFWIDTH HANGUL LETTER OE
FFD2..FFD7    ; NFKD_QC; N # Lo   [6] HALFWIDTH HANGUL LETTER YO..HALFWIDTH HANGUL LETTER YU
FFDA..FFDC    ; NFKD_QC; N # Lo   [3] HALFWIDTH HANGUL LETTER EU..HALFWIDTH HANGUL LETTER I
FFE0..FFE1    ; NFKD_QC; N # Sc   [2] FULLWIDTH CENT SIGN..FULLWIDTH POUND SIGN
FFE2          ; NFKD_QC; N # Sm       FULLWIDTH NOT SIGN
FFE3          ; NFKD_QC; N # Sk       FULLWIDTH MACRON
FFE4          ; NFKD_QC; N # So       FULLWIDTH BROKEN BAR
FFE5..FFE6    ; NFKD_QC; N # Sc   [2] FULLWIDTH YEN SIGN..FULLWIDTH WON SIGN
FFE8          ; NFKD_QC; N # So       HALFWIDTH FORMS LIGHT VERTICAL
FFE9..FFEC    ; NFKD_QC; N # Sm   [4] HALFWIDTH LEFTWARDS ARROW..HALFWIDTH DOWNWARDS ARROW
FFED..FFEE    ; NFKD_QC; N # So   [2] HALFWIDTH BLACK SQUARE..HALFWIDTH WHITE CIRCLE
1109A         ; NFKD_QC; N # Lo       KAITHI LETTER DDDHA
1109C         ; NFKD_QC; N # Lo       KAITHI LETTER RHA
110AB         ; NFKD_QC; N # Lo       KAITHI LETTER VA
1112E..1112F  ; NFKD_QC; N # Mn   [2] CHAKMA VOWEL SIGN O..CHAKMA VOWEL SIGN AU
1134B..1134C  ; NFKD_QC; N # Mc   [2] GRANTHA VOWEL SIGN OO..GRANTHA VOWEL SIGN AU
"%string.
Definition props_text_80 := "114BB..114BC  ; NFKD_QC; N # Mc   [2] TIRHUTA VOWEL SIGN AI..TIRHUTA VOWEL SIGN O
114BE         ; NFKD_QC; N # Mc       TIRHUTA VOWEL SIGN AU
115BA..115BB  ; NFKD_QC; N # Mc   [2] SIDDHAM VOWEL SIGN O..SIDDHAM VOWEL SIGN AU
11938         ; NFKD_QC; N # Mc       DIVES AKURU VOWEL SIGN O
1D15E..1D164  ; NFKD_QC; N # So   [7] MUSICAL SYMBOL HALF NOTE..MUSICAL SYMBOL ONE HUNDRED TWENTY-EIGHTH NOTE
1D1BB..1D1C0  ; NFKD_QC; N # So   [6] MUSICAL SYMBOL MINIMA..MUSICAL SYMBOL FUSA BLACK
1D400..1D454  ; NFKD_QC; N # L&  [85] MATHEMATICAL BOLD CAPITAL A..MATHEMATICAL ITALIC SMALL G
1D456..1D49C  ; NFKD_QC; N # L&  [71] MATHEMATICAL ITALIC SMALL I..MATHEMATICAL SCRIPT CAPITAL A
1D49E..1D49F  ; NFKD_QC; N # L&   [2] MATHEMATICAL SCRIPT CAPITAL C..MATHEMATICAL SCRIPT CAPITAL D
1D4A2         ; NFKD_QC; N # L&       MATHEMATICAL SCRIPT CAPITAL G
1D4A5..1D4A6  ; NFKD_QC; N # L&   [2] MATHEMATICAL SCRIPT CAPITAL J..MATHEMATICAL SCRIPT CAPITAL K
1D4A9..1D4AC  ; NFKD_QC; N # L&   [4] MATHEMATICAL SCRIPT CAPITAL N..MATHEMATICAL SCRIPT CAPITAL Q
1D4AE..1D4B9  ; NFKD_QC; N # L&  [12] MATHEMATICAL SCRIPT CAPITAL S..MATHEMATICAL SCRIPT SMALL D
1D4BB         ; NFKD_QC; N # L&       MATHEMATICAL SCRIPT SMALL F
1D4BD..1D4C3  ; NFKD_QC; N # L&   [7] MATHEMATICAL SCRIPT SMALL H..MATHEMATICAL SCRIPT SMALL N
1D4C5..1D505  ; NFKD_QC; N # L&  [65] MATHEMATICAL SCRIPT SMALL P..MATHEMATICAL FRAKTUR CAPITAL B
1D507..1D50A  ; NFKD_QC; N # L&   [4] MATHEMATICAL FRAKTUR CAPITAL D..MATHEMATICAL FRAKTUR CAPITAL G
1D50D..1D514  ; NFKD_QC; N # L&   [8] MATHEMATICAL FRAKTUR CAPITAL J..MATHEMATICAL FRAKTUR CAPITAL Q
1D516..1D51C  ; NFKD_QC; N # L&   [7] MATHEMATICAL FRAKTUR CAPITAL S..MATHEMATICAL FRAKTUR CAPITAL Y
1D51E..1D539  ; NFKD_QC; N # L&  [28] MATHEMATICAL FRAKTUR SMALL A..MATHEMATICAL DOUBLE-STRUCK CAPITAL B
"%string.
Definition props_text_81 := "1D53B..1D53E  ; NFKD_QC; N # L&   [4] MATHEMATICAL DOUBLE-STRUCK CAPITAL D..MATHEMATICAL DOUBLE-STRUCK CAPITAL G
1D540..1D544  ; NFKD_QC; N # L&   [5] MATHEMATICAL DOUBLE-STRUCK CAPITAL I..MATHEMATICAL DOUBLE-STRUCK CAPITAL M
1D546         ; NFKD_QC; N # L&       MATHEMATICAL DOUBLE-STRUCK CAPITAL O
1D54A..1D550  ; NFKD_QC; N # L&   [7] MATHEMATICAL DOUBLE-STRUCK CAPITAL S..MATHEMATICAL DOUBLE-STRUCK CAPITAL Y
1D552..1D6A5  ; NFKD_QC; N # L& [340] MATHEMATICAL DOUBLE-STRUCK SMALL A..MATHEMATICAL ITALIC SMALL DOTLESS J
1D6A8..1D6C0  ; NFKD_QC; N # L&  [25] MATHEMATICAL BOLD CAPITAL ALPHA..MATHEMATICAL BOLD CAPITAL OMEGA
1D6C1         ; NFKD_QC; N # Sm       MATHEMATICAL BOLD NABLA
1D6C2..1D6DA  ; NFKD_QC; N # L&  [25] MATHEMATICAL BOLD SMALL ALPHA..MATHEMATICAL BOLD SMALL OMEGA
1D6DB         ; NFKD_QC; N # Sm       MATHEMATICAL BOLD PARTIAL DIFFERENTIAL
1D6DC..1D6FA  ; NFKD_QC; N # L&  [31] MATHEMATICAL BOLD EPSILON SYMBOL..MATHEMATICAL ITALIC CAPITAL OMEGA
1D6FB         ; NFKD_QC; N # Sm       MATHEMATICAL ITALIC NABLA
1D6FC..1D714  ; NFKD_QC; N # L&  [25] MATHEMATICAL ITALIC SMALL ALPHA..MATHEMATICAL ITALIC SMALL OMEGA
1D715         ; NFKD_QC; N # Sm       MATHEMATICAL ITALIC PARTIAL DIFFERENTIAL
1D716..1D734  ; NFKD_QC; N # L&  [31] MATHEMATICAL ITALIC EPSILON SYMBOL..MATHEMATICAL BOLD ITALIC CAPITAL OMEGA
1D735         ; NFKD_QC; N # Sm       MATHEMATICAL BOLD ITALIC NABLA
1D736..1D74E  ; NFKD_QC; N # L&  [25] MATHEMATICAL BOLD ITALIC SMALL ALPHA..MATHEMATICAL BOLD ITALIC SMALL OMEGA
1D74F         ; NFKD_QC; N # Sm       MATHEMATICAL BOLD ITALIC PARTIAL DIFFERENTIAL
1D750..1D76E  ; NFKD_QC; N # L&  [31] MATHEMATICAL BOLD ITALIC EPSILON SYMBOL..MATHEMATICAL SANS-SERIF BOLD CAPITAL OMEGA
1D76F         ; NFKD_QC; N # Sm       MATHEMATICAL SANS-SERIF BOLD NABLA
1D770..1D788  ; NFKD_QC; N # L&  [25] MATHEMATICAL SANS-SERIF BOLD SMALL ALPHA..MATHEMATICAL SANS-SERIF BOLD SMALL OMEGA
"%string.
Definition props_text_82 := "1D789         ; NFKD_QC; N # Sm       MATHEMATICAL SANS-SERIF BOLD PARTIAL DIFFERENTIAL
1D78A..1D7A8  ; NFKD_QC; N # L&  [31] MATHEMATICAL SANS-SERIF BOLD EPSILON SYMBOL..MATHEMATICAL SANS-SERIF BOLD ITALIC CAPITAL OMEGA
1D7A9         ; NFKD_QC; N # Sm       MATHEMATICAL SANS-SERIF BOLD ITALIC NABLA
1D7AA..1D7C2  ; NFKD_QC; N # L&  [25] MATHEMATICAL SANS-SERIF BOLD ITALIC SMALL ALPHA..MATHEMATICAL SANS-SERIF BOLD ITALIC SMALL OMEGA
1D7C3         ; NFKD_QC; N # Sm       MATHEMATICAL SANS-SERIF BOLD ITALIC PARTIAL DIFFERENTIAL
1D7C4..1D7CB  ; NFKD_QC; N # L&   [8] MATHEMATICAL SANS-SERIF BOLD ITALIC EPSILON SYMBOL..MATHEMATICAL BOLD SMALL DIGAMMA
1D7CE..1D7FF  ; NFKD_QC; N # Nd  [50] MATHEMATICAL BOLD DIGIT ZERO..MATHEMATICAL MONOSPACE DIGIT NINE
1EE00..1EE03  ; NFKD_QC; N # Lo   [4] ARABIC MATHEMATICAL ALEF..ARABIC MATHEMATICAL DAL
1EE05..1EE1F  ; NFKD_QC; N # Lo  [27] ARABIC MATHEMATICAL WAW..ARABIC MATHEMATICAL DOTLESS QAF
1EE21..1EE22  ; NFKD_QC; N # Lo   [2] ARABIC MATHEMATICAL INITIAL BEH..ARABIC MATHEMATICAL INITIAL JEEM
1EE24         ; NFKD_QC; N # Lo       ARABIC MATHEMATICAL INITIAL HEH
1EE27         ; NFKD_QC; N # Lo       ARABIC MATHEMATICAL INITIAL HAH
1EE29..1EE32  ; NFKD_QC; N # Lo  [10] ARABIC MATHEMATICAL INITIAL YEH..ARABIC MATHEMATICAL INITIAL QAF
1EE34..1EE37  ; NFKD_QC; N # Lo   [4] ARABIC MATHEMATICAL INITIAL SHEEN..ARABIC MATHEMATICAL INITIAL KHAH
1EE39         ; NFKD_QC; N # Lo       ARABIC MATHEMATICAL INITIAL DAD
1EE3B         ; NFKD_QC; N # Lo       ARABIC MATHEMATICAL INITIAL GHAIN
1EE42         ; NFKD_QC; N # Lo       ARABIC MATHEMATICAL TAILED JEEM
1EE47         ; NFKD_QC; N # Lo       ARABIC MATHEMATICAL TAILED HAH
1EE49         ; NFKD_QC; N # Lo       ARABIC MATHEMATICAL TAILED YEH
1EE4B         ; NFKD_QC; N # Lo       ARABIC MATHEMATICAL TAILED LAM
"%string.
Definition props_text_83 := "1EE4D..1EE4F  ; NFKD_QC; N # Lo   [3] ARABIC MATHEMATICAL TAILED NOON..ARABIC MATHEMATICAL TAILED AIN
1EE51..1EE52  ; NFKD_QC; N # Lo   [2] ARABIC MATHEMATICAL TAILED SAD..ARABIC MATHEMATICAL TAILED QAF
1EE54         ; NFKD_QC; N # Lo       ARABIC MATHEMATICAL TAILED SHEEN
1EE57         ; NFKD_QC; N # Lo       ARABIC MATHEMATICAL TAILED KHAH
1EE59         ; NFKD_QC; N # Lo       ARABIC MATHEMATICAL TAILED DAD
1EE5B         ; NFKD_QC; N # Lo       ARABIC MATHEMATICAL TAILED GHAIN
1EE5D         ; NFKD_QC; N # Lo       ARABIC MATHEMATICAL TAILED DOTLESS NOON
1EE5F         ; NFKD_QC; N # Lo       ARABIC MATHEMATICAL TAILED DOTLESS QAF
1EE61..1EE62  ; NFKD_QC; N # Lo   [2] ARABIC MATHEMATICAL STRETCHED BEH..ARABIC MATHEMATICAL STRETCHED JEEM
1EE64         ; NFKD_QC; N # Lo       ARABIC MATHEMATICAL STRETCHED HEH
1EE67..1EE6A  ; NFKD_QC; N # Lo   [4] ARABIC MATHEMATICAL STRETCHED HAH..ARABIC MATHEMATICAL STRETCHED KAF
1EE6C..1EE72  ; NFKD_QC; N # Lo   [7] ARABIC MATHEMATICAL STRETCHED MEEM..ARABIC MATHEMATICAL STRETCHED QAF
1EE74..1EE77  ; NFKD_QC; N # Lo   [4] ARABIC MATHEMATICAL STRETCHED SHEEN..ARABIC MATHEMATICAL STRETCHED KHAH
1EE79..1EE7C  ; NFKD_QC; N # Lo   [4] ARABIC MATHEMATICAL STRETCHED DAD..ARABIC MATHEMATICAL STRETCHED DOTLESS BEH
1EE7E         ; NFKD_QC; N # Lo       ARABIC MATHEMATICAL STRETCHED DOTLESS FEH
1EE80..1EE89  ; NFKD_QC; N # Lo  [10] ARABIC MATHEMATICAL LOOPED ALEF..ARABIC MATHEMATICAL LOOPED YEH
1EE8B..1EE9B  ; NFKD_QC; N # Lo  [17] ARABIC MATHEMATICAL LOOPED LAM..ARABIC MATHEMATICAL LOOPED GHAIN
1EEA1..1EEA3  ; NFKD_QC; N # Lo   [3] ARABIC MATHEMATICAL DOUBLE-STRUCK BEH..ARABIC MATHEMATICAL DOUBLE-STRUCK DAL
1EEA5..1EEA9  ; NFKD_QC; N # Lo   [5] ARABIC MATHEMATICAL DOUBLE-STRUCK WAW..ARABIC MATHEMATICAL DOUBLE-STRUCK YEH
1EEAB..1EEBB  ; NFKD_QC; N # Lo  [17] ARABIC MATHEMATICAL DOUBLE-STRUCK LAM..ARABIC MATHEMATICAL DOUBLE-STRUCK GHAIN
"%string.
Definition props_text_84 := "1F100..1F10A  ; NFKD_QC; N # No  [11] DIGIT ZERO FULL STOP..DIGIT NINE COMMA
1F110..1F12E  ; NFKD_QC; N # So  [31] PARENTHESIZED LATIN CAPITAL LETTER A..CIRCLED WZ
1F130..1F14F  ; NFKD_QC; N # So  [32] SQUARED LATIN CAPITAL LETTER A..SQUARED WC
1F16A..1F16C  ; NFKD_QC; N # So   [3] RAISED MC SIGN..RAISED MR SIGN
1F190         ; NFKD_QC; N # So       SQUARE DJ
1F200..1F202  ; NFKD_QC; N # So   [3] SQUARE HIRAGANA HOKA..SQUARED KATAKANA SA
1F210..1F23B  ; NFKD_QC; N # So  [44] SQUARED CJK UNIFIED IDEOGRAPH-624B..SQUARED CJK UNIFIED IDEOGRAPH-914D
1F240..1F248  ; NFKD_QC; N # So   [9] TORTOISE SHELL BRACKETED CJK UNIFIED IDEOGRAPH-672C..TORTOISE SHELL BRACKETED CJK UNIFIED IDEOGRAPH-6557
1F250..1F251  ; NFKD_QC; N # So   [2] CIRCLED IDEOGRAPH ADVANTAGE..CIRCLED IDEOGRAPH ACCEPT
1FBF0..1FBF9  ; NFKD_QC; N # Nd  [10] SEGMENTED DIGIT ZERO..SEGMENTED DIGIT NINE
2F800..2FA1D  ; NFKD_QC; N # Lo [542] CJK COMPATIBILITY IDEOGRAPH-2F800..CJK COMPATIBILITY IDEOGRAPH-2FA1D

# Total code points: 16908

# ================================================

# Property:	NFKC_Quick_Check

#  All code points not explicitly listed for NFKC_Quick_Check
#  have the value Yes (Y).
"%string.
Definition props_text_85 := "
# @missing: 0000..10FFFF; NFKC_QC; Yes

# ================================================

# NFKC_Quick_Check=No

00A0          ; NFKC_QC; N # Zs       NO-BREAK SPACE
00A8          ; NFKC_QC; N # Sk       DIAERESIS
00AA          ; NFKC_QC; N # Lo       FEMININE ORDINAL INDICATOR
00AF          ; NFKC_QC; N # Sk       MACRON
00B2..00B3    ; NFKC_QC; N # No   [2] SUPERSCRIPT TWO..SUPERSCRIPT THREE
00B4          ; NFKC_QC; N # Sk       ACUTE ACCENT
00B5          ; NFKC_QC; N # L&       MICRO SIGN
00B8          ; NFKC_QC; N # Sk       CEDILLA
00B9          ; NFKC_QC; N # No       SUPERSCRIPT ONE
00BA          ; NFKC_QC; N # Lo       MASCULINE ORDINAL INDICATOR
00BC..00BE    ; NFKC_QC; N # No   [3] VULGAR FRACTION ONE QUARTER..VULGAR FRACTION THREE QUARTERS
0132..0133    ; NFKC_QC; N # L&   [2] LATIN CAPITAL LIGATURE IJ..LATIN SMALL LIGATURE IJ
013F..0140    ; NFKC_QC; N # L&   [2] LATIN CAPITAL LETTER L WITH MIDDLE DOT..LATIN SMALL LETTER L WITH MIDDLE DOT
"%string.
Definition props_text_86 := "0149          ; NFKC_QC; N # L&       LATIN SMALL LETTER N PRECEDED BY APOSTROPHE
017F          ; NFKC_QC; N # L&       LATIN SMALL LETTER LONG S
01C4..01CC    ; NFKC_QC; N # L&   [9] LATIN CAPITAL LETTER DZ WITH CARON..LATIN SMALL LETTER NJ
01F1..01F3    ; NFKC_QC; N # L&   [3] LATIN CAPITAL LETTER DZ..LATIN SMALL LETTER DZ
02B0..02B8    ; NFKC_QC; N # Lm   [9] MODIFIER LETTER SMALL H..MODIFIER LETTER SMALL Y
02D8..02DD    ; NFKC_QC; N # Sk   [6] BREVE..DOUBLE ACUTE ACCENT
02E0..02E4    ; NFKC_QC; N # Lm   [5] MODIFIER LETTER SMALL GAMMA..MODIFIER LETTER SMALL REVERSED GLOTTAL STOP
0340..0341    ; NFKC_QC; N # Mn   [2] COMBINING GRAVE TONE MARK..COMBINING ACUTE TONE MARK
0343..0344    ; NFKC_QC; N # Mn   [2] COMBINING GREEK KORONIS..COMBINING GREEK DIALYTIKA TONOS
0374          ; NFKC_QC; N # Lm       GREEK NUMERAL SIGN
037A          ; NFKC_QC; N # Lm       GREEK YPOGEGRAMMENI
037E          ; NFKC_QC; N # Po       GREEK QUESTION MARK
0384..0385    ; NFKC_QC; N # Sk   [2] GREEK TONOS..GREEK DIALYTIKA TONOS
0387          ; NFKC_QC; N # Po       GREEK ANO TELEIA
03D0..03D6    ; NFKC_QC; N # L&   [7] GREEK BETA SYMBOL..GREEK PI SYMBOL
03F0..03F2    ; NFKC_QC; N # L&   [3] GREEK KAPPA SYMBOL..GREEK LUNATE SIGMA SYMBOL
03F4..03F5    ; NFKC_QC; N # L&   [2] GREEK CAPITAL THETA SYMBOL..GREEK LUNATE EPSILON SYMBOL
03F9          ; NFKC_QC; N # L&       GREEK CAPITAL LUNATE SIGMA SYMBOL
0587          ; NFKC_QC; N # L&       ARMENIAN SMALL LIGATURE ECH YIWN
0675..0678    ; NFKC_QC; N # Lo   [4] ARABIC LETTER HIGH HAMZA ALEF..ARABIC LETTER HIGH HAMZA YEH
"%string.
Definition props_text_87 := "0958..095F    ; NFKC_QC; N # Lo   [8] DEVANAGARI LETTER QA..DEVANAGARI LETTER YYA
09DC..09DD    ; NFKC_QC; N # Lo   [2] BENGALI LETTER RRA..BENGALI LETTER RHA
09DF          ; NFKC_QC; N # Lo       BENGALI LETTER YYA
0A33          ; NFKC_QC; N # Lo       GURMUKHI LETTER LLA
0A36          ; NFKC_QC; N # Lo       GURMUKHI LETTER SHA
0A59..0A5B    ; NFKC_QC; N # Lo   [3] GURMUKHI LETTER KHHA..GURMUKHI LETTER ZA
0A5E          ; NFKC_QC; N # Lo       GURMUKHI LETTER FA
0B5C..0B5D    ; NFKC_QC; N # Lo   [2] ORIYA LETTER RRA..ORIYA LETTER RHA
0E33          ; NFKC_QC; N # Lo       THAI CHARACTER SARA AM
0EB3          ; NFKC_QC; N # Lo       LAO VOWEL SIGN AM
0EDC..0EDD    ; NFKC_QC; N # Lo   [2] LAO HO NO..LAO HO MO
0F0C          ; NFKC_QC; N # Po       TIBETAN MARK DELIMITER TSHEG BSTAR
0F43          ; NFKC_QC; N # Lo       TIBETAN LETTER GHA
0F4D          ; NFKC_QC; N # Lo       TIBETAN LETTER DDHA
0F52          ; NFKC_QC; N # Lo       TIBETAN LETTER DHA
0F57          ; NFKC_QC; N # Lo       TIBETAN LETTER BHA
0F5C          ; NFKC_QC; N # Lo       TIBETAN LETTER DZHA
0F69          ; NFKC_QC; N # Lo       TIBETAN LETTER KSSA
0F73          ; NFKC_QC; N # Mn       TIBETAN VOWEL SIGN II
0F75..0F79    ; NFKC_QC; N # Mn   [5] TIBETAN VOWEL SIGN UU..TIBETAN VOWEL SIGN VOCALIC LL
"%string.
Definition props_text_88 := "0F81          ; NFKC_QC; N # Mn       TIBETAN VOWEL SIGN REVERSED II
0F93          ; NFKC_QC; N # Mn       TIBETAN SUBJOINED LETTER GHA
0F9D          ; NFKC_QC; N # Mn       TIBETAN SUBJOINED LETTER DDHA
0FA2          ; NFKC_QC; N # Mn       TIBETAN SUBJOINED LETTER DHA
0FA7          ; NFKC_QC; N # Mn       TIBETAN SUBJOINED LETTER BHA
0FAC          ; NFKC_QC; N # Mn       TIBETAN SUBJOINED LETTER DZHA
0FB9          ; NFKC_QC; N # Mn       TIBETAN SUBJOINED LETTER KSSA
10FC          ; NFKC_QC; N # Lm       MODIFIER LETTER GEORGIAN NAR
1D2C..1D2E    ; NFKC_QC; N # Lm   [3] MODIFIER LETTER CAPITAL A..MODIFIER LETTER CAPITAL B
1D30..1D3A    ; NFKC_QC; N # Lm  [11] MODIFIER LETTER CAPITAL D..MODIFIER LETTER CAPITAL N
1D3C..1D4D    ; NFKC_QC; N # Lm  [18] MODIFIER LETTER CAPITAL O..MODIFIER LETTER SMALL G
1D4F..1D6A    ; NFKC_QC; N # Lm  [28] MODIFIER LETTER SMALL K..GREEK SUBSCRIPT SMALL LETTER CHI
1D78          ; NFKC_QC; N # Lm       MODIFIER LETTER CYRILLIC EN
1D9B..1DBF    ; NFKC_QC; N # Lm  [37] MODIFIER LETTER SMALL TURNED ALPHA..MODIFIER LETTER SMALL THETA
1E9A..1E9B    ; NFKC_QC; N # L&   [2] LATIN SMALL LETTER A WITH RIGHT HALF RING..LATIN SMALL LETTER LONG S WITH DOT ABOVE
1F71          ; NFKC_QC; N # L&       GREEK SMALL LETTER ALPHA WITH OXIA
1F73          ; NFKC_QC; N # L&       GREEK SMALL LETTER EPSILON WITH OXIA
1F75          ; NFKC_QC; N # L&       GREEK SMALL LETTER ETA WITH OXIA
1F77          ; NFKC_QC; N # L&       GREEK SMALL LETTER IOTA WITH OXIA
1F79          ; NFKC_QC; N # L&       GREEK SMALL LETTER OMICRON WITH OXIA
"%string.
Definition props_text_89 := "1F7B          ; NFKC_QC; N # L&       GREEK SMALL LETTER UPSILON WITH OXIA
1F7D          ; NFKC_QC; N # L&       GREEK SMALL LETTER OMEGA WITH OXIA
1FBB          ; NFKC_QC; N # L&       GREEK CAPITAL LETTER ALPHA WITH OXIA
1FBD          ; NFKC_QC; N # Sk       GREEK KORONIS
1FBE          ; NFKC_QC; N # L&       GREEK PROSGEGRAMMENI
1FBF..1FC1    ; NFKC_QC; N # Sk   [3] GREEK PSILI..GREEK DIALYTIKA AND PERISPOMENI
1FC9          ; NFKC_QC; N # L&       GREEK CAPITAL LETTER EPSILON WITH OXIA
1FCB          ; NFKC_QC; N # L&       GREEK CAPITAL LETTER ETA WITH OXIA
1FCD..1FCF    ; NFKC_QC; N # Sk   [3] GREEK PSILI AND VARIA..GREEK PSILI AND PERISPOMENI
1FD3          ; NFKC_QC; N # L&       GREEK SMALL LETTER IOTA WITH DIALYTIKA AND OXIA
1FDB          ; NFKC_QC; N # L&       GREEK CAPITAL LETTER IOTA WITH OXIA
1FDD..1FDF    ; NFKC_QC; N # Sk   [3] GREEK DASIA AND VARIA..GREEK DASIA AND PERISPOMENI
1FE3          ; NFKC_QC; N # L&       GREEK SMALL LETTER UPSILON WITH DIALYTIKA AND OXIA
1FEB          ; NFKC_QC; N # L&       GREEK CAPITAL LETTER UPSILON WITH OXIA
1FED..1FEF    ; NFKC_QC; N # Sk   [3] GREEK DIALYTIKA AND VARIA..GREEK VARIA
1FF9          ; NFKC_QC; N # L&       GREEK CAPITAL LETTER OMICRON WITH OXIA
1FFB          ; NFKC_QC; N # L&       GREEK CAPITAL LETTER OMEGA WITH OXIA
1FFD..1FFE    ; NFKC_QC; N # Sk   [2] GREEK OXIA..GREEK DASIA
2000..200A    ; NFKC_QC; N # Zs  [11] EN QUAD..HAIR SPACE
2011          ; NFKC_QC; N # Pd       NON-BREAKING HYPHEN
"%string.
Definition props_text_90 := "2017          ; NFKC_QC; N # Po       DOUBLE LOW LINE
2024..2026    ; NFKC_QC; N # Po   [3] ONE DOT LEADER..HORIZONTAL ELLIPSIS
202F          ; NFKC_QC; N # Zs       NARROW NO-BREAK SPACE
2033..2034    ; NFKC_QC; N # Po   [2] DOUBLE PRIME..TRIPLE PRIME
2036..2037    ; NFKC_QC; N # Po   [2] REVERSED DOUBLE PRIME..REVERSED TRIPLE PRIME
203C          ; NFKC_QC; N # Po       DOUBLE EXCLAMATION MARK
203E          ; NFKC_QC; N # Po       OVERLINE
2047..2049    ; NFKC_QC; N # Po   [3] DOUBLE QUESTION MARK..EXCLAMATION QUESTION MARK
2057          ; NFKC_QC; N # Po       QUADRUPLE PRIME
205F          ; NFKC_QC; N # Zs       MEDIUM MATHEMATICAL SPACE
2070          ; NFKC_QC; N # No       SUPERSCRIPT ZERO
2071          ; NFKC_QC; N # Lm       SUPERSCRIPT LATIN SMALL LETTER I
2074..2079    ; NFKC_QC; N # No   [6] SUPERSCRIPT FOUR..SUPERSCRIPT NINE
207A..207C    ; NFKC_QC; N # Sm   [3] SUPERSCRIPT PLUS SIGN..SUPERSCRIPT EQUALS SIGN
207D          ; NFKC_QC; N # Ps       SUPERSCRIPT LEFT PARENTHESIS
207E          ; NFKC_QC; N # Pe       SUPERSCRIPT RIGHT PARENTHESIS
207F          ; NFKC_QC; N # Lm       SUPERSCRIPT LATIN SMALL LETTER N
2080..2089    ; NFKC_QC; N # No  [10] SUBSCRIPT ZERO..SUBSCRIPT NINE
208A..208C    ; NFKC_QC; N # Sm   [3] SUBSCRIPT PLUS SIGN..SUBSCRIPT EQUALS SIGN
208D          ; NFKC_QC; N # Ps       SUBSCRIPT LEFT PARENTHESIS
"%string.
Definition props_text_91 := "208E          ; NFKC_QC; N # Pe       SUBSCRIPT RIGHT PARENTHESIS
2090..209C    ; NFKC_QC; N # Lm  [13] LATIN SUBSCRIPT SMALL LETTER A..LATIN SUBSCRIPT SMALL LETTER T
20A8          ; NFKC_QC; N # Sc       RUPEE SIGN
2100..2101    ; NFKC_QC; N # So   [2] ACCOUNT OF..ADDRESSED TO THE SUBJECT
2102          ; NFKC_QC; N # L&       DOUBLE-STRUCK CAPITAL C
2103          ; NFKC_QC; N # So       DEGREE CELSIUS
2105..2106    ; NFKC_QC; N # So   [2] CARE OF..CADA UNA
2107          ; NFKC_QC; N # L&       EULER CONSTANT
2109          ; NFKC_QC; N # So       DEGREE FAHRENHEIT
210A..2113    ; NFKC_QC; N # L&  [10] SCRIPT SMALL G..SCRIPT SMALL L
2115          ; NFKC_QC; N # L&       DOUBLE-STRUCK CAPITAL N
2116          ; NFKC_QC; N # So       NUMERO SIGN
2119..211D    ; NFKC_QC; N # L&   [5] DOUBLE-STRUCK CAPITAL P..DOUBLE-STRUCK CAPITAL R
2120..2122    ; NFKC_QC; N # So   [3] SERVICE MARK..TRADE MARK SIGN
2124          ; NFKC_QC; N # L&       DOUBLE-STRUCK CAPITAL Z
2126          ; NFKC_QC; N # L&       OHM SIGN
2128          ; NFKC_QC; N # L&       BLACK-LETTER CAPITAL Z
212A..212D    ; NFKC_QC; N # L&   [4] KELVIN SIGN..BLACK-LETTER CAPITAL C
212F..2131    ; NFKC_QC; N # L&   [3] SCRIPT SMALL E..SCRIPT CAPITAL F
2133..2134    ; NFKC_QC; N # L&   [2] SCRIPT CAPITAL M..SCRIPT SMALL O
"%string.
Definition props_text_92 := "2135..2138    ; NFKC_QC; N # Lo   [4] ALEF SYMBOL..DALET SYMBOL
2139          ; NFKC_QC; N # L&       INFORMATION SOURCE
213B          ; NFKC_QC; N # So       FACSIMILE SIGN
213C..213F    ; NFKC_QC; N # L&   [4] DOUBLE-STRUCK SMALL PI..DOUBLE-STRUCK CAPITAL PI
2140          ; NFKC_QC; N # Sm       DOUBLE-STRUCK N-ARY SUMMATION
2145..2149    ; NFKC_QC; N # L&   [5] DOUBLE-STRUCK ITALIC CAPITAL D..DOUBLE-STRUCK ITALIC SMALL J
2150..215F    ; NFKC_QC; N # No  [16] VULGAR FRACTION ONE SEVENTH..FRACTION NUMERATOR ONE
2160..217F    ; NFKC_QC; N # Nl  [32] ROMAN NUMERAL ONE..SMALL ROMAN NUMERAL ONE THOUSAND
2189          ; NFKC_QC; N # No       VULGAR FRACTION ZERO THIRDS
222C..222D    ; NFKC_QC; N # Sm   [2] DOUBLE INTEGRAL..TRIPLE INTEGRAL
222F..2230    ; NFKC_QC; N # Sm   [2] SURFACE INTEGRAL..VOLUME INTEGRAL
2329          ; NFKC_QC; N # Ps       LEFT-POINTING ANGLE BRACKET
232A          ; NFKC_QC; N # Pe       RIGHT-POINTING ANGLE BRACKET
2460..249B    ; NFKC_QC; N # No  [60] CIRCLED DIGIT ONE..NUMBER TWENTY FULL STOP
249C..24E9    ; NFKC_QC; N # So  [78] PARENTHESIZED LATIN SMALL LETTER A..CIRCLED LATIN SMALL LETTER Z
24EA          ; NFKC_QC; N # No       CIRCLED DIGIT ZERO
2A0C          ; NFKC_QC; N # Sm       QUADRUPLE INTEGRAL OPERATOR
2A74..2A76    ; NFKC_QC; N # Sm   [3] DOUBLE COLON EQUAL..THREE CONSECUTIVE EQUALS SIGNS
2ADC          ; NFKC_QC; N # Sm       FORKING
2C7C..2C7D    ; NFKC_QC; N # Lm   [2] LATIN SUBSCRIPT SMALL LETTER J..MODIFIER LETTER CAPITAL V
"%string.
Definition props_text_93 := "2D6F          ; NFKC_QC; N # Lm       TIFINAGH MODIFIER LETTER LABIALIZATION MARK
2E9F          ; NFKC_QC; N # So       CJK RADICAL MOTHER
2EF3          ; NFKC_QC; N # So       CJK RADICAL C-SIMPLIFIED TURTLE
2F00..2FD5    ; NFKC_QC; N # So [214] KANGXI RADICAL ONE..KANGXI RADICAL FLUTE
3000          ; NFKC_QC; N # Zs       IDEOGRAPHIC SPACE
3036          ; NFKC_QC; N # So       CIRCLED POSTAL MARK
3038..303A    ; NFKC_QC; N # Nl   [3] HANGZHOU NUMERAL TEN..HANGZHOU NUMERAL THIRTY
309B..309C    ; NFKC_QC; N # Sk   [2] KATAKANA-HIRAGANA VOICED SOUND MARK..KATAKANA-HIRAGANA SEMI-VOICED SOUND MARK
309F          ; NFKC_QC; N # Lo       HIRAGANA DIGRAPH YORI
30FF          ; NFKC_QC; N # Lo       KATAKANA DIGRAPH KOTO
3131..318E    ; NFKC_QC; N # Lo  [94] HANGUL LETTER KIYEOK..HANGUL LETTER ARAEAE
3192..3195    ; NFKC_QC; N # No   [4] IDEOGRAPHIC ANNOTATION ONE MARK..IDEOGRAPHIC ANNOTATION FOUR MARK
3196..319F    ; NFKC_QC; N # So  [10] IDEOGRAPHIC ANNOTATION TOP MARK..IDEOGRAPHIC ANNOTATION MAN MARK
3200..321E    ; NFKC_QC; N # So  [31] PARENTHESIZED HANGUL KIYEOK..PARENTHESIZED KOREAN CHARACTER O HU
3220..3229    ; NFKC_QC; N # No  [10] PARENTHESIZED IDEOGRAPH ONE..PARENTHESIZED IDEOGRAPH TEN
322A..3247    ; NFKC_QC; N # So  [30] PARENTHESIZED IDEOGRAPH MOON..CIRCLED IDEOGRAPH KOTO
3250          ; NFKC_QC; N # So       PARTNERSHIP SIGN
3251..325F    ; NFKC_QC; N # No  [15] CIRCLED NUMBER TWENTY ONE..CIRCLED NUMBER THIRTY FIVE
3260..327E    ; NFKC_QC; N # So  [31] CIRCLED HANGUL KIYEOK..CIRCLED HANGUL IEUNG U
3280..3289    ; NFKC_QC; N # No  [10] CIRCLED IDEOGRAPH ONE..CIRCLED IDEOGRAPH TEN
"%string.
Definition props_text_94 := "328A..32B0    ; NFKC_QC; N # So  [39] CIRCLED IDEOGRAPH MOON..CIRCLED IDEOGRAPH NIGHT
32B1..32BF    ; NFKC_QC; N # No  [15] CIRCLED NUMBER THIRTY SIX..CIRCLED NUMBER FIFTY
32C0..33FF    ; NFKC_QC; N # So [320] IDEOGRAPHIC TELEGRAPH SYMBOL FOR JANUARY..SQUARE GAL
A69C..A69D    ; NFKC_QC; N # Lm   [2] MODIFIER LETTER CYRILLIC HARD SIGN..MODIFIER LETTER CYRILLIC SOFT SIGN
A770          ; NFKC_QC; N # Lm       MODIFIER LETTER US
A7F8..A7F9    ; NFKC_QC; N # Lm   [2] MODIFIER LETTER CAPITAL H WITH STROKE..MODIFIER LETTER SMALL LIGATURE OE
AB5C..AB5F    ; NFKC_QC; N # Lm   [4] MODIFIER LETTER SMALL HENG..MODIFIER LETTER SMALL U WITH LEFT HOOK
AB69          ; NFKC_QC; N # Lm       MODIFIER LETTER SMALL TURNED W
F900..FA0D    ; NFKC_QC; N # Lo [270] CJK COMPATIBILITY IDEOGRAPH-F900..CJK COMPATIBILITY IDEOGRAPH-FA0D
FA10          ; NFKC_QC; N # Lo       CJK COMPATIBILITY IDEOGRAPH-FA10
FA12          ; NFKC_QC; N # Lo       CJK COMPATIBILITY IDEOGRAPH-FA12
FA15..FA1E    ; NFKC_QC; N # Lo  [10] CJK COMPATIBILITY IDEOGRAPH-FA15..CJK COMPATIBILITY IDEOGRAPH-FA1E
FA20          ; NFKC_QC; N # Lo       CJK COMPATIBILITY IDEOGRAPH-FA20
FA22          ; NFKC_QC; N # Lo       CJK COMPATIBILITY IDEOGRAPH-FA22
FA25..FA26    ; NFKC_QC; N # Lo   [2] CJK COMPATIBILITY IDEOGRAPH-FA25..CJK COMPATIBILITY IDEOGRAPH-FA26
FA2A..FA6D    ; NFKC_QC; N # Lo  [68] CJK COMPATIBILITY IDEOGRAPH-FA2A..CJK COMPATIBILITY IDEOGRAPH-FA6D
FA70..FAD9    ; NFKC_QC; N # Lo [106] CJK COMPATIBILITY IDEOGRAPH-FA70..CJK COMPATIBILITY IDEOGRAPH-FAD9
FB00..FB06    ; NFKC_QC; N # L&   [7] LATIN SMALL LIGATURE FF..LATIN SMALL LIGATURE ST
FB13..FB17    ; NFKC_QC; N # L&   [5] ARMENIAN SMALL LIGATURE MEN NOW..ARMENIAN SMALL LIGATURE MEN XEH
FB1D          ; NFKC_QC; N # Lo       HEBREW LETTER YOD WITH HIRIQ
"%string.
Definition props_text_95 := "FB1F..FB28    ; NFKC_QC; N # Lo  [10] HEBREW LIGATURE YIDDISH YOD YOD PATAH..HEBREW LETTER WIDE TAV
FB29          ; NFKC_QC; N # Sm       HEBREW LETTER ALTERNATIVE PLUS SIGN
FB2A..FB36    ; NFKC_QC; N # Lo  [13] HEBREW LETTER SHIN WITH SHIN DOT..HEBREW LETTER ZAYIN WITH DAGESH
FB38..FB3C    ; NFKC_QC; N # Lo   [5] HEBREW LETTER TET WITH DAGESH..HEBREW LETTER LAMED WITH DAGESH
FB3E          ; NFKC_QC; N # Lo       HEBREW LETTER MEM WITH DAGESH
FB40..FB41    ; NFKC_QC; N # Lo   [2] HEBREW LETTER NUN WITH DAGESH..HEBREW LETTER SAMEKH WITH DAGESH
FB43..FB44    ; NFKC_QC; N # Lo   [2] HEBREW LETTER FINAL PE WITH DAGESH..HEBREW LETTER PE WITH DAGESH
FB46..FBB1    ; NFKC_QC; N # Lo [108] HEBREW LETTER TSADI WITH DAGESH..ARABIC LETTER YEH BARREE WITH HAMZA ABOVE FINAL FORM
FBD3..FD3D    ; NFKC_QC; N # Lo [363] ARABIC LETTER NG ISOLATED FORM..ARABIC LIGATURE ALEF WITH FATHATAN ISOLATED FORM
FD50..FD8F    ; NFKC_QC; N # Lo  [64] ARABIC LIGATURE TEH WITH JEEM WITH MEEM INITIAL FORM..ARABIC LIGATURE MEEM WITH KHAH WITH MEEM INITIAL FORM
FD92..FDC7    ; NFKC_QC; N # Lo  [54] ARABIC LIGATURE MEEM WITH JEEM WITH KHAH INITIAL FORM..ARABIC LIGATURE NOON WITH JEEM WITH YEH FINAL FORM
FDF0..FDFB    ; NFKC_QC; N # Lo  [12] ARABIC LIGATURE SALLA USED AS KORANIC STOP SIGN ISOLATED FORM..ARABIC LIGATURE JALLAJALALOUHOU
FDFC          ; NFKC_QC; N # Sc       RIAL SIGN
FE10..FE16    ; NFKC_QC; N # Po   [7] PRESENTATION FORM FOR VERTICAL COMMA..PRESENTATION FORM FOR VERTICAL QUESTION MARK
FE17          ; NFKC_QC; N # Ps       PRESENTATION FORM FOR VERTICAL LEFT WHITE LENTICULAR BRACKET
FE18          ; NFKC_QC; N # Pe       PRESENTATION FORM FOR VERTICAL RIGHT WHITE LENTICULAR BRAKCET
FE19          ; NFKC_QC; N # Po       PRESENTATION FORM FOR VERTICAL HORIZONTAL ELLIPSIS
FE30          ; NFKC_QC; N # Po       PRESENTATION FORM FOR VERTICAL TWO DOT LEADER
FE31..FE32    ; NFKC_QC; N # Pd   [2] PRESENTATION FORM FOR VERTICAL EM DASH..PRESENTATION FORM FOR VERTICAL EN DASH
FE33..FE34    ; NFKC_QC; N # Pc   [2] PRESENTATION FORM FOR VERTICAL LOW LINE..PRESENTATION FORM FOR VERTICAL WAVY LOW LINE
"%string.
Definition props_text_96 := "FE35          ; NFKC_QC; N # Ps       PRESENTATION FORM FOR VERTICAL LEFT PARENTHESIS
FE36          ; NFKC_QC; N # Pe       PRESENTATION FORM FOR VERTICAL RIGHT PARENTHESIS
FE37          ; NFKC_QC; N # Ps       PRESENTATION FORM FOR VERTICAL LEFT CURLY BRACKET
FE38          ; NFKC_QC; N # Pe       PRESENTATION FORM FOR VERTICAL RIGHT CURLY BRACKET
FE39          ; NFKC_QC; N # Ps       PRESENTATION FORM FOR VERTICAL LEFT TORTOISE SHELL BRACKET
FE3A          ; NFKC_QC; N # Pe       PRESENTATION FORM FOR VERTICAL RIGHT TORTOISE SHELL BRACKET
FE3B          ; NFKC_QC; N # Ps       PRESENTATION FORM FOR VERTICAL LEFT BLACK LENTICULAR BRACKET
FE3C          ; NFKC_QC; N # Pe       PRESENTATION FORM FOR VERTICAL RIGHT BLACK LENTICULAR BRACKET
FE3D          ; NFKC_QC; N # Ps       PRESENTATION FORM FOR VERTICAL LEFT DOUBLE ANGLE BRACKET
FE3E          ; NFKC_QC; N # Pe       PRESENTATION FORM FOR VERTICAL RIGHT DOUBLE ANGLE BRACKET
FE3F          ; NFKC_QC; N # Ps       PRESENTATION FORM FOR VERTICAL LEFT ANGLE BRACKET
FE40          ; NFKC_QC; N # Pe       PRESENTATION FORM FOR VERTICAL RIGHT ANGLE BRACKET
FE41          ; NFKC_QC; N # Ps       PRESENTATION FORM FOR VERTICAL LEFT CORNER BRACKET
FE42          ; NFKC_QC; N # Pe       PRESENTATION FORM FOR VERTICAL RIGHT CORNER BRACKET
FE43          ; NFKC_QC; N # Ps       PRESENTATION FORM FOR VERTICAL LEFT WHITE CORNER BRACKET
FE44          ; NFKC_QC; N # Pe       PRESENTATION FORM FOR VERTICAL RIGHT WHITE CORNER BRACKET
FE47          ; NFKC_QC; N # Ps       PRESENTATION FORM FOR VERTICAL LEFT SQUARE BRACKET
FE48          ; NFKC_QC; N # Pe       PRESENTATION FORM FOR VERTICAL RIGHT SQUARE BRACKET
FE49..FE4C    ; NFKC_QC; N # Po   [4] DASHED OVERLINE..DOUBLE WAVY OVERLINE
FE4D..FE4F    ; NFKC_QC; N # Pc   [3] DASHED LOW LINE..WAVY LOW LINE
"%string.
Definition props_text_97 := "FE50..FE52    ; NFKC_QC; N # Po   [3] SMALL COMMA..SMALL FULL STOP
FE54..FE57    ; NFKC_QC; N # Po   [4] SMALL SEMICOLON..SMALL EXCLAMATION MARK
FE58          ; NFKC_QC; N # Pd       SMALL EM DASH
FE59          ; NFKC_QC; N # Ps       SMALL LEFT PARENTHESIS
FE5A          ; NFKC_QC; N # Pe       SMALL RIGHT PARENTHESIS
FE5B          ; NFKC_QC; N # Ps       SMALL LEFT CURLY BRACKET
FE5C          ; NFKC_QC; N # Pe       SMALL RIGHT CURLY BRACKET
FE5D          ; NFKC_QC; N # Ps       SMALL LEFT TORTOISE SHELL BRACKET
FE5E          ; NFKC_QC; N # Pe       SMALL RIGHT TORTOISE SHELL BRACKET
FE5F..FE61    ; NFKC_QC; N # Po   [3] SMALL NUMBER SIGN..SMALL ASTERISK
FE62          ; NFKC_QC; N # Sm       SMALL PLUS SIGN
FE63          ; NFKC_QC; N # Pd       SMALL HYPHEN-MINUS
FE64..FE66    ; NFKC_QC; N # Sm   [3] SMALL LESS-THAN SIGN..SMALL EQUALS SIGN
FE68          ; NFKC_QC; N # Po       SMALL REVERSE SOLIDUS
FE69          ; NFKC_QC; N # Sc       SMALL DOLLAR SIGN
FE6A..FE6B    ; NFKC_QC; N # Po   [2] SMALL PERCENT SIGN..SMALL COMMERCIAL AT
FE70..FE72    ; NFKC_QC; N # Lo   [3] ARABIC FATHATAN ISOLATED FORM..ARABIC DAMMATAN ISOLATED FORM
FE74          ; NFKC_QC; N # Lo       ARABIC KASRATAN ISOLATED FORM
FE76..FEFC    ; NFKC_QC; N # Lo [135] ARABIC FATHA ISOLATED FORM..ARABIC LIGATURE LAM WITH ALEF FINAL FORM
FF01..FF03    ; NFKC_QC; N # Po   [3] FULLWIDTH EXCLAMATION MARK..FULLWIDTH NUMBER SIGN
"%string.
Definition props_text_98 := "FF04          ; NFKC_QC; N # Sc       FULLWIDTH DOLLAR SIGN
FF05..FF07    ; NFKC_QC; N # Po   [3] FULLWIDTH PERCENT SIGN..FULLWIDTH APOSTROPHE
FF08          ; NFKC_QC; N # Ps       FULLWIDTH LEFT PARENTHESIS
FF09          ; NFKC_QC; N # Pe       FULLWIDTH RIGHT PARENTHESIS
FF0A          ; NFKC_QC; N # Po       FULLWIDTH ASTERISK
FF0B          ; NFKC_QC; N # Sm       FULLWIDTH PLUS SIGN
FF0C          ; NFKC_QC; N # Po       FULLWIDTH COMMA
FF0D          ; NFKC_QC; N # Pd       FULLWIDTH HYPHEN-MINUS
FF0E..FF0F    ; NFKC_QC; N # Po   [2] FULLWIDTH FULL STOP..FULLWIDTH SOLIDUS
FF10..FF19    ; NFKC_QC; N # Nd  [10] FULLWIDTH DIGIT ZERO..FULLWIDTH DIGIT NINE
FF1A..FF1B    ; NFKC_QC; N # Po   [2] FULLWIDTH COLON..FULLWIDTH SEMICOLON
FF1C..FF1E    ; NFKC_QC; N # Sm   [3] FULLWIDTH LESS-THAN SIGN..FULLWIDTH GREATER-THAN SIGN
FF1F..FF20    ; NFKC_QC; N # Po   [2] FULLWIDTH QUESTION MARK..FULLWIDTH COMMERCIAL AT
FF21..FF3A    ; NFKC_QC; N # L&  [26] FULLWIDTH LATIN CAPITAL LETTER A..FULLWIDTH LATIN CAPITAL LETTER Z
FF3B          ; NFKC_QC; N # Ps       FULLWIDTH LEFT SQUARE BRACKET
FF3C          ; NFKC_QC; N # Po       FULLWIDTH REVERSE SOLIDUS
FF3D          ; NFKC_QC; N # Pe       FULLWIDTH RIGHT SQUARE BRACKET
FF3E          ; NFKC_QC; N # Sk       FULLWIDTH CIRCUMFLEX ACCENT
FF3F          ; NFKC_QC; N # Pc       FULLWIDTH LOW LINE
FF40          ; NFKC_QC; N # Sk       FULLWIDTH GRAVE ACCENT
"%string.
Definition props_text_99 := "FF41..FF5A    ; NFKC_QC; N # L&  [26] FULLWIDTH LATIN SMALL LETTER A..FULLWIDTH LATIN SMALL LETTER Z
FF5B          ; NFKC_QC; N # Ps       FULLWIDTH LEFT CURLY BRACKET
FF5C          ; NFKC_QC; N # Sm       FULLWIDTH VERTICAL LINE
FF5D          ; NFKC_QC; N # Pe       FULLWIDTH RIGHT CURLY BRACKET
FF5E          ; NFKC_QC; N # Sm       FULLWIDTH TILDE
FF5F          ; NFKC_QC; N # Ps       FULLWIDTH LEFT WHITE PARENTHESIS
FF60          ; NFKC_QC; N # Pe       FULLWIDTH RIGHT WHITE PARENTHESIS
FF61          ; NFKC_QC; N # Po       HALFWIDTH IDEOGRAPHIC FULL STOP
FF62          ; NFKC_QC; N # Ps       HALFWIDTH LEFT CORNER BRACKET
FF63          ; NFKC_QC; N # Pe       HALFWIDTH RIGHT CORNER BRACKET
FF64..FF65    ; NFKC_QC; N # Po   [2] HALFWIDTH IDEOGRAPHIC COMMA..HALFWIDTH KATAKANA MIDDLE DOT
FF66..FF6F    ; NFKC_QC; N # Lo  [10] HALFWIDTH KATAKANA LETTER WO..HALFWIDTH KATAKANA LETTER SMALL TU
FF70          ; NFKC_QC; N # Lm       HALFWIDTH KATAKANA-HIRAGANA PROLONGED SOUND MARK
FF71..FF9D    ; NFKC_QC; N # Lo  [45] HALFWIDTH KATAKANA LETTER A..HALFWIDTH KATAKANA LETTER N
FF9E..FF9F    ; NFKC_QC; N # Lm   [2] HALFWIDTH KATAKANA VOICED SOUND MARK..HALFWIDTH KATAKANA SEMI-VOICED SOUND MARK
FFA0..FFBE    ; NFKC_QC; N # Lo  [31] HALFWIDTH HANGUL FILLER..HALFWIDTH HANGUL LETTER HIEUH
FFC2..FFC7    ; NFKC_QC; N # Lo   [6] HALFWIDTH HANGUL LETTER A..HALFWIDTH HANGUL LETTER E
FFCA..FFCF    ; NFKC_QC; N # Lo   [6] HALFWIDTH HANGUL LETTER YEO..HALFWIDTH HANGUL LETTER OE
FFD2..FFD7    ; NFKC_QC; N # Lo   [6] HALFWIDTH HANGUL LETTER YO..HALFWIDTH HANGUL LETTER YU
FFDA..FFDC    ; NFKC_QC; N # Lo   [3] HALFWIDTH HANGUL LETTER EU..HALFWIDTH HANGUL LETTER I
"%string.
Definition props_text_100 := "FFE0..FFE1    ; NFKC_QC; N # Sc   [2] FULLWIDTH CENT SIGN..FULLWIDTH POUND SIGN
FFE2          ; NFKC_QC; N # Sm       FULLWIDTH NOT SIGN
FFE3          ; NFKC_QC; N # Sk       FULLWIDTH MACRON
FFE4          ; NFKC_QC; N # So       FULLWIDTH BROKEN BAR
FFE5..FFE6    ; NFKC_QC; N # Sc   [2] FULLWIDTH YEN SIGN..FULLWIDTH WON SIGN
FFE8          ; NFKC_QC; N # So       HALFWIDTH FORMS LIGHT VERTICAL
FFE9..FFEC    ; NFKC_QC; N # Sm   [4] HALFWIDTH LEFTWARDS ARROW..HALFWIDTH DOWNWARDS ARROW
FFED..FFEE    ; NFKC_QC; N # So   [2] HALFWIDTH BLACK SQUARE..HALFWIDTH WHITE CIRCLE
1D15E..1D164  ; NFKC_QC; N # So   [7] MUSICAL SYMBOL HALF NOTE..MUSICAL SYMBOL ONE HUNDRED TWENTY-EIGHTH NOTE
1D1BB..1D1C0  ; NFKC_QC; N # So   [6] MUSICAL SYMBOL MINIMA..MUSICAL SYMBOL FUSA BLACK
1D400..1D454  ; NFKC_QC; N # L&  [85] MATHEMATICAL BOLD CAPITAL A..MATHEMATICAL ITALIC SMALL G
1D456..1D49C  ; NFKC_QC; N # L&  [71] MATHEMATICAL ITALIC SMALL I..MATHEMATICAL SCRIPT CAPITAL A
1D49E..1D49F  ; NFKC_QC; N # L&   [2] MATHEMATICAL SCRIPT CAPITAL C..MATHEMATICAL SCRIPT CAPITAL D
1D4A2         ; NFKC_QC; N # L&       MATHEMATICAL SCRIPT CAPITAL G
1D4A5..1D4A6  ; NFKC_QC; N # L&   [2] MATHEMATICAL SCRIPT CAPITAL J..MATHEMATICAL SCRIPT CAPITAL K
1D4A9..1D4AC  ; NFKC_QC; N # L&   [4] MATHEMATICAL SCRIPT CAPITAL N..MATHEMATICAL SCRIPT CAPITAL Q
1D4AE..1D4B9  ; NFKC_QC; N # L&  [12] MATHEMATICAL SCRIPT CAPITAL S..MATHEMATICAL SCRIPT SMALL D
1D4BB         ; NFKC_QC; N # L&       MATHEMATICAL SCRIPT SMALL F
1D4BD..1D4C3  ; NFKC_QC; N # L&   [7] MATHEMATICAL SCRIPT SMALL H..MATHEMATICAL SCRIPT SMALL N
1D4C5..1D505  ; NFKC_QC; N # L&  [65] MATHEMATICAL SCRIPT SMALL P..MATHEMATICAL FRAKTUR CAPITAL B
"%string.
Definition props_text_101 := "1D507..1D50A  ; NFKC_QC; N # L&   [4] MATHEMATICAL FRAKTUR CAPITAL D..MATHEMATICAL FRAKTUR CAPITAL G
1D50D..1D514  ; NFKC_QC; N # L&   [8] MATHEMATICAL FRAKTUR CAPITAL J..MATHEMATICAL FRAKTUR CAPITAL Q
1D516..1D51C  ; NFKC_QC; N # L&   [7] MATHEMATICAL FRAKTUR CAPITAL S..MATHEMATICAL FRAKTUR CAPITAL Y
1D51E..1D539  ; NFKC_QC; N # L&  [28] MATHEMATICAL FRAKTUR SMALL A..MATHEMATICAL DOUBLE-STRUCK CAPITAL B
1D53B..1D53E  ; NFKC_QC; N # L&   [4] MATHEMATICAL DOUBLE-STRUCK CAPITAL D..MATHEMATICAL DOUBLE-STRUCK CAPITAL G
1D540..1D544  ; NFKC_QC; N # L&   [5] MATHEMATICAL DOUBLE-STRUCK CAPITAL I..MATHEMATICAL DOUBLE-STRUCK CAPITAL M
1D546         ; NFKC_QC; N # L&       MATHEMATICAL DOUBLE-STRUCK CAPITAL O
1D54A..1D550  ; NFKC_QC; N # L&   [7] MATHEMATICAL DOUBLE-STRUCK CAPITAL S..MATHEMATICAL DOUBLE-STRUCK CAPITAL Y
1D552..1D6A5  ; NFKC_QC; N # L& [340] MATHEMATICAL DOUBLE-STRUCK SMALL A..MATHEMATICAL ITALIC SMALL DOTLESS J
1D6A8..1D6C0  ; NFKC_QC; N # L&  [25] MATHEMATICAL BOLD CAPITAL ALPHA..MATHEMATICAL BOLD CAPITAL OMEGA
1D6C1         ; NFKC_QC; N # Sm       MATHEMATICAL BOLD NABLA
1D6C2..1D6DA  ; NFKC_QC; N # L&  [25] MATHEMATICAL BOLD SMALL ALPHA..MATHEMATICAL BOLD SMALL OMEGA
1D6DB         ; NFKC_QC; N # Sm       MATHEMATICAL BOLD PARTIAL DIFFERENTIAL
1D6DC..1D6FA  ; NFKC_QC; N # L&  [31] MATHEMATICAL BOLD EPSILON SYMBOL..MATHEMATICAL ITALIC CAPITAL OMEGA
1D6FB         ; NFKC_QC; N # Sm       MATHEMATICAL ITALIC NABLA
1D6FC..1D714  ; NFKC_QC; N # L&  [25] MATHEMATICAL ITALIC SMALL ALPHA..MATHEMATICAL ITALIC SMALL OMEGA
1D715         ; NFKC_QC; N # Sm       MATHEMATICAL ITALIC PARTIAL DIFFERENTIAL
1D716..1D734  ; NFKC_QC; N # L&  [31] MATHEMATICAL ITALIC EPSILON SYMBOL..MATHEMATICAL BOLD ITALIC CAPITAL OMEGA
1D735         ; NFKC_QC; N # Sm       MATHEMATICAL BOLD ITALIC NABLA
1D736..1D74E  ; NFKC_QC; N # L&  [25] MATHEMATICAL BOLD ITALIC SMALL ALPHA..MATHEMATICAL BOLD ITALIC SMALL OMEGA
"%string.
Definition props_text_102 := "1D74F         ; NFKC_QC; N # Sm       MATHEMATICAL BOLD ITALIC PARTIAL DIFFERENTIAL
1D750..1D76E  ; NFKC_QC; N # L&  [31] MATHEMATICAL BOLD ITALIC EPSILON SYMBOL..MATHEMATICAL SANS-SERIF BOLD CAPITAL OMEGA
1D76F         ; NFKC_QC; N # Sm       MATHEMATICAL SANS-SERIF BOLD NABLA
1D770..1D788  ; NFKC_QC; N # L&  [25] MATHEMATICAL SANS-SERIF BOLD SMALL ALPHA..MATHEMATICAL SANS-SERIF BOLD SMALL OMEGA
1D789         ; NFKC_QC; N # Sm       MATHEMATICAL SANS-SERIF BOLD PARTIAL DIFFERENTIAL
1D78A..1D7A8  ; NFKC_QC; N # L&  [31] MATHEMATICAL SANS-SERIF BOLD EPSILON SYMBOL..MATHEMATICAL SANS-SERIF BOLD ITALIC CAPITAL OMEGA
1D7A9         ; NFKC_QC; N # Sm       MATHEMATICAL SANS-SERIF BOLD ITALIC NABLA
1D7AA..1D7C2  ; NFKC_QC; N # L&  [25] MATHEMATICAL SANS-SERIF BOLD ITALIC SMALL ALPHA..MATHEMATICAL SANS-SERIF BOLD ITALIC SMALL OMEGA
1D7C3         ; NFKC_QC; N # Sm       MATHEMATICAL SANS-SERIF BOLD ITALIC PARTIAL DIFFERENTIAL
1D7C4..1D7CB  ; NFKC_QC; N # L&   [8] MATHEMATICAL SANS-SERIF BOLD ITALIC EPSILON SYMBOL..MATHEMATICAL BOLD SMALL DIGAMMA
1D7CE..1D7FF  ; NFKC_QC; N # Nd  [50] MATHEMATICAL BOLD DIGIT ZERO..MATHEMATICAL MONOSPACE DIGIT NINE
1EE00..1EE03  ; NFKC_QC; N # Lo   [4] ARABIC MATHEMATICAL ALEF..ARABIC MATHEMATICAL DAL
1EE05..1EE1F  ; NFKC_QC; N # Lo  [27] ARABIC MATHEMATICAL WAW..ARABIC MATHEMATICAL DOTLESS QAF
1EE21..1EE22  ; NFKC_QC; N # Lo   [2] ARABIC MATHEMATICAL INITIAL BEH..ARABIC MATHEMATICAL INITIAL JEEM
1EE24         ; NFKC_QC; N # Lo       ARABIC MATHEMATICAL INITIAL HEH
1EE27         ; NFKC_QC; N # Lo       ARABIC MATHEMATICAL INITIAL HAH
1EE29..1EE32  ; NFKC_QC; N # Lo  [10] ARABIC MATHEMATICAL INITIAL YEH..ARABIC MATHEMATICAL INITIAL QAF
1EE34..1EE37  ; NFKC_QC; N # Lo   [4] ARABIC MATHEMATICAL INITIAL SHEEN..ARABIC MATHEMATICAL INITIAL KHAH
1EE39         ; NFKC_QC; N # Lo       ARABIC MATHEMATICAL INITIAL DAD
1EE3B         ; NFKC_QC; N # Lo       ARABIC MATHEMATICAL INITIAL GHAIN
"%string.
Definition props_text_103 := "1EE42         ; NFKC_QC; N # Lo       ARABIC MATHEMATICAL TAILED JEEM
1EE47         ; NFKC_QC; N # Lo       ARABIC MATHEMATICAL TAILED HAH
1EE49         ; NFKC_QC; N # Lo       ARABIC MATHEMATICAL TAILED YEH
1EE4B         ; NFKC_QC; N # Lo       ARABIC MATHEMATICAL TAILED LAM
1EE4D..1EE4F  ; NFKC_QC; N # Lo   [3] ARABIC MATHEMATICAL TAILED NOON..ARABIC MATHEMATICAL TAILED AIN
1EE51..1EE52  ; NFKC_QC; N # Lo   [2] ARABIC MATHEMATICAL TAILED SAD..ARABIC MATHEMATICAL TAILED QAF
1EE54         ; NFKC_QC; N # Lo       ARABIC MATHEMATICAL TAILED SHEEN
1EE57         ; NFKC_QC; N # Lo       ARABIC MATHEMATICAL TAILED KHAH
1EE59         ; NFKC_QC; N # Lo       ARABIC MATHEMATICAL TAILED DAD
1EE5B         ; NFKC_QC; N # Lo       ARABIC MATHEMATICAL TAILED GHAIN
1EE5D         ; NFKC_QC; N # Lo       ARABIC MATHEMATICAL TAILED DOTLESS NOON
1EE5F         ; NFKC_QC; N # Lo       ARABIC MATHEMATICAL TAILED DOTLESS QAF
1EE61..1EE62  ; NFKC_QC; N # Lo   [2] ARABIC MATHEMATICAL STRETCHED BEH..ARABIC MATHEMATICAL STRETCHED JEEM
1EE64         ; NFKC_QC; N # Lo       ARABIC MATHEMATICAL STRETCHED HEH
1EE67..1EE6A  ; NFKC_QC; N # Lo   [4] ARABIC MATHEMATICAL STRETCHED HAH..ARABIC MATHEMATICAL STRETCHED KAF
1EE6C..1EE72  ; NFKC_QC; N # Lo   [7] ARABIC MATHEMATICAL STRETCHED MEEM..ARABIC MATHEMATICAL STRETCHED QAF
1EE74..1EE77  ; NFKC_QC; N # Lo   [4] ARABIC MATHEMATICAL STRETCHED SHEEN..ARABIC MATHEMATICAL STRETCHED KHAH
1EE79..1EE7C  ; NFKC_QC; N # Lo   [4] ARABIC MATHEMATICAL STRETCHED DAD..ARABIC MATHEMATICAL STRETCHED DOTLESS BEH
1EE7E         ; NFKC_QC; N # Lo       ARABIC MATHEMATICAL STRETCHED DOTLESS FEH
1EE80..1EE89  ; NFKC_QC; N # Lo  [10] ARABIC MATHEMATICAL LOOPED ALEF..ARABIC MATHEMATICAL LOOPED YEH
"%string.
Definition props_text_104 := "1EE8B..1EE9B  ; NFKC_QC; N # Lo  [17] ARABIC MATHEMATICAL LOOPED LAM..ARABIC MATHEMATICAL LOOPED GHAIN
1EEA1..1EEA3  ; NFKC_QC; N # Lo   [3] ARABIC MATHEMATICAL DOUBLE-STRUCK BEH..ARABIC MATHEMATICAL DOUBLE-STRUCK DAL
1EEA5..1EEA9  ; NFKC_QC; N # Lo   [5] ARABIC MATHEMATICAL DOUBLE-STRUCK WAW..ARABIC MATHEMATICAL DOUBLE-STRUCK YEH
1EEAB..1EEBB  ; NFKC_QC; N # Lo  [17] ARABIC MATHEMATICAL DOUBLE-STRUCK LAM..ARABIC MATHEMATICAL DOUBLE-STRUCK GHAIN
1F100..1F10A  ; NFKC_QC; N # No  [11] DIGIT ZERO FULL STOP..DIGIT NINE COMMA
1F110..1F12E  ; NFKC_QC; N # So  [31] PARENTHESIZED LATIN CAPITAL LETTER A..CIRCLED WZ
1F130..1F14F  ; NFKC_QC; N # So  [32] SQUARED LATIN CAPITAL LETTER A..SQUARED WC
1F16A..1F16C  ; NFKC_QC; N # So   [3] RAISED MC SIGN..RAISED MR SIGN
1F190         ; NFKC_QC; N # So       SQUARE DJ
1F200..1F202  ; NFKC_QC; N # So   [3] SQUARE HIRAGANA HOKA..SQUARED KATAKANA SA
1F210..1F23B  ; NFKC_QC; N # So  [44] SQUARED CJK UNIFIED IDEOGRAPH-624B..SQUARED CJK UNIFIED IDEOGRAPH-914D
1F240..1F248  ; NFKC_QC; N # So   [9] TORTOISE SHELL BRACKETED CJK UNIFIED IDEOGRAPH-672C..TORTOISE SHELL BRACKETED CJK UNIFIED IDEOGRAPH-6557
1F250..1F251  ; NFKC_QC; N # So   [2] CIRCLED IDEOGRAPH ADVANTAGE..CIRCLED IDEOGRAPH ACCEPT
1FBF0..1FBF9  ; NFKC_QC; N # Nd  [10] SEGMENTED DIGIT ZERO..SEGMENTED DIGIT NINE
2F800..2FA1D  ; NFKC_QC; N # Lo [542] CJK COMPATIBILITY IDEOGRAPH-2F800..CJK COMPATIBILITY IDEOGRAPH-2FA1D

# Total code points: 4807

# ================================================

"%string.
Definition props_text_105 := "# NFKC_Quick_Check=Maybe

0300..0304    ; NFKC_QC; M # Mn   [5] COMBINING GRAVE ACCENT..COMBINING MACRON
0306..030C    ; NFKC_QC; M # Mn   [7] COMBINING BREVE..COMBINING CARON
030F          ; NFKC_QC; M # Mn       COMBINING DOUBLE GRAVE ACCENT
0311          ; NFKC_QC; M # Mn       COMBINING INVERTED BREVE
0313..0314    ; NFKC_QC; M # Mn   [2] COMBINING COMMA ABOVE..COMBINING REVERSED COMMA ABOVE
031B          ; NFKC_QC; M # Mn       COMBINING HORN
0323..0328    ; NFKC_QC; M # Mn   [6] COMBINING DOT BELOW..COMBINING OGONEK
032D..032E    ; NFKC_QC; M # Mn   [2] COMBINING CIRCUMFLEX ACCENT BELOW..COMBINING BREVE BELOW
0330..0331    ; NFKC_QC; M # Mn   [2] COMBINING TILDE BELOW..COMBINING MACRON BELOW
0338          ; NFKC_QC; M # Mn       COMBINING LONG SOLIDUS OVERLAY
0342          ; NFKC_QC; M # Mn       COMBINING GREEK PERISPOMENI
0345          ; NFKC_QC; M # Mn       COMBINING GREEK YPOGEGRAMMENI
0653..0655    ; NFKC_QC; M # Mn   [3] ARABIC MADDAH ABOVE..ARABIC HAMZA BELOW
093C          ; NFKC_QC; M # Mn       DEVANAGARI SIGN NUKTA
09BE          ; NFKC_QC; M # Mc       BENGALI VOWEL SIGN AA
09D7          ; NFKC_QC; M # Mc       BENGALI AU LENGTH MARK
0B3E          ; NFKC_QC; M # Mc       ORIYA VOWEL SIGN AA
0B56          ; NFKC_QC; M # Mn       ORIYA AI LENGTH MARK
"%string.
Definition props_text_106 := "0B57          ; NFKC_QC; M # Mc       ORIYA AU LENGTH MARK
0BBE          ; NFKC_QC; M # Mc       TAMIL VOWEL SIGN AA
0BD7          ; NFKC_QC; M # Mc       TAMIL AU LENGTH MARK
0C56          ; NFKC_QC; M # Mn       TELUGU AI LENGTH MARK
0CC2          ; NFKC_QC; M # Mc       KANNADA VOWEL SIGN UU
0CD5..0CD6    ; NFKC_QC; M # Mc   [2] KANNADA LENGTH MARK..KANNADA AI LENGTH MARK
0D3E          ; NFKC_QC; M # Mc       MALAYALAM VOWEL SIGN AA
0D57          ; NFKC_QC; M # Mc       MALAYALAM AU LENGTH MARK
0DCA          ; NFKC_QC; M # Mn       SINHALA SIGN AL-LAKUNA
0DCF          ; NFKC_QC; M # Mc       SINHALA VOWEL SIGN AELA-PILLA
0DDF          ; NFKC_QC; M # Mc       SINHALA VOWEL SIGN GAYANUKITTA
102E          ; NFKC_QC; M # Mn       MYANMAR VOWEL SIGN II
1161..1175    ; NFKC_QC; M # Lo  [21] HANGUL JUNGSEONG A..HANGUL JUNGSEONG I
11A8..11C2    ; NFKC_QC; M # Lo  [27] HANGUL JONGSEONG KIYEOK..HANGUL JONGSEONG HIEUH
1B35          ; NFKC_QC; M # Mc       BALINESE VOWEL SIGN TEDUNG
3099..309A    ; NFKC_QC; M # Mn   [2] COMBINING KATAKANA-HIRAGANA VOICED SOUND MARK..COMBINING KATAKANA-HIRAGANA SEMI-VOICED SOUND MARK
110BA         ; NFKC_QC; M # Mn       KAITHI SIGN NUKTA
11127         ; NFKC_QC; M # Mn       CHAKMA VOWEL SIGN A
1133E         ; NFKC_QC; M # Mc       GRANTHA VOWEL SIGN AA
11357         ; NFKC_QC; M # Mc       GRANTHA AU LENGTH MARK
"%string.
Definition props_text_107 := "114B0         ; NFKC_QC; M # Mc       TIRHUTA VOWEL SIGN AA
114BA         ; NFKC_QC; M # Mn       TIRHUTA VOWEL SIGN SHORT E
114BD         ; NFKC_QC; M # Mc       TIRHUTA VOWEL SIGN SHORT O
115AF         ; NFKC_QC; M # Mc       SIDDHAM VOWEL SIGN AA
11930         ; NFKC_QC; M # Mc       DIVES AKURU VOWEL SIGN AA

# Total code points: 111

# ================================================

# Derived Property: Expands_On_NFD (DEPRECATED as of Unicode 6.0.0)
#   Generated according to UAX #15.
#   Characters whose normalized length is not one.
#   WARNING: Normalization of STRINGS must use the algorithm in UAX #15 because characters may interact.
#            The length of a normalized string is not necessarily the sum of the lengths of the normalized characters!

00C0..00C5    ; Expands_On_NFD # L&   [6] LATIN CAPITAL LETTER A WITH GRAVE..LATIN CAPITAL LETTER A WITH RING ABOVE
00C7..00CF    ; Expands_On_NFD # L&   [9] LATIN CAPITAL LETTER C WITH CEDILLA..LATIN CAPITAL LETTER I WITH DIAERESIS
00D1..00D6    ; Expands_On_NFD # L&   [6] LATIN CAPITAL LETTER N WITH TILDE..LATIN CAPITAL LETTER O WITH DIAERESIS
00D9..00DD    ; Expands_On_NFD # L&   [5] LATIN CAPITAL LETTER U WITH GRAVE..LATIN CAPITAL LETTER Y WITH ACUTE
"%string.
Definition props_text_108 := "00E0..00E5    ; Expands_On_NFD # L&   [6] LATIN SMALL LETTER A WITH GRAVE..LATIN SMALL LETTER A WITH RING ABOVE
00E7..00EF    ; Expands_On_NFD # L&   [9] LATIN SMALL LETTER C WITH CEDILLA..LATIN SMALL LETTER I WITH DIAERESIS
00F1..00F6    ; Expands_On_NFD # L&   [6] LATIN SMALL LETTER N WITH TILDE..LATIN SMALL LETTER O WITH DIAERESIS
00F9..00FD    ; Expands_On_NFD # L&   [5] LATIN SMALL LETTER U WITH GRAVE..LATIN SMALL LETTER Y WITH ACUTE
00FF..010F    ; Expands_On_NFD # L&  [17] LATIN SMALL LETTER Y WITH DIAERESIS..LATIN SMALL LETTER D WITH CARON
0112..0125    ; Expands_On_NFD # L&  [20] LATIN CAPITAL LETTER E WITH MACRON..LATIN SMALL LETTER H WITH CIRCUMFLEX
0128..0130    ; Expands_On_NFD # L&   [9] LATIN CAPITAL LETTER I WITH TILDE..LATIN CAPITAL LETTER I WITH DOT ABOVE
0134..0137    ; Expands_On_NFD # L&   [4] LATIN CAPITAL LETTER J WITH CIRCUMFLEX..LATIN SMALL LETTER K WITH CEDILLA
0139..013E    ; Expands_On_NFD # L&   [6] LATIN CAPITAL LETTER L WITH ACUTE..LATIN SMALL LETTER L WITH CARON
0143..0148    ; Expands_On_NFD # L&   [6] LATIN CAPITAL LETTER N WITH ACUTE..LATIN SMALL LETTER N WITH CARON
014C..0151    ; Expands_On_NFD # L&   [6] LATIN CAPITAL LETTER O WITH MACRON..LATIN SMALL LETTER O WITH DOUBLE ACUTE
0154..0165    ; Expands_On_NFD # L&  [18] LATIN CAPITAL LETTER R WITH ACUTE..LATIN SMALL LETTER T WITH CARON
0168..017E    ; Expands_On_NFD # L&  [23] LATIN CAPITAL LETTER U WITH TILDE..LATIN SMALL LETTER Z WITH CARON
01A0..01A1    ; Expands_On_NFD # L&   [2] LATIN CAPITAL LETTER O WITH HORN..LATIN SMALL LETTER O WITH HORN
01AF..01B0    ; Expands_On_NFD # L&   [2] LATIN CAPITAL LETTER U WITH HORN..LATIN SMALL LETTER U WITH HORN
01CD..01DC    ; Expands_On_NFD # L&  [16] LATIN CAPITAL LETTER A WITH CARON..LATIN SMALL LETTER U WITH DIAERESIS AND GRAVE
01DE..01E3    ; Expands_On_NFD # L&   [6] LATIN CAPITAL LETTER A WITH DIAERESIS AND MACRON..LATIN SMALL LETTER AE WITH MACRON
01E6..01F0    ; Expands_On_NFD # L&  [11] LATIN CAPITAL LETTER G WITH CARON..LATIN SMALL LETTER J WITH CARON
01F4..01F5    ; Expands_On_NFD # L&   [2] LATIN CAPITAL LETTER G WITH ACUTE..LATIN SMALL LETTER G WITH ACUTE
01F8..021B    ; Expands_On_NFD # L&  [36] LATIN CAPITAL LETTER N WITH GRAVE..LATIN SMALL LETTER T WITH COMMA BELOW
"%string.
Definition props_text_109 := "021E..021F    ; Expands_On_NFD # L&   [2] LATIN CAPITAL LETTER H WITH CARON..LATIN SMALL LETTER H WITH CARON
0226..0233    ; Expands_On_NFD # L&  [14] LATIN CAPITAL LETTER A WITH DOT ABOVE..LATIN SMALL LETTER Y WITH MACRON
0344          ; Expands_On_NFD # Mn       COMBINING GREEK DIALYTIKA TONOS
0385          ; Expands_On_NFD # Sk       GREEK DIALYTIKA TONOS
0386          ; Expands_On_NFD # L&       GREEK CAPITAL LETTER ALPHA WITH TONOS
0388..038A    ; Expands_On_NFD # L&   [3] GREEK CAPITAL LETTER EPSILON WITH TONOS..GREEK CAPITAL LETTER IOTA WITH TONOS
038C          ; Expands_On_NFD # L&       GREEK CAPITAL LETTER OMICRON WITH TONOS
038E..0390    ; Expands_On_NFD # L&   [3] GREEK CAPITAL LETTER UPSILON WITH TONOS..GREEK SMALL LETTER IOTA WITH DIALYTIKA AND TONOS
03AA..03B0    ; Expands_On_NFD # L&   [7] GREEK CAPITAL LETTER IOTA WITH DIALYTIKA..GREEK SMALL LETTER UPSILON WITH DIALYTIKA AND TONOS
03CA..03CE    ; Expands_On_NFD # L&   [5] GREEK SMALL LETTER IOTA WITH DIALYTIKA..GREEK SMALL LETTER OMEGA WITH TONOS
03D3..03D4    ; Expands_On_NFD # L&   [2] GREEK UPSILON WITH ACUTE AND HOOK SYMBOL..GREEK UPSILON WITH DIAERESIS AND HOOK SYMBOL
0400..0401    ; Expands_On_NFD # L&   [2] CYRILLIC CAPITAL LETTER IE WITH GRAVE..CYRILLIC CAPITAL LETTER IO
0403          ; Expands_On_NFD # L&       CYRILLIC CAPITAL LETTER GJE
0407          ; Expands_On_NFD # L&       CYRILLIC CAPITAL LETTER YI
040C..040E    ; Expands_On_NFD # L&   [3] CYRILLIC CAPITAL LETTER KJE..CYRILLIC CAPITAL LETTER SHORT U
0419          ; Expands_On_NFD # L&       CYRILLIC CAPITAL LETTER SHORT I
0439          ; Expands_On_NFD # L&       CYRILLIC SMALL LETTER SHORT I
0450..0451    ; Expands_On_NFD # L&   [2] CYRILLIC SMALL LETTER IE WITH GRAVE..CYRILLIC SMALL LETTER IO
0453          ; Expands_On_NFD # L&       CYRILLIC SMALL LETTER GJE
0457          ; Expands_On_NFD # L&       CYRILLIC SMALL LETTER YI
"%string.
Definition props_text_110 := "045C..045E    ; Expands_On_NFD # L&   [3] CYRILLIC SMALL LETTER KJE..CYRILLIC SMALL LETTER SHORT U
0476..0477    ; Expands_On_NFD # L&   [2] CYRILLIC CAPITAL LETTER IZHITSA WITH DOUBLE GRAVE ACCENT..CYRILLIC SMALL LETTER IZHITSA WITH DOUBLE GRAVE ACCENT
04C1..04C2    ; Expands_On_NFD # L&   [2] CYRILLIC CAPITAL LETTER ZHE WITH BREVE..CYRILLIC SMALL LETTER ZHE WITH BREVE
04D0..04D3    ; Expands_On_NFD # L&   [4] CYRILLIC CAPITAL LETTER A WITH BREVE..CYRILLIC SMALL LETTER A WITH DIAERESIS
04D6..04D7    ; Expands_On_NFD # L&   [2] CYRILLIC CAPITAL LETTER IE WITH BREVE..CYRILLIC SMALL LETTER IE WITH BREVE
04DA..04DF    ; Expands_On_NFD # L&   [6] CYRILLIC CAPITAL LETTER SCHWA WITH DIAERESIS..CYRILLIC SMALL LETTER ZE WITH DIAERESIS
04E2..04E7    ; Expands_On_NFD # L&   [6] CYRILLIC CAPITAL LETTER I WITH MACRON..CYRILLIC SMALL LETTER O WITH DIAERESIS
04EA..04F5    ; Expands_On_NFD # L&  [12] CYRILLIC CAPITAL LETTER BARRED O WITH DIAERESIS..CYRILLIC SMALL LETTER CHE WITH DIAERESIS
04F8..04F9    ; Expands_On_NFD # L&   [2] CYRILLIC CAPITAL LETTER YERU WITH DIAERESIS..CYRILLIC SMALL LETTER YERU WITH DIAERESIS
0622..0626    ; Expands_On_NFD # Lo   [5] ARABIC LETTER ALEF WITH MADDA ABOVE..ARABIC LETTER YEH WITH HAMZA ABOVE
06C0          ; Expands_On_NFD # Lo       ARABIC LETTER HEH WITH YEH ABOVE
06C2          ; Expands_On_NFD # Lo       ARABIC LETTER HEH GOAL WITH HAMZA ABOVE
06D3          ; Expands_On_NFD # Lo       ARABIC LETTER YEH BARREE WITH HAMZA ABOVE
0929          ; Expands_On_NFD # Lo       DEVANAGARI LETTER NNNA
0931          ; Expands_On_NFD # Lo       DEVANAGARI LETTER RRA
0934          ; Expands_On_NFD # Lo       DEVANAGARI LETTER LLLA
0958..095F    ; Expands_On_NFD # Lo   [8] DEVANAGARI LETTER QA..DEVANAGARI LETTER YYA
09CB..09CC    ; Expands_On_NFD # Mc   [2] BENGALI VOWEL SIGN O..BENGALI VOWEL SIGN AU
09DC..09DD    ; Expands_On_NFD # Lo   [2] BENGALI LETTER RRA..BENGALI LETTER RHA
09DF          ; Expands_On_NFD # Lo       BENGALI LETTER YYA
"%string.
Definition props_text_111 := "0A33          ; Expands_On_NFD # Lo       GURMUKHI LETTER LLA
0A36          ; Expands_On_NFD # Lo       GURMUKHI LETTER SHA
0A59..0A5B    ; Expands_On_NFD # Lo   [3] GURMUKHI LETTER KHHA..GURMUKHI LETTER ZA
0A5E          ; Expands_On_NFD # Lo       GURMUKHI LETTER FA
0B48          ; Expands_On_NFD # Mc       ORIYA VOWEL SIGN AI
0B4B..0B4C    ; Expands_On_NFD # Mc   [2] ORIYA VOWEL SIGN O..ORIYA VOWEL SIGN AU
0B5C..0B5D    ; Expands_On_NFD # Lo   [2] ORIYA LETTER RRA..ORIYA LETTER RHA
0B94          ; Expands_On_NFD # Lo       TAMIL LETTER AU
0BCA..0BCC    ; Expands_On_NFD # Mc   [3] TAMIL VOWEL SIGN O..TAMIL VOWEL SIGN AU
0C48          ; Expands_On_NFD # Mn       TELUGU VOWEL SIGN AI
0CC0          ; Expands_On_NFD # Mc       KANNADA VOWEL SIGN II
0CC7..0CC8    ; Expands_On_NFD # Mc   [2] KANNADA VOWEL SIGN EE..KANNADA VOWEL SIGN AI
0CCA..0CCB    ; Expands_On_NFD # Mc   [2] KANNADA VOWEL SIGN O..KANNADA VOWEL SIGN OO
0D4A..0D4C    ; Expands_On_NFD # Mc   [3] MALAYALAM VOWEL SIGN O..MALAYALAM VOWEL SIGN AU
0DDA          ; Expands_On_NFD # Mc       SINHALA VOWEL SIGN DIGA KOMBUVA
0DDC..0DDE    ; Expands_On_NFD # Mc   [3] SINHALA VOWEL SIGN KOMBUVA HAA AELA-PILLA..SINHALA VOWEL SIGN KOMBUVA HAA GAYANUKITTA
0F43          ; Expands_On_NFD # Lo       TIBETAN LETTER GHA
0F4D          ; Expands_On_NFD # Lo       TIBETAN LETTER DDHA
0F52          ; Expands_On_NFD # Lo       TIBETAN LETTER DHA
0F57          ; Expands_On_NFD # Lo       TIBETAN LETTER BHA
"%string.
Definition props_text_112 := "0F5C          ; Expands_On_NFD # Lo       TIBETAN LETTER DZHA
0F69          ; Expands_On_NFD # Lo       TIBETAN LETTER KSSA
0F73          ; Expands_On_NFD # Mn       TIBETAN VOWEL SIGN II
0F75..0F76    ; Expands_On_NFD # Mn   [2] TIBETAN VOWEL SIGN UU..TIBETAN VOWEL SIGN VOCALIC R
0F78          ; Expands_On_NFD # Mn       TIBETAN VOWEL SIGN VOCALIC L
0F81          ; Expands_On_NFD # Mn       TIBETAN VOWEL SIGN REVERSED II
0F93          ; Expands_On_NFD # Mn       TIBETAN SUBJOINED LETTER GHA
0F9D          ; Expands_On_NFD # Mn       TIBETAN SUBJOINED LETTER DDHA
0FA2          ; Expands_On_NFD # Mn       TIBETAN SUBJOINED LETTER DHA
0FA7          ; Expands_On_NFD # Mn       TIBETAN SUBJOINED LETTER BHA
0FAC          ; Expands_On_NFD # Mn       TIBETAN SUBJOINED LETTER DZHA
0FB9          ; Expands_On_NFD # Mn       TIBETAN SUBJOINED LETTER KSSA
1026          ; Expands_On_NFD # Lo       MYANMAR LETTER UU
1B06          ; Expands_On_NFD # Lo       BALINESE LETTER AKARA TEDUNG
1B08          ; Expands_On_NFD # Lo       BALINESE LETTER IKARA TEDUNG
1B0A          ; Expands_On_NFD # Lo       BALINESE LETTER UKARA TEDUNG
1B0C          ; Expands_On_NFD # Lo       BALINESE LETTER RA REPA TEDUNG
1B0E          ; Expands_On_NFD # Lo       BALINESE LETTER LA LENGA TEDUNG
1B12          ; Expands_On_NFD # Lo       BALINESE LETTER OKARA TEDUNG
1B3B          ; Expands_On_NFD # Mc       BALINESE VOWEL SIGN RA REPA TEDUNG
"%string.
Definition props_text_113 := "1B3D          ; Expands_On_NFD # Mc       BALINESE VOWEL SIGN LA LENGA TEDUNG
1B40..1B41    ; Expands_On_NFD # Mc   [2] BALINESE VOWEL SIGN TALING TEDUNG..BALINESE VOWEL SIGN TALING REPA TEDUNG
1B43          ; Expands_On_NFD # Mc       BALINESE VOWEL SIGN PEPET TEDUNG
1E00..1E99    ; Expands_On_NFD # L& [154] LATIN CAPITAL LETTER A WITH RING BELOW..LATIN SMALL LETTER Y WITH RING ABOVE
1E9B          ; Expands_On_NFD # L&       LATIN SMALL LETTER LONG S WITH DOT ABOVE
1EA0..1EF9    ; Expands_On_NFD # L&  [90] LATIN CAPITAL LETTER A WITH DOT BELOW..LATIN SMALL LETTER Y WITH TILDE
1F00..1F15    ; Expands_On_NFD # L&  [22] GREEK SMALL LETTER ALPHA WITH PSILI..GREEK SMALL LETTER EPSILON WITH DASIA AND OXIA
1F18..1F1D    ; Expands_On_NFD # L&   [6] GREEK CAPITAL LETTER EPSILON WITH PSILI..GREEK CAPITAL LETTER EPSILON WITH DASIA AND OXIA
1F20..1F45    ; Expands_On_NFD # L&  [38] GREEK SMALL LETTER ETA WITH PSILI..GREEK SMALL LETTER OMICRON WITH DASIA AND OXIA
1F48..1F4D    ; Expands_On_NFD # L&   [6] GREEK CAPITAL LETTER OMICRON WITH PSILI..GREEK CAPITAL LETTER OMICRON WITH DASIA AND OXIA
1F50..1F57    ; Expands_On_NFD # L&   [8] GREEK SMALL LETTER UPSILON WITH PSILI..GREEK SMALL LETTER UPSILON WITH DASIA AND PERISPOMENI
1F59          ; Expands_On_NFD # L&       GREEK CAPITAL LETTER UPSILON WITH DASIA
1F5B          ; Expands_On_NFD # L&       GREEK CAPITAL LETTER UPSILON WITH DASIA AND VARIA
1F5D          ; Expands_On_NFD # L&       GREEK CAPITAL LETTER UPSILON WITH DASIA AND OXIA
1F5F..1F7D    ; Expands_On_NFD # L&  [31] GREEK CAPITAL LETTER UPSILON WITH DASIA AND PERISPOMENI..GREEK SMALL LETTER OMEGA WITH OXIA
1F80..1FB4    ; Expands_On_NFD # L&  [53] GREEK SMALL LETTER ALPHA WITH PSILI AND YPOGEGRAMMENI..GREEK SMALL LETTER ALPHA WITH OXIA AND YPOGEGRAMMENI
1FB6..1FBC    ; Expands_On_NFD # L&   [7] GREEK SMALL LETTER ALPHA WITH PERISPOMENI..GREEK CAPITAL LETTER ALPHA WITH PROSGEGRAMMENI
1FC1          ; Expands_On_NFD # Sk       GREEK DIALYTIKA AND PERISPOMENI
1FC2..1FC4    ; Expands_On_NFD # L&   [3] GREEK SMALL LETTER ETA WITH VARIA AND YPOGEGRAMMENI..GREEK SMALL LETTER ETA WITH OXIA AND YPOGEGRAMMENI
1FC6..1FCC    ; Expands_On_NFD # L&   [7] GREEK SMALL LETTER ETA WITH PERISPOMENI..GREEK CAPITAL LETTER ETA WITH PROSGEGRAMMENI
"%string.
Definition props_text_114 := "1FCD..1FCF    ; Expands_On_NFD # Sk   [3] GREEK PSILI AND VARIA..GREEK PSILI AND PERISPOMENI
1FD0..1FD3    ; Expands_On_NFD # L&   [4] GREEK SMALL LETTER IOTA WITH VRACHY..GREEK SMALL LETTER IOTA WITH DIALYTIKA AND OXIA
1FD6..1FDB    ; Expands_On_NFD # L&   [6] GREEK SMALL LETTER IOTA WITH PERISPOMENI..GREEK CAPITAL LETTER IOTA WITH OXIA
1FDD..1FDF    ; Expands_On_NFD # Sk   [3] GREEK DASIA AND VARIA..GREEK DASIA AND PERISPOMENI
1FE0..1FEC    ; Expands_On_NFD # L&  [13] GREEK SMALL LETTER UPSILON WITH VRACHY..GREEK CAPITAL LETTER RHO WITH DASIA
1FED..1FEE    ; Expands_On_NFD # Sk   [2] GREEK DIALYTIKA AND VARIA..GREEK DIALYTIKA AND OXIA
1FF2..1FF4    ; Expands_On_NFD # L&   [3] GREEK SMALL LETTER OMEGA WITH VARIA AND YPOGEGRAMMENI..GREEK SMALL LETTER OMEGA WITH OXIA AND YPOGEGRAMMENI
1FF6..1FFC    ; Expands_On_NFD # L&   [7] GREEK SMALL LETTER OMEGA WITH PERISPOMENI..GREEK CAPITAL LETTER OMEGA WITH PROSGEGRAMMENI
212B          ; Expands_On_NFD # L&       ANGSTROM SIGN
219A..219B    ; Expands_On_NFD # Sm   [2] LEFTWARDS ARROW WITH STROKE..RIGHTWARDS ARROW WITH STROKE
21AE          ; Expands_On_NFD # Sm       LEFT RIGHT ARROW WITH STROKE
21CD          ; Expands_On_NFD # So       LEFTWARDS DOUBLE ARROW WITH STROKE
21CE..21CF    ; Expands_On_NFD # Sm   [2] LEFT RIGHT DOUBLE ARROW WITH STROKE..RIGHTWARDS DOUBLE ARROW WITH STROKE
2204          ; Expands_On_NFD # Sm       THERE DOES NOT EXIST
2209          ; Expands_On_NFD # Sm       NOT AN ELEMENT OF
220C          ; Expands_On_NFD # Sm       DOES NOT CONTAIN AS MEMBER
2224          ; Expands_On_NFD # Sm       DOES NOT DIVIDE
2226          ; Expands_On_NFD # Sm       NOT PARALLEL TO
2241          ; Expands_On_NFD # Sm       NOT TILDE
2244          ; Expands_On_NFD # Sm       NOT ASYMPTOTICALLY EQUAL TO
"%string.
Definition props_text_115 := "2247          ; Expands_On_NFD # Sm       NEITHER APPROXIMATELY NOR ACTUALLY EQUAL TO
2249          ; Expands_On_NFD # Sm       NOT ALMOST EQUAL TO
2260          ; Expands_On_NFD # Sm       NOT EQUAL TO
2262          ; Expands_On_NFD # Sm       NOT IDENTICAL TO
226D..2271    ; Expands_On_NFD # Sm   [5] NOT EQUIVALENT TO..NEITHER GREATER-THAN NOR EQUAL TO
2274..2275    ; Expands_On_NFD # Sm   [2] NEITHER LESS-THAN NOR EQUIVALENT TO..NEITHER GREATER-THAN NOR EQUIVALENT TO
2278..2279    ; Expands_On_NFD # Sm   [2] NEITHER LESS-THAN NOR GREATER-THAN..NEITHER GREATER-THAN NOR LESS-THAN
2280..2281    ; Expands_On_NFD # Sm   [2] DOES NOT PRECEDE..DOES NOT SUCCEED
2284..2285    ; Expands_On_NFD # Sm   [2] NOT A SUBSET OF..NOT A SUPERSET OF
2288..2289    ; Expands_On_NFD # Sm   [2] NEITHER A SUBSET OF NOR EQUAL TO..NEITHER A SUPERSET OF NOR EQUAL TO
22AC..22AF    ; Expands_On_NFD # Sm   [4] DOES NOT PROVE..NEGATED DOUBLE VERTICAL BAR DOUBLE RIGHT TURNSTILE
22E0..22E3    ; Expands_On_NFD # Sm   [4] DOES NOT PRECEDE OR EQUAL..NOT SQUARE ORIGINAL OF OR EQUAL TO
22EA..22ED    ; Expands_On_NFD # Sm   [4] NOT NORMAL SUBGROUP OF..DOES NOT CONTAIN AS NORMAL SUBGROUP OR EQUAL
2ADC          ; Expands_On_NFD # Sm       FORKING
304C          ; Expands_On_NFD # Lo       HIRAGANA LETTER GA
304E          ; Expands_On_NFD # Lo       HIRAGANA LETTER GI
3050          ; Expands_On_NFD # Lo       HIRAGANA LETTER GU
3052          ; Expands_On_NFD # Lo       HIRAGANA LETTER GE
3054          ; Expands_On_NFD # Lo       HIRAGANA LETTER GO
3056          ; Expands_On_NFD # Lo       HIRAGANA LETTER ZA
"%string.
Definition props_text_116 := "3058          ; Expands_On_NFD # Lo       HIRAGANA LETTER ZI
305A          ; Expands_On_NFD # Lo       HIRAGANA LETTER ZU
305C          ; Expands_On_NFD # Lo       HIRAGANA LETTER ZE
305E          ; Expands_On_NFD # Lo       HIRAGANA LETTER ZO
3060          ; Expands_On_NFD # Lo       HIRAGANA LETTER DA
3062          ; Expands_On_NFD # Lo       HIRAGANA LETTER DI
3065          ; Expands_On_NFD # Lo       HIRAGANA LETTER DU
3067          ; Expands_On_NFD # Lo       HIRAGANA LETTER DE
3069          ; Expands_On_NFD # Lo       HIRAGANA LETTER DO
3070..3071    ; Expands_On_NFD # Lo   [2] HIRAGANA LETTER BA..HIRAGANA LETTER PA
3073..3074    ; Expands_On_NFD # Lo   [2] HIRAGANA LETTER BI..HIRAGANA LETTER PI
3076..3077    ; Expands_On_NFD # Lo   [2] HIRAGANA LETTER BU..HIRAGANA LETTER PU
3079..307A    ; Expands_On_NFD # Lo   [2] HIRAGANA LETTER BE..HIRAGANA LETTER PE
307C..307D    ; Expands_On_NFD # Lo   [2] HIRAGANA LETTER BO..HIRAGANA LETTER PO
3094          ; Expands_On_NFD # Lo       HIRAGANA LETTER VU
309E          ; Expands_On_NFD # Lm       HIRAGANA VOICED ITERATION MARK
30AC          ; Expands_On_NFD # Lo       KATAKANA LETTER GA
30AE          ; Expands_On_NFD # Lo       KATAKANA LETTER GI
30B0          ; Expands_On_NFD # Lo       KATAKANA LETTER GU
30B2          ; Expands_On_NFD # Lo       KATAKANA LETTER GE
"%string.
Definition props_text_117 := "30B4          ; Expands_On_NFD # Lo       KATAKANA LETTER GO
30B6          ; Expands_On_NFD # Lo       KATAKANA LETTER ZA
30B8          ; Expands_On_NFD # Lo       KATAKANA LETTER ZI
30BA          ; Expands_On_NFD # Lo       KATAKANA LETTER ZU
30BC          ; Expands_On_NFD # Lo       KATAKANA LETTER ZE
30BE          ; Expands_On_NFD # Lo       KATAKANA LETTER ZO
30C0          ; Expands_On_NFD # Lo       KATAKANA LETTER DA
30C2          ; Expands_On_NFD # Lo       KATAKANA LETTER DI
30C5          ; Expands_On_NFD # Lo       KATAKANA LETTER DU
30C7          ; Expands_On_NFD # Lo       KATAKANA LETTER DE
30C9          ; Expands_On_NFD # Lo       KATAKANA LETTER DO
30D0..30D1    ; Expands_On_NFD # Lo   [2] KATAKANA LETTER BA..KATAKANA LETTER PA
30D3..30D4    ; Expands_On_NFD # Lo   [2] KATAKANA LETTER BI..KATAKANA LETTER PI
30D6..30D7    ; Expands_On_NFD # Lo   [2] KATAKANA LETTER BU..KATAKANA LETTER PU
30D9..30DA    ; Expands_On_NFD # Lo   [2] KATAKANA LETTER BE..KATAKANA LETTER PE
30DC..30DD    ; Expands_On_NFD # Lo   [2] KATAKANA LETTER BO..KATAKANA LETTER PO
30F4          ; Expands_On_NFD # Lo       KATAKANA LETTER VU
30F7..30FA    ; Expands_On_NFD # Lo   [4] KATAKANA LETTER VA..KATAKANA LETTER VO
30FE          ; Expands_On_NFD # Lm       KATAKANA VOICED ITERATION MARK
AC00..D7A3    ; Expands_On_NFD # Lo [11172] HANGUL SYLLABLE GA..HANGUL SYLLABLE HIH
"%string.
Definition props_text_118 := "FB1D          ; Expands_On_NFD # Lo       HEBREW LETTER YOD WITH HIRIQ
FB1F          ; Expands_On_NFD # Lo       HEBREW LIGATURE YIDDISH YOD YOD PATAH
FB2A..FB36    ; Expands_On_NFD # Lo  [13] HEBREW LETTER SHIN WITH SHIN DOT..HEBREW LETTER ZAYIN WITH DAGESH
FB38..FB3C    ; Expands_On_NFD # Lo   [5] HEBREW LETTER TET WITH DAGESH..HEBREW LETTER LAMED WITH DAGESH
FB3E          ; Expands_On_NFD # Lo       HEBREW LETTER MEM WITH DAGESH
FB40..FB41    ; Expands_On_NFD # Lo   [2] HEBREW LETTER NUN WITH DAGESH..HEBREW LETTER SAMEKH WITH DAGESH
FB43..FB44    ; Expands_On_NFD # Lo   [2] HEBREW LETTER FINAL PE WITH DAGESH..HEBREW LETTER PE WITH DAGESH
FB46..FB4E    ; Expands_On_NFD # Lo   [9] HEBREW LETTER TSADI WITH DAGESH..HEBREW LETTER PE WITH RAFE
1109A         ; Expands_On_NFD # Lo       KAITHI LETTER DDDHA
1109C         ; Expands_On_NFD # Lo       KAITHI LETTER RHA
110AB         ; Expands_On_NFD # Lo       KAITHI LETTER VA
1112E..1112F  ; Expands_On_NFD # Mn   [2] CHAKMA VOWEL SIGN O..CHAKMA VOWEL SIGN AU
1134B..1134C  ; Expands_On_NFD # Mc   [2] GRANTHA VOWEL SIGN OO..GRANTHA VOWEL SIGN AU
114BB..114BC  ; Expands_On_NFD # Mc   [2] TIRHUTA VOWEL SIGN AI..TIRHUTA VOWEL SIGN O
114BE         ; Expands_On_NFD # Mc       TIRHUTA VOWEL SIGN AU
115BA..115BB  ; Expands_On_NFD # Mc   [2] SIDDHAM VOWEL SIGN O..SIDDHAM VOWEL SIGN AU
11938         ; Expands_On_NFD # Mc       DIVES AKURU VOWEL SIGN O
1D15E..1D164  ; Expands_On_NFD # So   [7] MUSICAL SYMBOL HALF NOTE..MUSICAL SYMBOL ONE HUNDRED TWENTY-EIGHTH NOTE
1D1BB..1D1C0  ; Expands_On_NFD # So   [6] MUSICAL SYMBOL MINIMA..MUSICAL SYMBOL FUSA BLACK

"%string.
Definition props_text_119 := "# Total code points: 12216

# ================================================

# Derived Property: Expands_On_NFC (DEPRECATED as of Unicode 6.0.0)
#   Generated according to UAX #15.
#   Characters whose normalized length is not one.
#   WARNING: Normalization of STRINGS must use the algorithm in UAX #15 because characters may interact.
#            The length of a normalized string is not necessarily the sum of the lengths of the normalized characters!

0344          ; Expands_On_NFC # Mn       COMBINING GREEK DIALYTIKA TONOS
0958..095F    ; Expands_On_NFC # Lo   [8] DEVANAGARI LETTER QA..DEVANAGARI LETTER YYA
09DC..09DD    ; Expands_On_NFC # Lo   [2] BENGALI LETTER RRA..BENGALI LETTER RHA
09DF          ; Expands_On_NFC # Lo       BENGALI LETTER YYA
0A33          ; Expands_On_NFC # Lo       GURMUKHI LETTER LLA
0A36          ; Expands_On_NFC # Lo       GURMUKHI LETTER SHA
0A59..0A5B    ; Expands_On_NFC # Lo   [3] GURMUKHI LETTER KHHA..GURMUKHI LETTER ZA
0A5E          ; Expands_On_NFC # Lo       GURMUKHI LETTER FA
0B5C..0B5D    ; Expands_On_NFC # Lo   [2] ORIYA LETTER RRA..ORIYA LETTER RHA
0F43          ; Expands_On_NFC # Lo       TIBETAN LETTER GHA
"%string.
Definition props_text_120 := "0F4D          ; Expands_On_NFC # Lo       TIBETAN LETTER DDHA
0F52          ; Expands_On_NFC # Lo       TIBETAN LETTER DHA
0F57          ; Expands_On_NFC # Lo       TIBETAN LETTER BHA
0F5C          ; Expands_On_NFC # Lo       TIBETAN LETTER DZHA
0F69          ; Expands_On_NFC # Lo       TIBETAN LETTER KSSA
0F73          ; Expands_On_NFC # Mn       TIBETAN VOWEL SIGN II
0F75..0F76    ; Expands_On_NFC # Mn   [2] TIBETAN VOWEL SIGN UU..TIBETAN VOWEL SIGN VOCALIC R
0F78          ; Expands_On_NFC # Mn       TIBETAN VOWEL SIGN VOCALIC L
0F81          ; Expands_On_NFC # Mn       TIBETAN VOWEL SIGN REVERSED II
0F93          ; Expands_On_NFC # Mn       TIBETAN SUBJOINED LETTER GHA
0F9D          ; Expands_On_NFC # Mn       TIBETAN SUBJOINED LETTER DDHA
0FA2          ; Expands_On_NFC # Mn       TIBETAN SUBJOINED LETTER DHA
0FA7          ; Expands_On_NFC # Mn       TIBETAN SUBJOINED LETTER BHA
0FAC          ; Expands_On_NFC # Mn       TIBETAN SUBJOINED LETTER DZHA
0FB9          ; Expands_On_NFC # Mn       TIBETAN SUBJOINED LETTER KSSA
2ADC          ; Expands_On_NFC # Sm       FORKING
FB1D          ; Expands_On_NFC # Lo       HEBREW LETTER YOD WITH HIRIQ
FB1F          ; Expands_On_NFC # Lo       HEBREW LIGATURE YIDDISH YOD YOD PATAH
FB2A..FB36    ; Expands_On_NFC # Lo  [13] HEBREW LETTER SHIN WITH SHIN DOT..HEBREW LETTER ZAYIN WITH DAGESH
FB38..FB3C    ; Expands_On_NFC # Lo   [5] HEBREW LETTER TET WITH DAGESH..HEBREW LETTER LAMED WITH DAGESH
"%string.
Definition props_text_121 := "FB3E          ; Expands_On_NFC # Lo       HEBREW LETTER MEM WITH DAGESH
FB40..FB41    ; Expands_On_NFC # Lo   [2] HEBREW LETTER NUN WITH DAGESH..HEBREW LETTER SAMEKH WITH DAGESH
FB43..FB44    ; Expands_On_NFC # Lo   [2] HEBREW LETTER FINAL PE WITH DAGESH..HEBREW LETTER PE WITH DAGESH
FB46..FB4E    ; Expands_On_NFC # Lo   [9] HEBREW LETTER TSADI WITH DAGESH..HEBREW LETTER PE WITH RAFE
1D15E..1D164  ; Expands_On_NFC # So   [7] MUSICAL SYMBOL HALF NOTE..MUSICAL SYMBOL ONE HUNDRED TWENTY-EIGHTH NOTE
1D1BB..1D1C0  ; Expands_On_NFC # So   [6] MUSICAL SYMBOL MINIMA..MUSICAL SYMBOL FUSA BLACK

# Total code points: 85

# ================================================

# Derived Property: Expands_On_NFKD (DEPRECATED as of Unicode 6.0.0)
#   Generated according to UAX #15.
#   Characters whose normalized length is not one.
#   WARNING: Normalization of STRINGS must use the algorithm in UAX #15 because characters may interact.
#            The length of a normalized string is not necessarily the sum of the lengths of the normalized characters!

00A8          ; Expands_On_NFKD # Sk       DIAERESIS
00AF          ; Expands_On_NFKD # Sk       MACRON
00B4          ; Expands_On_NFKD # Sk       ACUTE ACCENT
"%string.
Definition props_text_122 := "00B8          ; Expands_On_NFKD # Sk       CEDILLA
00BC..00BE    ; Expands_On_NFKD # No   [3] VULGAR FRACTION ONE QUARTER..VULGAR FRACTION THREE QUARTERS
00C0..00C5    ; Expands_On_NFKD # L&   [6] LATIN CAPITAL LETTER A WITH GRAVE..LATIN CAPITAL LETTER A WITH RING ABOVE
00C7..00CF    ; Expands_On_NFKD # L&   [9] LATIN CAPITAL LETTER C WITH CEDILLA..LATIN CAPITAL LETTER I WITH DIAERESIS
00D1..00D6    ; Expands_On_NFKD # L&   [6] LATIN CAPITAL LETTER N WITH TILDE..LATIN CAPITAL LETTER O WITH DIAERESIS
00D9..00DD    ; Expands_On_NFKD # L&   [5] LATIN CAPITAL LETTER U WITH GRAVE..LATIN CAPITAL LETTER Y WITH ACUTE
00E0..00E5    ; Expands_On_NFKD # L&   [6] LATIN SMALL LETTER A WITH GRAVE..LATIN SMALL LETTER A WITH RING ABOVE
00E7..00EF    ; Expands_On_NFKD # L&   [9] LATIN SMALL LETTER C WITH CEDILLA..LATIN SMALL LETTER I WITH DIAERESIS
00F1..00F6    ; Expands_On_NFKD # L&   [6] LATIN SMALL LETTER N WITH TILDE..LATIN SMALL LETTER O WITH DIAERESIS
00F9..00FD    ; Expands_On_NFKD # L&   [5] LATIN SMALL LETTER U WITH GRAVE..LATIN SMALL LETTER Y WITH ACUTE
00FF..010F    ; Expands_On_NFKD # L&  [17] LATIN SMALL LETTER Y WITH DIAERESIS..LATIN SMALL LETTER D WITH CARON
0112..0125    ; Expands_On_NFKD # L&  [20] LATIN CAPITAL LETTER E WITH MACRON..LATIN SMALL LETTER H WITH CIRCUMFLEX
0128..0130    ; Expands_On_NFKD # L&   [9] LATIN CAPITAL LETTER I WITH TILDE..LATIN CAPITAL LETTER I WITH DOT ABOVE
0132..0137    ; Expands_On_NFKD # L&   [6] LATIN CAPITAL LIGATURE IJ..LATIN SMALL LETTER K WITH CEDILLA
0139..0140    ; Expands_On_NFKD # L&   [8] LATIN CAPITAL LETTER L WITH ACUTE..LATIN SMALL LETTER L WITH MIDDLE DOT
0143..0149    ; Expands_On_NFKD # L&   [7] LATIN CAPITAL LETTER N WITH ACUTE..LATIN SMALL LETTER N PRECEDED BY APOSTROPHE
014C..0151    ; Expands_On_NFKD # L&   [6] LATIN CAPITAL LETTER O WITH MACRON..LATIN SMALL LETTER O WITH DOUBLE ACUTE
0154..0165    ; Expands_On_NFKD # L&  [18] LATIN CAPITAL LETTER R WITH ACUTE..LATIN SMALL LETTER T WITH CARON
0168..017E    ; Expands_On_NFKD # L&  [23] LATIN CAPITAL LETTER U WITH TILDE..LATIN SMALL LETTER Z WITH CARON
01A0..01A1    ; Expands_On_NFKD # L&   [2] LATIN CAPITAL LETTER O WITH HORN..LATIN SMALL LETTER O WITH HORN
"%string.
Definition props_text_123 := "01AF..01B0    ; Expands_On_NFKD # L&   [2] LATIN CAPITAL LETTER U WITH HORN..LATIN SMALL LETTER U WITH HORN
01C4..01DC    ; Expands_On_NFKD # L&  [25] LATIN CAPITAL LETTER DZ WITH CARON..LATIN SMALL LETTER U WITH DIAERESIS AND GRAVE
01DE..01E3    ; Expands_On_NFKD # L&   [6] LATIN CAPITAL LETTER A WITH DIAERESIS AND MACRON..LATIN SMALL LETTER AE WITH MACRON
01E6..01F5    ; Expands_On_NFKD # L&  [16] LATIN CAPITAL LETTER G WITH CARON..LATIN SMALL LETTER G WITH ACUTE
01F8..021B    ; Expands_On_NFKD # L&  [36] LATIN CAPITAL LETTER N WITH GRAVE..LATIN SMALL LETTER T WITH COMMA BELOW
021E..021F    ; Expands_On_NFKD # L&   [2] LATIN CAPITAL LETTER H WITH CARON..LATIN SMALL LETTER H WITH CARON
0226..0233    ; Expands_On_NFKD # L&  [14] LATIN CAPITAL LETTER A WITH DOT ABOVE..LATIN SMALL LETTER Y WITH MACRON
02D8..02DD    ; Expands_On_NFKD # Sk   [6] BREVE..DOUBLE ACUTE ACCENT
0344          ; Expands_On_NFKD # Mn       COMBINING GREEK DIALYTIKA TONOS
037A          ; Expands_On_NFKD # Lm       GREEK YPOGEGRAMMENI
0384..0385    ; Expands_On_NFKD # Sk   [2] GREEK TONOS..GREEK DIALYTIKA TONOS
0386          ; Expands_On_NFKD # L&       GREEK CAPITAL LETTER ALPHA WITH TONOS
0388..038A    ; Expands_On_NFKD # L&   [3] GREEK CAPITAL LETTER EPSILON WITH TONOS..GREEK CAPITAL LETTER IOTA WITH TONOS
038C          ; Expands_On_NFKD # L&       GREEK CAPITAL LETTER OMICRON WITH TONOS
038E..0390    ; Expands_On_NFKD # L&   [3] GREEK CAPITAL LETTER UPSILON WITH TONOS..GREEK SMALL LETTER IOTA WITH DIALYTIKA AND TONOS
03AA..03B0    ; Expands_On_NFKD # L&   [7] GREEK CAPITAL LETTER IOTA WITH DIALYTIKA..GREEK SMALL LETTER UPSILON WITH DIALYTIKA AND TONOS
03CA..03CE    ; Expands_On_NFKD # L&   [5] GREEK SMALL LETTER IOTA WITH DIALYTIKA..GREEK SMALL LETTER OMEGA WITH TONOS
03D3..03D4    ; Expands_On_NFKD # L&   [2] GREEK UPSILON WITH ACUTE AND HOOK SYMBOL..GREEK UPSILON WITH DIAERESIS AND HOOK SYMBOL
0400..0401    ; Expands_On_NFKD # L&   [2] CYRILLIC CAPITAL LETTER IE WITH GRAVE..CYRILLIC CAPITAL LETTER IO
0403          ; Expands_On_NFKD # L&       CYRILLIC CAPITAL LETTER GJE
"%string.
Definition props_text_124 := "0407          ; Expands_On_NFKD # L&       CYRILLIC CAPITAL LETTER YI
040C..040E    ; Expands_On_NFKD # L&   [3] CYRILLIC CAPITAL LETTER KJE..CYRILLIC CAPITAL LETTER SHORT U
0419          ; Expands_On_NFKD # L&       CYRILLIC CAPITAL LETTER SHORT I
0439          ; Expands_On_NFKD # L&       CYRILLIC SMALL LETTER SHORT I
0450..0451    ; Expands_On_NFKD # L&   [2] CYRILLIC SMALL LETTER IE WITH GRAVE..CYRILLIC SMALL LETTER IO
0453          ; Expands_On_NFKD # L&       CYRILLIC SMALL LETTER GJE
0457          ; Expands_On_NFKD # L&       CYRILLIC SMALL LETTER YI
045C..045E    ; Expands_On_NFKD # L&   [3] CYRILLIC SMALL LETTER KJE..CYRILLIC SMALL LETTER SHORT U
0476..0477    ; Expands_On_NFKD # L&   [2] CYRILLIC CAPITAL LETTER IZHITSA WITH DOUBLE GRAVE ACCENT..CYRILLIC SMALL LETTER IZHITSA WITH DOUBLE GRAVE ACCENT
04C1..04C2    ; Expands_On_NFKD # L&   [2] CYRILLIC CAPITAL LETTER ZHE WITH BREVE..CYRILLIC SMALL LETTER ZHE WITH BREVE
04D0..04D3    ; Expands_On_NFKD # L&   [4] CYRILLIC CAPITAL LETTER A WITH BREVE..CYRILLIC SMALL LETTER A WITH DIAERESIS
04D6..04D7    ; Expands_On_NFKD # L&   [2] CYRILLIC CAPITAL LETTER IE WITH BREVE..CYRILLIC SMALL LETTER IE WITH BREVE
04DA..04DF    ; Expands_On_NFKD # L&   [6] CYRILLIC CAPITAL LETTER SCHWA WITH DIAERESIS..CYRILLIC SMALL LETTER ZE WITH DIAERESIS
04E2..04E7    ; Expands_On_NFKD # L&   [6] CYRILLIC CAPITAL LETTER I WITH MACRON..CYRILLIC SMALL LETTER O WITH DIAERESIS
04EA..04F5    ; Expands_On_NFKD # L&  [12] CYRILLIC CAPITAL LETTER BARRED O WITH DIAERESIS..CYRILLIC SMALL LETTER CHE WITH DIAERESIS
04F8..04F9    ; Expands_On_NFKD # L&   [2] CYRILLIC CAPITAL LETTER YERU WITH DIAERESIS..CYRILLIC SMALL LETTER YERU WITH DIAERESIS
0587          ; Expands_On_NFKD # L&       ARMENIAN SMALL LIGATURE ECH YIWN
0622..0626    ; Expands_On_NFKD # Lo   [5] ARABIC LETTER ALEF WITH MADDA ABOVE..ARABIC LETTER YEH WITH HAMZA ABOVE
0675..0678    ; Expands_On_NFKD # Lo   [4] ARABIC LETTER HIGH HAMZA ALEF..ARABIC LETTER HIGH HAMZA YEH
06C0          ; Expands_On_NFKD # Lo       ARABIC LETTER HEH WITH YEH ABOVE
"%string.
Definition props_text_125 := "06C2          ; Expands_On_NFKD # Lo       ARABIC LETTER HEH GOAL WITH HAMZA ABOVE
06D3          ; Expands_On_NFKD # Lo       ARABIC LETTER YEH BARREE WITH HAMZA ABOVE
0929          ; Expands_On_NFKD # Lo       DEVANAGARI LETTER NNNA
0931          ; Expands_On_NFKD # Lo       DEVANAGARI LETTER RRA
0934          ; Expands_On_NFKD # Lo       DEVANAGARI LETTER LLLA
0958..095F    ; Expands_On_NFKD # Lo   [8] DEVANAGARI LETTER QA..DEVANAGARI LETTER YYA
09CB..09CC    ; Expands_On_NFKD # Mc   [2] BENGALI VOWEL SIGN O..BENGALI VOWEL SIGN AU
09DC..09DD    ; Expands_On_NFKD # Lo   [2] BENGALI LETTER RRA..BENGALI LETTER RHA
09DF          ; Expands_On_NFKD # Lo       BENGALI LETTER YYA
0A33          ; Expands_On_NFKD # Lo       GURMUKHI LETTER LLA
0A36          ; Expands_On_NFKD # Lo       GURMUKHI LETTER SHA
0A59..0A5B    ; Expands_On_NFKD # Lo   [3] GURMUKHI LETTER KHHA..GURMUKHI LETTER ZA
0A5E          ; Expands_On_NFKD # Lo       GURMUKHI LETTER FA
0B48          ; Expands_On_NFKD # Mc       ORIYA VOWEL SIGN AI
0B4B..0B4C    ; Expands_On_NFKD # Mc   [2] ORIYA VOWEL SIGN O..ORIYA VOWEL SIGN AU
0B5C..0B5D    ; Expands_On_NFKD # Lo   [2] ORIYA LETTER RRA..ORIYA LETTER RHA
0B94          ; Expands_On_NFKD # Lo       TAMIL LETTER AU
0BCA..0BCC    ; Expands_On_NFKD # Mc   [3] TAMIL VOWEL SIGN O..TAMIL VOWEL SIGN AU
0C48          ; Expands_On_NFKD # Mn       TELUGU VOWEL SIGN AI
0CC0          ; Expands_On_NFKD # Mc       KANNADA VOWEL SIGN II
"%string.
Definition props_text_126 := "0CC7..0CC8    ; Expands_On_NFKD # Mc   [2] KANNADA VOWEL SIGN EE..KANNADA VOWEL SIGN AI
0CCA..0CCB    ; Expands_On_NFKD # Mc   [2] KANNADA VOWEL SIGN O..KANNADA VOWEL SIGN OO
0D4A..0D4C    ; Expands_On_NFKD # Mc   [3] MALAYALAM VOWEL SIGN O..MALAYALAM VOWEL SIGN AU
0DDA          ; Expands_On_NFKD # Mc       SINHALA VOWEL SIGN DIGA KOMBUVA
0DDC..0DDE    ; Expands_On_NFKD # Mc   [3] SINHALA VOWEL SIGN KOMBUVA HAA AELA-PILLA..SINHALA VOWEL SIGN KOMBUVA HAA GAYANUKITTA
0E33          ; Expands_On_NFKD # Lo       THAI CHARACTER SARA AM
0EB3          ; Expands_On_NFKD # Lo       LAO VOWEL SIGN AM
0EDC..0EDD    ; Expands_On_NFKD # Lo   [2] LAO HO NO..LAO HO MO
0F43          ; Expands_On_NFKD # Lo       TIBETAN LETTER GHA
0F4D          ; Expands_On_NFKD # Lo       TIBETAN LETTER DDHA
0F52          ; Expands_On_NFKD # Lo       TIBETAN LETTER DHA
0F57          ; Expands_On_NFKD # Lo       TIBETAN LETTER BHA
0F5C          ; Expands_On_NFKD # Lo       TIBETAN LETTER DZHA
0F69          ; Expands_On_NFKD # Lo       TIBETAN LETTER KSSA
0F73          ; Expands_On_NFKD # Mn       TIBETAN VOWEL SIGN II
0F75..0F79    ; Expands_On_NFKD # Mn   [5] TIBETAN VOWEL SIGN UU..TIBETAN VOWEL SIGN VOCALIC LL
0F81          ; Expands_On_NFKD # Mn       TIBETAN VOWEL SIGN REVERSED II
0F93          ; Expands_On_NFKD # Mn       TIBETAN SUBJOINED LETTER GHA
0F9D          ; Expands_On_NFKD # Mn       TIBETAN SUBJOINED LETTER DDHA
0FA2          ; Expands_On_NFKD # Mn       TIBETAN SUBJOINED LETTER DHA
"%string.
Definition props_text_127 := "0FA7          ; Expands_On_NFKD # Mn       TIBETAN SUBJOINED LETTER BHA
0FAC          ; Expands_On_NFKD # Mn       TIBETAN SUBJOINED LETTER DZHA
0FB9          ; Expands_On_NFKD # Mn       TIBETAN SUBJOINED LETTER KSSA
1026          ; Expands_On_NFKD # Lo       MYANMAR LETTER UU
1B06          ; Expands_On_NFKD # Lo       BALINESE LETTER AKARA TEDUNG
1B08          ; Expands_On_NFKD # Lo       BALINESE LETTER IKARA TEDUNG
1B0A          ; Expands_On_NFKD # Lo       BALINESE LETTER UKARA TEDUNG
1B0C          ; Expands_On_NFKD # Lo       BALINESE LETTER RA REPA TEDUNG
1B0E          ; Expands_On_NFKD # Lo       BALINESE LETTER LA LENGA TEDUNG
1B12          ; Expands_On_NFKD # Lo       BALINESE LETTER OKARA TEDUNG
1B3B          ; Expands_On_NFKD # Mc       BALINESE VOWEL SIGN RA REPA TEDUNG
1B3D          ; Expands_On_NFKD # Mc       BALINESE VOWEL SIGN LA LENGA TEDUNG
1B40..1B41    ; Expands_On_NFKD # Mc   [2] BALINESE VOWEL SIGN TALING TEDUNG..BALINESE VOWEL SIGN TALING REPA TEDUNG
1B43          ; Expands_On_NFKD # Mc       BALINESE VOWEL SIGN PEPET TEDUNG
1E00..1E9B    ; Expands_On_NFKD # L& [156] LATIN CAPITAL LETTER A WITH RING BELOW..LATIN SMALL LETTER LONG S WITH DOT ABOVE
1EA0..1EF9    ; Expands_On_NFKD # L&  [90] LATIN CAPITAL LETTER A WITH DOT BELOW..LATIN SMALL LETTER Y WITH TILDE
1F00..1F15    ; Expands_On_NFKD # L&  [22] GREEK SMALL LETTER ALPHA WITH PSILI..GREEK SMALL LETTER EPSILON WITH DASIA AND OXIA
1F18..1F1D    ; Expands_On_NFKD # L&   [6] GREEK CAPITAL LETTER EPSILON WITH PSILI..GREEK CAPITAL LETTER EPSILON WITH DASIA AND OXIA
1F20..1F45    ; Expands_On_NFKD # L&  [38] GREEK SMALL LETTER ETA WITH PSILI..GREEK SMALL LETTER OMICRON WITH DASIA AND OXIA
1F48..1F4D    ; Expands_On_NFKD # L&   [6] GREEK CAPITAL LETTER OMICRON WITH PSILI..GREEK CAPITAL LETTER OMICRON WITH DASIA AND OXIA
"%string.
Definition props_text_128 := "1F50..1F57    ; Expands_On_NFKD # L&   [8] GREEK SMALL LETTER UPSILON WITH PSILI..GREEK SMALL LETTER UPSILON WITH DASIA AND PERISPOMENI
1F59          ; Expands_On_NFKD # L&       GREEK CAPITAL LETTER UPSILON WITH DASIA
1F5B          ; Expands_On_NFKD # L&       GREEK CAPITAL LETTER UPSILON WITH DASIA AND VARIA
1F5D          ; Expands_On_NFKD # L&       GREEK CAPITAL LETTER UPSILON WITH DASIA AND OXIA
1F5F..1F7D    ; Expands_On_NFKD # L&  [31] GREEK CAPITAL LETTER UPSILON WITH DASIA AND PERISPOMENI..GREEK SMALL LETTER OMEGA WITH OXIA
1F80..1FB4    ; Expands_On_NFKD # L&  [53] GREEK SMALL LETTER ALPHA WITH PSILI AND YPOGEGRAMMENI..GREEK SMALL LETTER ALPHA WITH OXIA AND YPOGEGRAMMENI
1FB6..1FBC    ; Expands_On_NFKD # L&   [7] GREEK SMALL LETTER ALPHA WITH PERISPOMENI..GREEK CAPITAL LETTER ALPHA WITH PROSGEGRAMMENI
1FBD          ; Expands_On_NFKD # Sk       GREEK KORONIS
1FBF..1FC1    ; Expands_On_NFKD # Sk   [3] GREEK PSILI..GREEK DIALYTIKA AND PERISPOMENI
1FC2..1FC4    ; Expands_On_NFKD # L&   [3] GREEK SMALL LETTER ETA WITH VARIA AND YPOGEGRAMMENI..GREEK SMALL LETTER ETA WITH OXIA AND YPOGEGRAMMENI
1FC6..1FCC    ; Expands_On_NFKD # L&   [7] GREEK SMALL LETTER ETA WITH PERISPOMENI..GREEK CAPITAL LETTER ETA WITH PROSGEGRAMMENI
1FCD..1FCF    ; Expands_On_NFKD # Sk   [3] GREEK PSILI AND VARIA..GREEK PSILI AND PERISPOMENI
1FD0..1FD3    ; Expands_On_NFKD # L&   [4] GREEK SMALL LETTER IOTA WITH VRACHY..GREEK SMALL LETTER IOTA WITH DIALYTIKA AND OXIA
1FD6..1FDB    ; Expands_On_NFKD # L&   [6] GREEK SMALL LETTER IOTA WITH PERISPOMENI..GREEK CAPITAL LETTER IOTA WITH OXIA
1FDD..1FDF    ; Expands_On_NFKD # Sk   [3] GREEK DASIA AND VARIA..GREEK DASIA AND PERISPOMENI
1FE0..1FEC    ; Expands_On_NFKD # L&  [13] GREEK SMALL LETTER UPSILON WITH VRACHY..GREEK CAPITAL LETTER RHO WITH DASIA
1FED..1FEE    ; Expands_On_NFKD # Sk   [2] GREEK DIALYTIKA AND VARIA..GREEK DIALYTIKA AND OXIA
1FF2..1FF4    ; Expands_On_NFKD # L&   [3] GREEK SMALL LETTER OMEGA WITH VARIA AND YPOGEGRAMMENI..GREEK SMALL LETTER OMEGA WITH OXIA AND YPOGEGRAMMENI
1FF6..1FFC    ; Expands_On_NFKD # L&   [7] GREEK SMALL LETTER OMEGA WITH PERISPOMENI..GREEK CAPITAL LETTER OMEGA WITH PROSGEGRAMMENI
1FFD..1FFE    ; Expands_On_NFKD # Sk   [2] GREEK OXIA..GREEK DASIA
"%string.
Definition props_text_129 := "2017          ; Expands_On_NFKD # Po       DOUBLE LOW LINE
2025..2026    ; Expands_On_NFKD # Po   [2] TWO DOT LEADER..HORIZONTAL ELLIPSIS
2033..2034    ; Expands_On_NFKD # Po   [2] DOUBLE PRIME..TRIPLE PRIME
2036..2037    ; Expands_On_NFKD # Po   [2] REVERSED DOUBLE PRIME..REVERSED TRIPLE PRIME
203C          ; Expands_On_NFKD # Po       DOUBLE EXCLAMATION MARK
203E          ; Expands_On_NFKD # Po       OVERLINE
2047..2049    ; Expands_On_NFKD # Po   [3] DOUBLE QUESTION MARK..EXCLAMATION QUESTION MARK
2057          ; Expands_On_NFKD # Po       QUADRUPLE PRIME
20A8          ; Expands_On_NFKD # Sc       RUPEE SIGN
2100..2101    ; Expands_On_NFKD # So   [2] ACCOUNT OF..ADDRESSED TO THE SUBJECT
2103          ; Expands_On_NFKD # So       DEGREE CELSIUS
2105..2106    ; Expands_On_NFKD # So   [2] CARE OF..CADA UNA
2109          ; Expands_On_NFKD # So       DEGREE FAHRENHEIT
2116          ; Expands_On_NFKD # So       NUMERO SIGN
2120..2122    ; Expands_On_NFKD # So   [3] SERVICE MARK..TRADE MARK SIGN
212B          ; Expands_On_NFKD # L&       ANGSTROM SIGN
213B          ; Expands_On_NFKD # So       FACSIMILE SIGN
2150..215F    ; Expands_On_NFKD # No  [16] VULGAR FRACTION ONE SEVENTH..FRACTION NUMERATOR ONE
2161..2163    ; Expands_On_NFKD # Nl   [3] ROMAN NUMERAL TWO..ROMAN NUMERAL FOUR
2165..2168    ; Expands_On_NFKD # Nl   [4] ROMAN NUMERAL SIX..ROMAN NUMERAL NINE
"%string.
Definition props_text_130 := "216A..216B    ; Expands_On_NFKD # Nl   [2] ROMAN NUMERAL ELEVEN..ROMAN NUMERAL TWELVE
2171..2173    ; Expands_On_NFKD # Nl   [3] SMALL ROMAN NUMERAL TWO..SMALL ROMAN NUMERAL FOUR
2175..2178    ; Expands_On_NFKD # Nl   [4] SMALL ROMAN NUMERAL SIX..SMALL ROMAN NUMERAL NINE
217A..217B    ; Expands_On_NFKD # Nl   [2] SMALL ROMAN NUMERAL ELEVEN..SMALL ROMAN NUMERAL TWELVE
2189          ; Expands_On_NFKD # No       VULGAR FRACTION ZERO THIRDS
219A..219B    ; Expands_On_NFKD # Sm   [2] LEFTWARDS ARROW WITH STROKE..RIGHTWARDS ARROW WITH STROKE
21AE          ; Expands_On_NFKD # Sm       LEFT RIGHT ARROW WITH STROKE
21CD          ; Expands_On_NFKD # So       LEFTWARDS DOUBLE ARROW WITH STROKE
21CE..21CF    ; Expands_On_NFKD # Sm   [2] LEFT RIGHT DOUBLE ARROW WITH STROKE..RIGHTWARDS DOUBLE ARROW WITH STROKE
2204          ; Expands_On_NFKD # Sm       THERE DOES NOT EXIST
2209          ; Expands_On_NFKD # Sm       NOT AN ELEMENT OF
220C          ; Expands_On_NFKD # Sm       DOES NOT CONTAIN AS MEMBER
2224          ; Expands_On_NFKD # Sm       DOES NOT DIVIDE
2226          ; Expands_On_NFKD # Sm       NOT PARALLEL TO
222C..222D    ; Expands_On_NFKD # Sm   [2] DOUBLE INTEGRAL..TRIPLE INTEGRAL
222F..2230    ; Expands_On_NFKD # Sm   [2] SURFACE INTEGRAL..VOLUME INTEGRAL
2241          ; Expands_On_NFKD # Sm       NOT TILDE
2244          ; Expands_On_NFKD # Sm       NOT ASYMPTOTICALLY EQUAL TO
2247          ; Expands_On_NFKD # Sm       NEITHER APPROXIMATELY NOR ACTUALLY EQUAL TO
2249          ; Expands_On_NFKD # Sm       NOT ALMOST EQUAL TO
"%string.
Definition props_text_131 := "2260          ; Expands_On_NFKD # Sm       NOT EQUAL TO
2262          ; Expands_On_NFKD # Sm       NOT IDENTICAL TO
226D..2271    ; Expands_On_NFKD # Sm   [5] NOT EQUIVALENT TO..NEITHER GREATER-THAN NOR EQUAL TO
2274..2275    ; Expands_On_NFKD # Sm   [2] NEITHER LESS-THAN NOR EQUIVALENT TO..NEITHER GREATER-THAN NOR EQUIVALENT TO
2278..2279    ; Expands_On_NFKD # Sm   [2] NEITHER LESS-THAN NOR GREATER-THAN..NEITHER GREATER-THAN NOR LESS-THAN
2280..2281    ; Expands_On_NFKD # Sm   [2] DOES NOT PRECEDE..DOES NOT SUCCEED
2284..2285    ; Expands_On_NFKD # Sm   [2] NOT A SUBSET OF..NOT A SUPERSET OF
2288..2289    ; Expands_On_NFKD # Sm   [2] NEITHER A SUBSET OF NOR EQUAL TO..NEITHER A SUPERSET OF NOR EQUAL TO
22AC..22AF    ; Expands_On_NFKD # Sm   [4] DOES NOT PROVE..NEGATED DOUBLE VERTICAL BAR DOUBLE RIGHT TURNSTILE
22E0..22E3    ; Expands_On_NFKD # Sm   [4] DOES NOT PRECEDE OR EQUAL..NOT SQUARE ORIGINAL OF OR EQUAL TO
22EA..22ED    ; Expands_On_NFKD # Sm   [4] NOT NORMAL SUBGROUP OF..DOES NOT CONTAIN AS NORMAL SUBGROUP OR EQUAL
2469..249B    ; Expands_On_NFKD # No  [51] CIRCLED NUMBER TEN..NUMBER TWENTY FULL STOP
249C..24B5    ; Expands_On_NFKD # So  [26] PARENTHESIZED LATIN SMALL LETTER A..PARENTHESIZED LATIN SMALL LETTER Z
2A0C          ; Expands_On_NFKD # Sm       QUADRUPLE INTEGRAL OPERATOR
2A74..2A76    ; Expands_On_NFKD # Sm   [3] DOUBLE COLON EQUAL..THREE CONSECUTIVE EQUALS SIGNS
2ADC          ; Expands_On_NFKD # Sm       FORKING
304C          ; Expands_On_NFKD # Lo       HIRAGANA LETTER GA
304E          ; Expands_On_NFKD # Lo       HIRAGANA LETTER GI
3050          ; Expands_On_NFKD # Lo       HIRAGANA LETTER GU
3052          ; Expands_On_NFKD # Lo       HIRAGANA LETTER GE
"%string.
Definition props_text_132 := "3054          ; Expands_On_NFKD # Lo       HIRAGANA LETTER GO
3056          ; Expands_On_NFKD # Lo       HIRAGANA LETTER ZA
3058          ; Expands_On_NFKD # Lo       HIRAGANA LETTER ZI
305A          ; Expands_On_NFKD # Lo       HIRAGANA LETTER ZU
305C          ; Expands_On_NFKD # Lo       HIRAGANA LETTER ZE
305E          ; Expands_On_NFKD # Lo       HIRAGANA LETTER ZO
3060          ; Expands_On_NFKD # Lo       HIRAGANA LETTER DA
3062          ; Expands_On_NFKD # Lo       HIRAGANA LETTER DI
3065          ; Expands_On_NFKD # Lo       HIRAGANA LETTER DU
3067          ; Expands_On_NFKD # Lo       HIRAGANA LETTER DE
3069          ; Expands_On_NFKD # Lo       HIRAGANA LETTER DO
3070..3071    ; Expands_On_NFKD # Lo   [2] HIRAGANA LETTER BA..HIRAGANA LETTER PA
3073..3074    ; Expands_On_NFKD # Lo   [2] HIRAGANA LETTER BI..HIRAGANA LETTER PI
3076..3077    ; Expands_On_NFKD # Lo   [2] HIRAGANA LETTER BU..HIRAGANA LETTER PU
3079..307A    ; Expands_On_NFKD # Lo   [2] HIRAGANA LETTER BE..HIRAGANA LETTER PE
307C..307D    ; Expands_On_NFKD # Lo   [2] HIRAGANA LETTER BO..HIRAGANA LETTER PO
3094          ; Expands_On_NFKD # Lo       HIRAGANA LETTER VU
309B..309C    ; Expands_On_NFKD # Sk   [2] KATAKANA-HIRAGANA VOICED SOUND MARK..KATAKANA-HIRAGANA SEMI-VOICED SOUND MARK
309E          ; Expands_On_NFKD # Lm       HIRAGANA VOICED ITERATION MARK
309F          ; Expands_On_NFKD # Lo       HIRAGANA DIGRAPH YORI
"%string.
Definition props_text_133 := "30AC          ; Expands_On_NFKD # Lo       KATAKANA LETTER GA
30AE          ; Expands_On_NFKD # Lo       KATAKANA LETTER GI
30B0          ; Expands_On_NFKD # Lo       KATAKANA LETTER GU
30B2          ; Expands_On_NFKD # Lo       KATAKANA LETTER GE
30B4          ; Expands_On_NFKD # Lo       KATAKANA LETTER GO
30B6          ; Expands_On_NFKD # Lo       KATAKANA LETTER ZA
30B8          ; Expands_On_NFKD # Lo       KATAKANA LETTER ZI
30BA          ; Expands_On_NFKD # Lo       KATAKANA LETTER ZU
30BC          ; Expands_On_NFKD # Lo       KATAKANA LETTER ZE
30BE          ; Expands_On_NFKD # Lo       KATAKANA LETTER ZO
30C0          ; Expands_On_NFKD # Lo       KATAKANA LETTER DA
30C2          ; Expands_On_NFKD # Lo       KATAKANA LETTER DI
30C5          ; Expands_On_NFKD # Lo       KATAKANA LETTER DU
30C7          ; Expands_On_NFKD # Lo       KATAKANA LETTER DE
30C9          ; Expands_On_NFKD # Lo       KATAKANA LETTER DO
30D0..30D1    ; Expands_On_NFKD # Lo   [2] KATAKANA LETTER BA..KATAKANA LETTER PA
30D3..30D4    ; Expands_On_NFKD # Lo   [2] KATAKANA LETTER BI..KATAKANA LETTER PI
30D6..30D7    ; Expands_On_NFKD # Lo   [2] KATAKANA LETTER BU..KATAKANA LETTER PU
30D9..30DA    ; Expands_On_NFKD # Lo   [2] KATAKANA LETTER BE..KATAKANA LETTER PE
30DC..30DD    ; Expands_On_NFKD # Lo   [2] KATAKANA LETTER BO..KATAKANA LETTER PO
"%string.
Definition props_text_134 := "30F4          ; Expands_On_NFKD # Lo       KATAKANA LETTER VU
30F7..30FA    ; Expands_On_NFKD # Lo   [4] KATAKANA LETTER VA..KATAKANA LETTER VO
30FE          ; Expands_On_NFKD # Lm       KATAKANA VOICED ITERATION MARK
30FF          ; Expands_On_NFKD # Lo       KATAKANA DIGRAPH KOTO
3200..321E    ; Expands_On_NFKD # So  [31] PARENTHESIZED HANGUL KIYEOK..PARENTHESIZED KOREAN CHARACTER O HU
3220..3229    ; Expands_On_NFKD # No  [10] PARENTHESIZED IDEOGRAPH ONE..PARENTHESIZED IDEOGRAPH TEN
322A..3243    ; Expands_On_NFKD # So  [26] PARENTHESIZED IDEOGRAPH MOON..PARENTHESIZED IDEOGRAPH REACH
3250          ; Expands_On_NFKD # So       PARTNERSHIP SIGN
3251..325F    ; Expands_On_NFKD # No  [15] CIRCLED NUMBER TWENTY ONE..CIRCLED NUMBER THIRTY FIVE
326E..327E    ; Expands_On_NFKD # So  [17] CIRCLED HANGUL KIYEOK A..CIRCLED HANGUL IEUNG U
32B1..32BF    ; Expands_On_NFKD # No  [15] CIRCLED NUMBER THIRTY SIX..CIRCLED NUMBER FIFTY
32C0..32CF    ; Expands_On_NFKD # So  [16] IDEOGRAPHIC TELEGRAPH SYMBOL FOR JANUARY..LIMITED LIABILITY SIGN
32FF..33FF    ; Expands_On_NFKD # So [257] SQUARE ERA NAME REIWA..SQUARE GAL
AC00..D7A3    ; Expands_On_NFKD # Lo [11172] HANGUL SYLLABLE GA..HANGUL SYLLABLE HIH
FB00..FB06    ; Expands_On_NFKD # L&   [7] LATIN SMALL LIGATURE FF..LATIN SMALL LIGATURE ST
FB13..FB17    ; Expands_On_NFKD # L&   [5] ARMENIAN SMALL LIGATURE MEN NOW..ARMENIAN SMALL LIGATURE MEN XEH
FB1D          ; Expands_On_NFKD # Lo       HEBREW LETTER YOD WITH HIRIQ
FB1F          ; Expands_On_NFKD # Lo       HEBREW LIGATURE YIDDISH YOD YOD PATAH
FB2A..FB36    ; Expands_On_NFKD # Lo  [13] HEBREW LETTER SHIN WITH SHIN DOT..HEBREW LETTER ZAYIN WITH DAGESH
FB38..FB3C    ; Expands_On_NFKD # Lo   [5] HEBREW LETTER TET WITH DAGESH..HEBREW LETTER LAMED WITH DAGESH
"%string.
Definition props_text_135 := "FB3E          ; Expands_On_NFKD # Lo       HEBREW LETTER MEM WITH DAGESH
FB40..FB41    ; Expands_On_NFKD # Lo   [2] HEBREW LETTER NUN WITH DAGESH..HEBREW LETTER SAMEKH WITH DAGESH
FB43..FB44    ; Expands_On_NFKD # Lo   [2] HEBREW LETTER FINAL PE WITH DAGESH..HEBREW LETTER PE WITH DAGESH
FB46..FB4F    ; Expands_On_NFKD # Lo  [10] HEBREW LETTER TSADI WITH DAGESH..HEBREW LIGATURE ALEF LAMED
FBA4..FBA5    ; Expands_On_NFKD # Lo   [2] ARABIC LETTER HEH WITH YEH ABOVE ISOLATED FORM..ARABIC LETTER HEH WITH YEH ABOVE FINAL FORM
FBB0..FBB1    ; Expands_On_NFKD # Lo   [2] ARABIC LETTER YEH BARREE WITH HAMZA ABOVE ISOLATED FORM..ARABIC LETTER YEH BARREE WITH HAMZA ABOVE FINAL FORM
FBDD          ; Expands_On_NFKD # Lo       ARABIC LETTER U WITH HAMZA ABOVE ISOLATED FORM
FBEA..FBFB    ; Expands_On_NFKD # Lo  [18] ARABIC LIGATURE YEH WITH HAMZA ABOVE WITH ALEF ISOLATED FORM..ARABIC LIGATURE UIGHUR KIRGHIZ YEH WITH HAMZA ABOVE WITH ALEF MAKSURA INITIAL FORM
FC00..FD3D    ; Expands_On_NFKD # Lo [318] ARABIC LIGATURE YEH WITH HAMZA ABOVE WITH JEEM ISOLATED FORM..ARABIC LIGATURE ALEF WITH FATHATAN ISOLATED FORM
FD50..FD8F    ; Expands_On_NFKD # Lo  [64] ARABIC LIGATURE TEH WITH JEEM WITH MEEM INITIAL FORM..ARABIC LIGATURE MEEM WITH KHAH WITH MEEM INITIAL FORM
FD92..FDC7    ; Expands_On_NFKD # Lo  [54] ARABIC LIGATURE MEEM WITH JEEM WITH KHAH INITIAL FORM..ARABIC LIGATURE NOON WITH JEEM WITH YEH FINAL FORM
FDF0..FDFB    ; Expands_On_NFKD # Lo  [12] ARABIC LIGATURE SALLA USED AS KORANIC STOP SIGN ISOLATED FORM..ARABIC LIGATURE JALLAJALALOUHOU
FDFC          ; Expands_On_NFKD # Sc       RIAL SIGN
FE19          ; Expands_On_NFKD # Po       PRESENTATION FORM FOR VERTICAL HORIZONTAL ELLIPSIS
FE30          ; Expands_On_NFKD # Po       PRESENTATION FORM FOR VERTICAL TWO DOT LEADER
FE49..FE4C    ; Expands_On_NFKD # Po   [4] DASHED OVERLINE..DOUBLE WAVY OVERLINE
FE70..FE72    ; Expands_On_NFKD # Lo   [3] ARABIC FATHATAN ISOLATED FORM..ARABIC DAMMATAN ISOLATED FORM
FE74          ; Expands_On_NFKD # Lo       ARABIC KASRATAN ISOLATED FORM
FE76..FE7F    ; Expands_On_NFKD # Lo  [10] ARABIC FATHA ISOLATED FORM..ARABIC SUKUN MEDIAL FORM
FE81..FE8C    ; Expands_On_NFKD # Lo  [12] ARABIC LETTER ALEF WITH MADDA ABOVE ISOLATED FORM..ARABIC LETTER YEH WITH HAMZA ABOVE MEDIAL FORM
"%string.
Definition props_text_136 := "FEF5..FEFC    ; Expands_On_NFKD # Lo   [8] ARABIC LIGATURE LAM WITH ALEF WITH MADDA ABOVE ISOLATED FORM..ARABIC LIGATURE LAM WITH ALEF FINAL FORM
FFE3          ; Expands_On_NFKD # Sk       FULLWIDTH MACRON
1109A         ; Expands_On_NFKD # Lo       KAITHI LETTER DDDHA
1109C         ; Expands_On_NFKD # Lo       KAITHI LETTER RHA
110AB         ; Expands_On_NFKD # Lo       KAITHI LETTER VA
1112E..1112F  ; Expands_On_NFKD # Mn   [2] CHAKMA VOWEL SIGN O..CHAKMA VOWEL SIGN AU
1134B..1134C  ; Expands_On_NFKD # Mc   [2] GRANTHA VOWEL SIGN OO..GRANTHA VOWEL SIGN AU
114BB..114BC  ; Expands_On_NFKD # Mc   [2] TIRHUTA VOWEL SIGN AI..TIRHUTA VOWEL SIGN O
114BE         ; Expands_On_NFKD # Mc       TIRHUTA VOWEL SIGN AU
115BA..115BB  ; Expands_On_NFKD # Mc   [2] SIDDHAM VOWEL SIGN O..SIDDHAM VOWEL SIGN AU
11938         ; Expands_On_NFKD # Mc       DIVES AKURU VOWEL SIGN O
1D15E..1D164  ; Expands_On_NFKD # So   [7] MUSICAL SYMBOL HALF NOTE..MUSICAL SYMBOL ONE HUNDRED TWENTY-EIGHTH NOTE
1D1BB..1D1C0  ; Expands_On_NFKD # So   [6] MUSICAL SYMBOL MINIMA..MUSICAL SYMBOL FUSA BLACK
1F100..1F10A  ; Expands_On_NFKD # No  [11] DIGIT ZERO FULL STOP..DIGIT NINE COMMA
1F110..1F12A  ; Expands_On_NFKD # So  [27] PARENTHESIZED LATIN CAPITAL LETTER A..TORTOISE SHELL BRACKETED LATIN CAPITAL LETTER S
1F12D..1F12E  ; Expands_On_NFKD # So   [2] CIRCLED CD..CIRCLED WZ
1F14A..1F14F  ; Expands_On_NFKD # So   [6] SQUARED HV..SQUARED WC
1F16A..1F16C  ; Expands_On_NFKD # So   [3] RAISED MC SIGN..RAISED MR SIGN
1F190         ; Expands_On_NFKD # So       SQUARE DJ
1F200..1F201  ; Expands_On_NFKD # So   [2] SQUARE HIRAGANA HOKA..SQUARED KATAKANA KOKO
"%string.
Definition props_text_137 := "1F213         ; Expands_On_NFKD # So       SQUARED KATAKANA DE
1F240..1F248  ; Expands_On_NFKD # So   [9] TORTOISE SHELL BRACKETED CJK UNIFIED IDEOGRAPH-672C..TORTOISE SHELL BRACKETED CJK UNIFIED IDEOGRAPH-6557

# Total code points: 13390

# ================================================

# Derived Property: Expands_On_NFKC (DEPRECATED as of Unicode 6.0.0)
#   Generated according to UAX #15.
#   Characters whose normalized length is not one.
#   WARNING: Normalization of STRINGS must use the algorithm in UAX #15 because characters may interact.
#            The length of a normalized string is not necessarily the sum of the lengths of the normalized characters!

00A8          ; Expands_On_NFKC # Sk       DIAERESIS
00AF          ; Expands_On_NFKC # Sk       MACRON
00B4          ; Expands_On_NFKC # Sk       ACUTE ACCENT
00B8          ; Expands_On_NFKC # Sk       CEDILLA
00BC..00BE    ; Expands_On_NFKC # No   [3] VULGAR FRACTION ONE QUARTER..VULGAR FRACTION THREE QUARTERS
0132..0133    ; Expands_On_NFKC # L&   [2] LATIN CAPITAL LIGATURE IJ..LATIN SMALL LIGATURE IJ
013F..0140    ; Expands_On_NFKC # L&   [2] LATIN CAPITAL LETTER L WITH MIDDLE DOT..LATIN SMALL LETTER L WITH MIDDLE DOT
"%string.
Definition props_text_138 := "0149          ; Expands_On_NFKC # L&       LATIN SMALL LETTER N PRECEDED BY APOSTROPHE
01C4..01CC    ; Expands_On_NFKC # L&   [9] LATIN CAPITAL LETTER DZ WITH CARON..LATIN SMALL LETTER NJ
01F1..01F3    ; Expands_On_NFKC # L&   [3] LATIN CAPITAL LETTER DZ..LATIN SMALL LETTER DZ
02D8..02DD    ; Expands_On_NFKC # Sk   [6] BREVE..DOUBLE ACUTE ACCENT
0344          ; Expands_On_NFKC # Mn       COMBINING GREEK DIALYTIKA TONOS
037A          ; Expands_On_NFKC # Lm       GREEK YPOGEGRAMMENI
0384..0385    ; Expands_On_NFKC # Sk   [2] GREEK TONOS..GREEK DIALYTIKA TONOS
0587          ; Expands_On_NFKC # L&       ARMENIAN SMALL LIGATURE ECH YIWN
0675..0678    ; Expands_On_NFKC # Lo   [4] ARABIC LETTER HIGH HAMZA ALEF..ARABIC LETTER HIGH HAMZA YEH
0958..095F    ; Expands_On_NFKC # Lo   [8] DEVANAGARI LETTER QA..DEVANAGARI LETTER YYA
09DC..09DD    ; Expands_On_NFKC # Lo   [2] BENGALI LETTER RRA..BENGALI LETTER RHA
09DF          ; Expands_On_NFKC # Lo       BENGALI LETTER YYA
0A33          ; Expands_On_NFKC # Lo       GURMUKHI LETTER LLA
0A36          ; Expands_On_NFKC # Lo       GURMUKHI LETTER SHA
0A59..0A5B    ; Expands_On_NFKC # Lo   [3] GURMUKHI LETTER KHHA..GURMUKHI LETTER ZA
0A5E          ; Expands_On_NFKC # Lo       GURMUKHI LETTER FA
0B5C..0B5D    ; Expands_On_NFKC # Lo   [2] ORIYA LETTER RRA..ORIYA LETTER RHA
0E33          ; Expands_On_NFKC # Lo       THAI CHARACTER SARA AM
0EB3          ; Expands_On_NFKC # Lo       LAO VOWEL SIGN AM
0EDC..0EDD    ; Expands_On_NFKC # Lo   [2] LAO HO NO..LAO HO MO
"%string.
Definition props_text_139 := "0F43          ; Expands_On_NFKC # Lo       TIBETAN LETTER GHA
0F4D          ; Expands_On_NFKC # Lo       TIBETAN LETTER DDHA
0F52          ; Expands_On_NFKC # Lo       TIBETAN LETTER DHA
0F57          ; Expands_On_NFKC # Lo       TIBETAN LETTER BHA
0F5C          ; Expands_On_NFKC # Lo       TIBETAN LETTER DZHA
0F69          ; Expands_On_NFKC # Lo       TIBETAN LETTER KSSA
0F73          ; Expands_On_NFKC # Mn       TIBETAN VOWEL SIGN II
0F75..0F79    ; Expands_On_NFKC # Mn   [5] TIBETAN VOWEL SIGN UU..TIBETAN VOWEL SIGN VOCALIC LL
0F81          ; Expands_On_NFKC # Mn       TIBETAN VOWEL SIGN REVERSED II
0F93          ; Expands_On_NFKC # Mn       TIBETAN SUBJOINED LETTER GHA
0F9D          ; Expands_On_NFKC # Mn       TIBETAN SUBJOINED LETTER DDHA
0FA2          ; Expands_On_NFKC # Mn       TIBETAN SUBJOINED LETTER DHA
0FA7          ; Expands_On_NFKC # Mn       TIBETAN SUBJOINED LETTER BHA
0FAC          ; Expands_On_NFKC # Mn       TIBETAN SUBJOINED LETTER DZHA
0FB9          ; Expands_On_NFKC # Mn       TIBETAN SUBJOINED LETTER KSSA
1E9A          ; Expands_On_NFKC # L&       LATIN SMALL LETTER A WITH RIGHT HALF RING
1FBD          ; Expands_On_NFKC # Sk       GREEK KORONIS
1FBF..1FC1    ; Expands_On_NFKC # Sk   [3] GREEK PSILI..GREEK DIALYTIKA AND PERISPOMENI
1FCD..1FCF    ; Expands_On_NFKC # Sk   [3] GREEK PSILI AND VARIA..GREEK PSILI AND PERISPOMENI
1FDD..1FDF    ; Expands_On_NFKC # Sk   [3] GREEK DASIA AND VARIA..GREEK DASIA AND PERISPOMENI
"%string.
Definition props_text_140 := "1FED..1FEE    ; Expands_On_NFKC # Sk   [2] GREEK DIALYTIKA AND VARIA..GREEK DIALYTIKA AND OXIA
1FFD..1FFE    ; Expands_On_NFKC # Sk   [2] GREEK OXIA..GREEK DASIA
2017          ; Expands_On_NFKC # Po       DOUBLE LOW LINE
2025..2026    ; Expands_On_NFKC # Po   [2] TWO DOT LEADER..HORIZONTAL ELLIPSIS
2033..2034    ; Expands_On_NFKC # Po   [2] DOUBLE PRIME..TRIPLE PRIME
2036..2037    ; Expands_On_NFKC # Po   [2] REVERSED DOUBLE PRIME..REVERSED TRIPLE PRIME
203C          ; Expands_On_NFKC # Po       DOUBLE EXCLAMATION MARK
203E          ; Expands_On_NFKC # Po       OVERLINE
2047..2049    ; Expands_On_NFKC # Po   [3] DOUBLE QUESTION MARK..EXCLAMATION QUESTION MARK
2057          ; Expands_On_NFKC # Po       QUADRUPLE PRIME
20A8          ; Expands_On_NFKC # Sc       RUPEE SIGN
2100..2101    ; Expands_On_NFKC # So   [2] ACCOUNT OF..ADDRESSED TO THE SUBJECT
2103          ; Expands_On_NFKC # So       DEGREE CELSIUS
2105..2106    ; Expands_On_NFKC # So   [2] CARE OF..CADA UNA
2109          ; Expands_On_NFKC # So       DEGREE FAHRENHEIT
2116          ; Expands_On_NFKC # So       NUMERO SIGN
2120..2122    ; Expands_On_NFKC # So   [3] SERVICE MARK..TRADE MARK SIGN
213B          ; Expands_On_NFKC # So       FACSIMILE SIGN
2150..215F    ; Expands_On_NFKC # No  [16] VULGAR FRACTION ONE SEVENTH..FRACTION NUMERATOR ONE
2161..2163    ; Expands_On_NFKC # Nl   [3] ROMAN NUMERAL TWO..ROMAN NUMERAL FOUR
"%string.
Definition props_text_141 := "2165..2168    ; Expands_On_NFKC # Nl   [4] ROMAN NUMERAL SIX..ROMAN NUMERAL NINE
216A..216B    ; Expands_On_NFKC # Nl   [2] ROMAN NUMERAL ELEVEN..ROMAN NUMERAL TWELVE
2171..2173    ; Expands_On_NFKC # Nl   [3] SMALL ROMAN NUMERAL TWO..SMALL ROMAN NUMERAL FOUR
2175..2178    ; Expands_On_NFKC # Nl   [4] SMALL ROMAN NUMERAL SIX..SMALL ROMAN NUMERAL NINE
217A..217B    ; Expands_On_NFKC # Nl   [2] SMALL ROMAN NUMERAL ELEVEN..SMALL ROMAN NUMERAL TWELVE
2189          ; Expands_On_NFKC # No       VULGAR FRACTION ZERO THIRDS
222C..222D    ; Expands_On_NFKC # Sm   [2] DOUBLE INTEGRAL..TRIPLE INTEGRAL
222F..2230    ; Expands_On_NFKC # Sm   [2] SURFACE INTEGRAL..VOLUME INTEGRAL
2469..249B    ; Expands_On_NFKC # No  [51] CIRCLED NUMBER TEN..NUMBER TWENTY FULL STOP
249C..24B5    ; Expands_On_NFKC # So  [26] PARENTHESIZED LATIN SMALL LETTER A..PARENTHESIZED LATIN SMALL LETTER Z
2A0C          ; Expands_On_NFKC # Sm       QUADRUPLE INTEGRAL OPERATOR
2A74..2A76    ; Expands_On_NFKC # Sm   [3] DOUBLE COLON EQUAL..THREE CONSECUTIVE EQUALS SIGNS
2ADC          ; Expands_On_NFKC # Sm       FORKING
309B..309C    ; Expands_On_NFKC # Sk   [2] KATAKANA-HIRAGANA VOICED SOUND MARK..KATAKANA-HIRAGANA SEMI-VOICED SOUND MARK
309F          ; Expands_On_NFKC # Lo       HIRAGANA DIGRAPH YORI
30FF          ; Expands_On_NFKC # Lo       KATAKANA DIGRAPH KOTO
3200..321E    ; Expands_On_NFKC # So  [31] PARENTHESIZED HANGUL KIYEOK..PARENTHESIZED KOREAN CHARACTER O HU
3220..3229    ; Expands_On_NFKC # No  [10] PARENTHESIZED IDEOGRAPH ONE..PARENTHESIZED IDEOGRAPH TEN
322A..3243    ; Expands_On_NFKC # So  [26] PARENTHESIZED IDEOGRAPH MOON..PARENTHESIZED IDEOGRAPH REACH
3250          ; Expands_On_NFKC # So       PARTNERSHIP SIGN
"%string.
Definition props_text_142 := "3251..325F    ; Expands_On_NFKC # No  [15] CIRCLED NUMBER TWENTY ONE..CIRCLED NUMBER THIRTY FIVE
327C..327D    ; Expands_On_NFKC # So   [2] CIRCLED KOREAN CHARACTER CHAMKO..CIRCLED KOREAN CHARACTER JUEUI
32B1..32BF    ; Expands_On_NFKC # No  [15] CIRCLED NUMBER THIRTY SIX..CIRCLED NUMBER FIFTY
32C0..32CF    ; Expands_On_NFKC # So  [16] IDEOGRAPHIC TELEGRAPH SYMBOL FOR JANUARY..LIMITED LIABILITY SIGN
32FF..33FF    ; Expands_On_NFKC # So [257] SQUARE ERA NAME REIWA..SQUARE GAL
FB00..FB06    ; Expands_On_NFKC # L&   [7] LATIN SMALL LIGATURE FF..LATIN SMALL LIGATURE ST
FB13..FB17    ; Expands_On_NFKC # L&   [5] ARMENIAN SMALL LIGATURE MEN NOW..ARMENIAN SMALL LIGATURE MEN XEH
FB1D          ; Expands_On_NFKC # Lo       HEBREW LETTER YOD WITH HIRIQ
FB1F          ; Expands_On_NFKC # Lo       HEBREW LIGATURE YIDDISH YOD YOD PATAH
FB2A..FB36    ; Expands_On_NFKC # Lo  [13] HEBREW LETTER SHIN WITH SHIN DOT..HEBREW LETTER ZAYIN WITH DAGESH
FB38..FB3C    ; Expands_On_NFKC # Lo   [5] HEBREW LETTER TET WITH DAGESH..HEBREW LETTER LAMED WITH DAGESH
FB3E          ; Expands_On_NFKC # Lo       HEBREW LETTER MEM WITH DAGESH
FB40..FB41    ; Expands_On_NFKC # Lo   [2] HEBREW LETTER NUN WITH DAGESH..HEBREW LETTER SAMEKH WITH DAGESH
FB43..FB44    ; Expands_On_NFKC # Lo   [2] HEBREW LETTER FINAL PE WITH DAGESH..HEBREW LETTER PE WITH DAGESH
FB46..FB4F    ; Expands_On_NFKC # Lo  [10] HEBREW LETTER TSADI WITH DAGESH..HEBREW LIGATURE ALEF LAMED
FBDD          ; Expands_On_NFKC # Lo       ARABIC LETTER U WITH HAMZA ABOVE ISOLATED FORM
FBEA..FBFB    ; Expands_On_NFKC # Lo  [18] ARABIC LIGATURE YEH WITH HAMZA ABOVE WITH ALEF ISOLATED FORM..ARABIC LIGATURE UIGHUR KIRGHIZ YEH WITH HAMZA ABOVE WITH ALEF MAKSURA INITIAL FORM
FC00..FD3D    ; Expands_On_NFKC # Lo [318] ARABIC LIGATURE YEH WITH HAMZA ABOVE WITH JEEM ISOLATED FORM..ARABIC LIGATURE ALEF WITH FATHATAN ISOLATED FORM
FD50..FD8F    ; Expands_On_NFKC # Lo  [64] ARABIC LIGATURE TEH WITH JEEM WITH MEEM INITIAL FORM..ARABIC LIGATURE MEEM WITH KHAH WITH MEEM INITIAL FORM
FD92..FDC7    ; Expands_On_NFKC # Lo  [54] ARABIC LIGATURE MEEM WITH JEEM WITH KHAH INITIAL FORM..ARABIC LIGATURE NOON WITH JEEM WITH YEH FINAL FORM
"%string.
Definition props_text_143 := "FDF0..FDFB    ; Expands_On_NFKC # Lo  [12] ARABIC LIGATURE SALLA USED AS KORANIC STOP SIGN ISOLATED FORM..ARABIC LIGATURE JALLAJALALOUHOU
FDFC          ; Expands_On_NFKC # Sc       RIAL SIGN
FE19          ; Expands_On_NFKC # Po       PRESENTATION FORM FOR VERTICAL HORIZONTAL ELLIPSIS
FE30          ; Expands_On_NFKC # Po       PRESENTATION FORM FOR VERTICAL TWO DOT LEADER
FE49..FE4C    ; Expands_On_NFKC # Po   [4] DASHED OVERLINE..DOUBLE WAVY OVERLINE
FE70..FE72    ; Expands_On_NFKC # Lo   [3] ARABIC FATHATAN ISOLATED FORM..ARABIC DAMMATAN ISOLATED FORM
FE74          ; Expands_On_NFKC # Lo       ARABIC KASRATAN ISOLATED FORM
FE76..FE7F    ; Expands_On_NFKC # Lo  [10] ARABIC FATHA ISOLATED FORM..ARABIC SUKUN MEDIAL FORM
FEF5..FEFC    ; Expands_On_NFKC # Lo   [8] ARABIC LIGATURE LAM WITH ALEF WITH MADDA ABOVE ISOLATED FORM..ARABIC LIGATURE LAM WITH ALEF FINAL FORM
FFE3          ; Expands_On_NFKC # Sk       FULLWIDTH MACRON
1D15E..1D164  ; Expands_On_NFKC # So   [7] MUSICAL SYMBOL HALF NOTE..MUSICAL SYMBOL ONE HUNDRED TWENTY-EIGHTH NOTE
1D1BB..1D1C0  ; Expands_On_NFKC # So   [6] MUSICAL SYMBOL MINIMA..MUSICAL SYMBOL FUSA BLACK
1F100..1F10A  ; Expands_On_NFKC # No  [11] DIGIT ZERO FULL STOP..DIGIT NINE COMMA
1F110..1F12A  ; Expands_On_NFKC # So  [27] PARENTHESIZED LATIN CAPITAL LETTER A..TORTOISE SHELL BRACKETED LATIN CAPITAL LETTER S
1F12D..1F12E  ; Expands_On_NFKC # So   [2] CIRCLED CD..CIRCLED WZ
1F14A..1F14F  ; Expands_On_NFKC # So   [6] SQUARED HV..SQUARED WC
1F16A..1F16C  ; Expands_On_NFKC # So   [3] RAISED MC SIGN..RAISED MR SIGN
1F190         ; Expands_On_NFKC # So       SQUARE DJ
1F200..1F201  ; Expands_On_NFKC # So   [2] SQUARE HIRAGANA HOKA..SQUARED KATAKANA KOKO
1F240..1F248  ; Expands_On_NFKC # So   [9] TORTOISE SHELL BRACKETED CJK UNIFIED IDEOGRAPH-672C..TORTOISE SHELL BRACKETED CJK UNIFIED IDEOGRAPH-6557
"%string.
Definition props_text_144 := "
# Total code points: 1237

# ================================================

# Derived Property:   NFKC_Casefold (NFKC_CF)
#   This property removes certain variations from characters: case, compatibility, and default-ignorables.
#   It is used for loose matching and certain types of identifiers.
#   It is constructed by applying NFKC, CaseFolding, and removal of Default_Ignorable_Code_Points.
#   The process of applying these transformations is repeated until a stable result is produced.
#   WARNING: Application to STRINGS must apply NFC after mapping each character, because characters may interact.
#            For more information, see [http://www.unicode.org/reports/tr44/]
# Omitted code points are unchanged by this mapping.
# @missing: 0000..10FFFF; NFKC_CF; <code point>

#  All code points not explicitly listed for NFKC_Casefold
#  have the value <codepoint>.

0041          ; NFKC_CF; 0061           # L&       LATIN CAPITAL LETTER A
0042          ; NFKC_CF; 0062           # L&       LATIN CAPITAL LETTER B
"%string.
Definition props_text_145 := "0043          ; NFKC_CF; 0063           # L&       LATIN CAPITAL LETTER C
0044          ; NFKC_CF; 0064           # L&       LATIN CAPITAL LETTER D
0045          ; NFKC_CF; 0065           # L&       LATIN CAPITAL LETTER E
0046          ; NFKC_CF; 0066           # L&       LATIN CAPITAL LETTER F
0047          ; NFKC_CF; 0067           # L&       LATIN CAPITAL LETTER G
0048          ; NFKC_CF; 0068           # L&       LATIN CAPITAL LETTER H
0049          ; NFKC_CF; 0069           # L&       LATIN CAPITAL LETTER I
004A          ; NFKC_CF; 006A           # L&       LATIN CAPITAL LETTER J
004B          ; NFKC_CF; 006B           # L&       LATIN CAPITAL LETTER K
004C          ; NFKC_CF; 006C           # L&       LATIN CAPITAL LETTER L
004D          ; NFKC_CF; 006D           # L&       LATIN CAPITAL LETTER M
004E          ; NFKC_CF; 006E           # L&       LATIN CAPITAL LETTER N
004F          ; NFKC_CF; 006F           # L&       LATIN CAPITAL LETTER O
0050          ; NFKC_CF; 0070           # L&       LATIN CAPITAL LETTER P
0051          ; NFKC_CF; 0071           # L&       LATIN CAPITAL LETTER Q
0052          ; NFKC_CF; 0072           # L&       LATIN CAPITAL LETTER R
0053          ; NFKC_CF; 0073           # L&       LATIN CAPITAL LETTER S
0054          ; NFKC_CF; 0074           # L&       LATIN CAPITAL LETTER T
0055          ; NFKC_CF; 0075           # L&       LATIN CAPITAL LETTER U
0056          ; NFKC_CF; 0076           # L&       LATIN CAPITAL LETTER V
"%string.
Definition props_text_146 := "0057          ; NFKC_CF; 0077           # L&       LATIN CAPITAL LETTER W
0058          ; NFKC_CF; 0078           # L&       LATIN CAPITAL LETTER X
0059          ; NFKC_CF; 0079           # L&       LATIN CAPITAL LETTER Y
005A          ; NFKC_CF; 007A           # L&       LATIN CAPITAL LETTER Z
00A0          ; NFKC_CF; 0020           # Zs       NO-BREAK SPACE
00A8          ; NFKC_CF; 0020 0308      # Sk       DIAERESIS
00AA          ; NFKC_CF; 0061           # Lo       FEMININE ORDINAL INDICATOR
00AD          ; NFKC_CF;                # Cf       SOFT HYPHEN
00AF          ; NFKC_CF; 0020 0304      # Sk       MACRON
00B2          ; NFKC_CF; 0032           # No       SUPERSCRIPT TWO
00B3          ; NFKC_CF; 0033           # No       SUPERSCRIPT THREE
00B4          ; NFKC_CF; 0020 0301      # Sk       ACUTE ACCENT
00B5          ; NFKC_CF; 03BC           # L&       MICRO SIGN
00B8          ; NFKC_CF; 0020 0327      # Sk       CEDILLA
00B9          ; NFKC_CF; 0031           # No       SUPERSCRIPT ONE
00BA          ; NFKC_CF; 006F           # Lo       MASCULINE ORDINAL INDICATOR
00BC          ; NFKC_CF; 0031 2044 0034 # No       VULGAR FRACTION ONE QUARTER
00BD          ; NFKC_CF; 0031 2044 0032 # No       VULGAR FRACTION ONE HALF
00BE          ; NFKC_CF; 0033 2044 0034 # No       VULGAR FRACTION THREE QUARTERS
00C0          ; NFKC_CF; 00E0           # L&       LATIN CAPITAL LETTER A WITH GRAVE
"%string.
Definition props_text_147 := "00C1          ; NFKC_CF; 00E1           # L&       LATIN CAPITAL LETTER A WITH ACUTE
00C2          ; NFKC_CF; 00E2           # L&       LATIN CAPITAL LETTER A WITH CIRCUMFLEX
00C3          ; NFKC_CF; 00E3           # L&       LATIN CAPITAL LETTER A WITH TILDE
00C4          ; NFKC_CF; 00E4           # L&       LATIN CAPITAL LETTER A WITH DIAERESIS
00C5          ; NFKC_CF; 00E5           # L&       LATIN CAPITAL LETTER A WITH RING ABOVE
00C6          ; NFKC_CF; 00E6           # L&       LATIN CAPITAL LETTER AE
00C7          ; NFKC_CF; 00E7           # L&       LATIN CAPITAL LETTER C WITH CEDILLA
00C8          ; NFKC_CF; 00E8           # L&       LATIN CAPITAL LETTER E WITH GRAVE
00C9          ; NFKC_CF; 00E9           # L&       LATIN CAPITAL LETTER E WITH ACUTE
00CA          ; NFKC_CF; 00EA           # L&       LATIN CAPITAL LETTER E WITH CIRCUMFLEX
00CB          ; NFKC_CF; 00EB           # L&       LATIN CAPITAL LETTER E WITH DIAERESIS
00CC          ; NFKC_CF; 00EC           # L&       LATIN CAPITAL LETTER I WITH GRAVE
00CD          ; NFKC_CF; 00ED           # L&       LATIN CAPITAL LETTER I WITH ACUTE
00CE          ; NFKC_CF; 00EE           # L&       LATIN CAPITAL LETTER I WITH CIRCUMFLEX
00CF          ; NFKC_CF; 00EF           # L&       LATIN CAPITAL LETTER I WITH DIAERESIS
00D0          ; NFKC_CF; 00F0           # L&       LATIN CAPITAL LETTER ETH
00D1          ; NFKC_CF; 00F1           # L&       LATIN CAPITAL LETTER N WITH TILDE
00D2          ; NFKC_CF; 00F2           # L&       LATIN CAPITAL LETTER O WITH GRAVE
00D3          ; NFKC_CF; 00F3           # L&       LATIN CAPITAL LETTER O WITH ACUTE
00D4          ; NFKC_CF; 00F4           # L&       LATIN CAPITAL LETTER O WITH CIRCUMFLEX
"%string.
Definition props_text_148 := "00D5          ; NFKC_CF; 00F5           # L&       LATIN CAPITAL LETTER O WITH TILDE
00D6          ; NFKC_CF; 00F6           # L&       LATIN CAPITAL LETTER O WITH DIAERESIS
00D8          ; NFKC_CF; 00F8           # L&       LATIN CAPITAL LETTER O WITH STROKE
00D9          ; NFKC_CF; 00F9           # L&       LATIN CAPITAL LETTER U WITH GRAVE
00DA          ; NFKC_CF; 00FA           # L&       LATIN CAPITAL LETTER U WITH ACUTE
00DB          ; NFKC_CF; 00FB           # L&       LATIN CAPITAL LETTER U WITH CIRCUMFLEX
00DC          ; NFKC_CF; 00FC           # L&       LATIN CAPITAL LETTER U WITH DIAERESIS
00DD          ; NFKC_CF; 00FD           # L&       LATIN CAPITAL LETTER Y WITH ACUTE
00DE          ; NFKC_CF; 00FE           # L&       LATIN CAPITAL LETTER THORN
00DF          ; NFKC_CF; 0073 0073      # L&       LATIN SMALL LETTER SHARP S
0100          ; NFKC_CF; 0101           # L&       LATIN CAPITAL LETTER A WITH MACRON
0102          ; NFKC_CF; 0103           # L&       LATIN CAPITAL LETTER A WITH BREVE
0104          ; NFKC_CF; 0105           # L&       LATIN CAPITAL LETTER A WITH OGONEK
0106          ; NFKC_CF; 0107           # L&       LATIN CAPITAL LETTER C WITH ACUTE
0108          ; NFKC_CF; 0109           # L&       LATIN CAPITAL LETTER C WITH CIRCUMFLEX
010A          ; NFKC_CF; 010B           # L&       LATIN CAPITAL LETTER C WITH DOT ABOVE
010C          ; NFKC_CF; 010D           # L&       LATIN CAPITAL LETTER C WITH CARON
010E          ; NFKC_CF; 010F           # L&       LATIN CAPITAL LETTER D WITH CARON
0110          ; NFKC_CF; 0111           # L&       LATIN CAPITAL LETTER D WITH STROKE
0112          ; NFKC_CF; 0113           # L&       LATIN CAPITAL LETTER E WITH MACRON
"%string.
Definition props_text_149 := "0114          ; NFKC_CF; 0115           # L&       LATIN CAPITAL LETTER E WITH BREVE
0116          ; NFKC_CF; 0117           # L&       LATIN CAPITAL LETTER E WITH DOT ABOVE
0118          ; NFKC_CF; 0119           # L&       LATIN CAPITAL LETTER E WITH OGONEK
011A          ; NFKC_CF; 011B           # L&       LATIN CAPITAL LETTER E WITH CARON
011C          ; NFKC_CF; 011D           # L&       LATIN CAPITAL LETTER G WITH CIRCUMFLEX
011E          ; NFKC_CF; 011F           # L&       LATIN CAPITAL LETTER G WITH BREVE
0120          ; NFKC_CF; 0121           # L&       LATIN CAPITAL LETTER G WITH DOT ABOVE
0122          ; NFKC_CF; 0123           # L&       LATIN CAPITAL LETTER G WITH CEDILLA
0124          ; NFKC_CF; 0125           # L&       LATIN CAPITAL LETTER H WITH CIRCUMFLEX
0126          ; NFKC_CF; 0127           # L&       LATIN CAPITAL LETTER H WITH STROKE
0128          ; NFKC_CF; 0129           # L&       LATIN CAPITAL LETTER I WITH TILDE
012A          ; NFKC_CF; 012B           # L&       LATIN CAPITAL LETTER I WITH MACRON
012C          ; NFKC_CF; 012D           # L&       LATIN CAPITAL LETTER I WITH BREVE
012E          ; NFKC_CF; 012F           # L&       LATIN CAPITAL LETTER I WITH OGONEK
0130          ; NFKC_CF; 0069 0307      # L&       LATIN CAPITAL LETTER I WITH DOT ABOVE
0132..0133    ; NFKC_CF; 0069 006A      # L&   [2] LATIN CAPITAL LIGATURE IJ..LATIN SMALL LIGATURE IJ
0134          ; NFKC_CF; 0135           # L&       LATIN CAPITAL LETTER J WITH CIRCUMFLEX
0136          ; NFKC_CF; 0137           # L&       LATIN CAPITAL LETTER K WITH CEDILLA
0139          ; NFKC_CF; 013A           # L&       LATIN CAPITAL LETTER L WITH ACUTE
013B          ; NFKC_CF; 013C           # L&       LATIN CAPITAL LETTER L WITH CEDILLA
"%string.
Definition props_text_150 := "013D          ; NFKC_CF; 013E           # L&       LATIN CAPITAL LETTER L WITH CARON
013F..0140    ; NFKC_CF; 006C 00B7      # L&   [2] LATIN CAPITAL LETTER L WITH MIDDLE DOT..LATIN SMALL LETTER L WITH MIDDLE DOT
0141          ; NFKC_CF; 0142           # L&       LATIN CAPITAL LETTER L WITH STROKE
0143          ; NFKC_CF; 0144           # L&       LATIN CAPITAL LETTER N WITH ACUTE
0145          ; NFKC_CF; 0146           # L&       LATIN CAPITAL LETTER N WITH CEDILLA
0147          ; NFKC_CF; 0148           # L&       LATIN CAPITAL LETTER N WITH CARON
0149          ; NFKC_CF; 02BC 006E      # L&       LATIN SMALL LETTER N PRECEDED BY APOSTROPHE
014A          ; NFKC_CF; 014B           # L&       LATIN CAPITAL LETTER ENG
014C          ; NFKC_CF; 014D           # L&       LATIN CAPITAL LETTER O WITH MACRON
014E          ; NFKC_CF; 014F           # L&       LATIN CAPITAL LETTER O WITH BREVE
0150          ; NFKC_CF; 0151           # L&       LATIN CAPITAL LETTER O WITH DOUBLE ACUTE
0152          ; NFKC_CF; 0153           # L&       LATIN CAPITAL LIGATURE OE
0154          ; NFKC_CF; 0155           # L&       LATIN CAPITAL LETTER R WITH ACUTE
0156          ; NFKC_CF; 0157           # L&       LATIN CAPITAL LETTER R WITH CEDILLA
0158          ; NFKC_CF; 0159           # L&       LATIN CAPITAL LETTER R WITH CARON
015A          ; NFKC_CF; 015B           # L&       LATIN CAPITAL LETTER S WITH ACUTE
015C          ; NFKC_CF; 015D           # L&       LATIN CAPITAL LETTER S WITH CIRCUMFLEX
015E          ; NFKC_CF; 015F           # L&       LATIN CAPITAL LETTER S WITH CEDILLA
0160          ; NFKC_CF; 0161           # L&       LATIN CAPITAL LETTER S WITH CARON
0162          ; NFKC_CF; 0163           # L&       LATIN CAPITAL LETTER T WITH CEDILLA
"%string.
Definition props_text_151 := "0164          ; NFKC_CF; 0165           # L&       LATIN CAPITAL LETTER T WITH CARON
0166          ; NFKC_CF; 0167           # L&       LATIN CAPITAL LETTER T WITH STROKE
0168          ; NFKC_CF; 0169           # L&       LATIN CAPITAL LETTER U WITH TILDE
016A          ; NFKC_CF; 016B           # L&       LATIN CAPITAL LETTER U WITH MACRON
016C          ; NFKC_CF; 016D           # L&       LATIN CAPITAL LETTER U WITH BREVE
016E          ; NFKC_CF; 016F           # L&       LATIN CAPITAL LETTER U WITH RING ABOVE
0170          ; NFKC_CF; 0171           # L&       LATIN CAPITAL LETTER U WITH DOUBLE ACUTE
0172          ; NFKC_CF; 0173           # L&       LATIN CAPITAL LETTER U WITH OGONEK
0174          ; NFKC_CF; 0175           # L&       LATIN CAPITAL LETTER W WITH CIRCUMFLEX
0176          ; NFKC_CF; 0177           # L&       LATIN CAPITAL LETTER Y WITH CIRCUMFLEX
0178          ; NFKC_CF; 00FF           # L&       LATIN CAPITAL LETTER Y WITH DIAERESIS
0179          ; NFKC_CF; 017A           # L&       LATIN CAPITAL LETTER Z WITH ACUTE
017B          ; NFKC_CF; 017C           # L&       LATIN CAPITAL LETTER Z WITH DOT ABOVE
017D          ; NFKC_CF; 017E           # L&       LATIN CAPITAL LETTER Z WITH CARON
017F          ; NFKC_CF; 0073           # L&       LATIN SMALL LETTER LONG S
0181          ; NFKC_CF; 0253           # L&       LATIN CAPITAL LETTER B WITH HOOK
0182          ; NFKC_CF; 0183           # L&       LATIN CAPITAL LETTER B WITH TOPBAR
0184          ; NFKC_CF; 0185           # L&       LATIN CAPITAL LETTER TONE SIX
0186          ; NFKC_CF; 0254           # L&       LATIN CAPITAL LETTER OPEN O
0187          ; NFKC_CF; 0188           # L&       LATIN CAPITAL LETTER C WITH HOOK
"%string.
Definition props_text_152 := "0189          ; NFKC_CF; 0256           # L&       LATIN CAPITAL LETTER AFRICAN D
018A          ; NFKC_CF; 0257           # L&       LATIN CAPITAL LETTER D WITH HOOK
018B          ; NFKC_CF; 018C           # L&       LATIN CAPITAL LETTER D WITH TOPBAR
018E          ; NFKC_CF; 01DD           # L&       LATIN CAPITAL LETTER REVERSED E
018F          ; NFKC_CF; 0259           # L&       LATIN CAPITAL LETTER SCHWA
0190          ; NFKC_CF; 025B           # L&       LATIN CAPITAL LETTER OPEN E
0191          ; NFKC_CF; 0192           # L&       LATIN CAPITAL LETTER F WITH HOOK
0193          ; NFKC_CF; 0260           # L&       LATIN CAPITAL LETTER G WITH HOOK
0194          ; NFKC_CF; 0263           # L&       LATIN CAPITAL LETTER GAMMA
0196          ; NFKC_CF; 0269           # L&       LATIN CAPITAL LETTER IOTA
0197          ; NFKC_CF; 0268           # L&       LATIN CAPITAL LETTER I WITH STROKE
0198          ; NFKC_CF; 0199           # L&       LATIN CAPITAL LETTER K WITH HOOK
019C          ; NFKC_CF; 026F           # L&       LATIN CAPITAL LETTER TURNED M
019D          ; NFKC_CF; 0272           # L&       LATIN CAPITAL LETTER N WITH LEFT HOOK
019F          ; NFKC_CF; 0275           # L&       LATIN CAPITAL LETTER O WITH MIDDLE TILDE
01A0          ; NFKC_CF; 01A1           # L&       LATIN CAPITAL LETTER O WITH HORN
01A2          ; NFKC_CF; 01A3           # L&       LATIN CAPITAL LETTER OI
01A4          ; NFKC_CF; 01A5           # L&       LATIN CAPITAL LETTER P WITH HOOK
01A6          ; NFKC_CF; 0280           # L&       LATIN LETTER YR
01A7          ; NFKC_CF; 01A8           # L&       LATIN CAPITAL LETTER TONE TWO
"%string.
Definition props_text_153 := "01A9          ; NFKC_CF; 0283           # L&       LATIN CAPITAL LETTER ESH
01AC          ; NFKC_CF; 01AD           # L&       LATIN CAPITAL LETTER T WITH HOOK
01AE          ; NFKC_CF; 0288           # L&       LATIN CAPITAL LETTER T WITH RETROFLEX HOOK
01AF          ; NFKC_CF; 01B0           # L&       LATIN CAPITAL LETTER U WITH HORN
01B1          ; NFKC_CF; 028A           # L&       LATIN CAPITAL LETTER UPSILON
01B2          ; NFKC_CF; 028B           # L&       LATIN CAPITAL LETTER V WITH HOOK
01B3          ; NFKC_CF; 01B4           # L&       LATIN CAPITAL LETTER Y WITH HOOK
01B5          ; NFKC_CF; 01B6           # L&       LATIN CAPITAL LETTER Z WITH STROKE
01B7          ; NFKC_CF; 0292           # L&       LATIN CAPITAL LETTER EZH
01B8          ; NFKC_CF; 01B9           # L&       LATIN CAPITAL LETTER EZH REVERSED
01BC          ; NFKC_CF; 01BD           # L&       LATIN CAPITAL LETTER TONE FIVE
01C4..01C6    ; NFKC_CF; 0064 017E      # L&   [3] LATIN CAPITAL LETTER DZ WITH CARON..LATIN SMALL LETTER DZ WITH CARON
01C7..01C9    ; NFKC_CF; 006C 006A      # L&   [3] LATIN CAPITAL LETTER LJ..LATIN SMALL LETTER LJ
01CA..01CC    ; NFKC_CF; 006E 006A      # L&   [3] LATIN CAPITAL LETTER NJ..LATIN SMALL LETTER NJ
01CD          ; NFKC_CF; 01CE           # L&       LATIN CAPITAL LETTER A WITH CARON
01CF          ; NFKC_CF; 01D0           # L&       LATIN CAPITAL LETTER I WITH CARON
01D1          ; NFKC_CF; 01D2           # L&       LATIN CAPITAL LETTER O WITH CARON
01D3          ; NFKC_CF; 01D4           # L&       LATIN CAPITAL LETTER U WITH CARON
01D5          ; NFKC_CF; 01D6           # L&       LATIN CAPITAL LETTER U WITH DIAERESIS AND MACRON
01D7          ; NFKC_CF; 01D8           # L&       LATIN CAPITAL LETTER U WITH DIAERESIS AND ACUTE
"%string.
Definition props_text_154 := "01D9          ; NFKC_CF; 01DA           # L&       LATIN CAPITAL LETTER U WITH DIAERESIS AND CARON
01DB          ; NFKC_CF; 01DC           # L&       LATIN CAPITAL LETTER U WITH DIAERESIS AND GRAVE
01DE          ; NFKC_CF; 01DF           # L&       LATIN CAPITAL LETTER A WITH DIAERESIS AND MACRON
01E0          ; NFKC_CF; 01E1           # L&       LATIN CAPITAL LETTER A WITH DOT ABOVE AND MACRON
01E2          ; NFKC_CF; 01E3           # L&       LATIN CAPITAL LETTER AE WITH MACRON
01E4          ; NFKC_CF; 01E5           # L&       LATIN CAPITAL LETTER G WITH STROKE
01E6          ; NFKC_CF; 01E7           # L&       LATIN CAPITAL LETTER G WITH CARON
01E8          ; NFKC_CF; 01E9           # L&       LATIN CAPITAL LETTER K WITH CARON
01EA          ; NFKC_CF; 01EB           # L&       LATIN CAPITAL LETTER O WITH OGONEK
01EC          ; NFKC_CF; 01ED           # L&       LATIN CAPITAL LETTER O WITH OGONEK AND MACRON
01EE          ; NFKC_CF; 01EF           # L&       LATIN CAPITAL LETTER EZH WITH CARON
01F1..01F3    ; NFKC_CF; 0064 007A      # L&   [3] LATIN CAPITAL LETTER DZ..LATIN SMALL LETTER DZ
01F4          ; NFKC_CF; 01F5           # L&       LATIN CAPITAL LETTER G WITH ACUTE
01F6          ; NFKC_CF; 0195           # L&       LATIN CAPITAL LETTER HWAIR
01F7          ; NFKC_CF; 01BF           # L&       LATIN CAPITAL LETTER WYNN
01F8          ; NFKC_CF; 01F9           # L&       LATIN CAPITAL LETTER N WITH GRAVE
01FA          ; NFKC_CF; 01FB           # L&       LATIN CAPITAL LETTER A WITH RING ABOVE AND ACUTE
01FC          ; NFKC_CF; 01FD           # L&       LATIN CAPITAL LETTER AE WITH ACUTE
01FE          ; NFKC_CF; 01FF           # L&       LATIN CAPITAL LETTER O WITH STROKE AND ACUTE
0200          ; NFKC_CF; 0201           # L&       LATIN CAPITAL LETTER A WITH DOUBLE GRAVE
"%string.
Definition props_text_155 := "0202          ; NFKC_CF; 0203           # L&       LATIN CAPITAL LETTER A WITH INVERTED BREVE
0204          ; NFKC_CF; 0205           # L&       LATIN CAPITAL LETTER E WITH DOUBLE GRAVE
0206          ; NFKC_CF; 0207           # L&       LATIN CAPITAL LETTER E WITH INVERTED BREVE
0208          ; NFKC_CF; 0209           # L&       LATIN CAPITAL LETTER I WITH DOUBLE GRAVE
020A          ; NFKC_CF; 020B           # L&       LATIN CAPITAL LETTER I WITH INVERTED BREVE
020C          ; NFKC_CF; 020D           # L&       LATIN CAPITAL LETTER O WITH DOUBLE GRAVE
020E          ; NFKC_CF; 020F           # L&       LATIN CAPITAL LETTER O WITH INVERTED BREVE
0210          ; NFKC_CF; 0211           # L&       LATIN CAPITAL LETTER R WITH DOUBLE GRAVE
0212          ; NFKC_CF; 0213           # L&       LATIN CAPITAL LETTER R WITH INVERTED BREVE
0214          ; NFKC_CF; 0215           # L&       LATIN CAPITAL LETTER U WITH DOUBLE GRAVE
0216          ; NFKC_CF; 0217           # L&       LATIN CAPITAL LETTER U WITH INVERTED BREVE
0218          ; NFKC_CF; 0219           # L&       LATIN CAPITAL LETTER S WITH COMMA BELOW
021A          ; NFKC_CF; 021B           # L&       LATIN CAPITAL LETTER T WITH COMMA BELOW
021C          ; NFKC_CF; 021D           # L&       LATIN CAPITAL LETTER YOGH
021E          ; NFKC_CF; 021F           # L&       LATIN CAPITAL LETTER H WITH CARON
0220          ; NFKC_CF; 019E           # L&       LATIN CAPITAL LETTER N WITH LONG RIGHT LEG
0222          ; NFKC_CF; 0223           # L&       LATIN CAPITAL LETTER OU
0224          ; NFKC_CF; 0225           # L&       LATIN CAPITAL LETTER Z WITH HOOK
0226          ; NFKC_CF; 0227           # L&       LATIN CAPITAL LETTER A WITH DOT ABOVE
0228          ; NFKC_CF; 0229           # L&       LATIN CAPITAL LETTER E WITH CEDILLA
"%string.
Definition props_text_156 := "022A          ; NFKC_CF; 022B           # L&       LATIN CAPITAL LETTER O WITH DIAERESIS AND MACRON
022C          ; NFKC_CF; 022D           # L&       LATIN CAPITAL LETTER O WITH TILDE AND MACRON
022E          ; NFKC_CF; 022F           # L&       LATIN CAPITAL LETTER O WITH DOT ABOVE
0230          ; NFKC_CF; 0231           # L&       LATIN CAPITAL LETTER O WITH DOT ABOVE AND MACRON
0232          ; NFKC_CF; 0233           # L&       LATIN CAPITAL LETTER Y WITH MACRON
023A          ; NFKC_CF; 2C65           # L&       LATIN CAPITAL LETTER A WITH STROKE
023B          ; NFKC_CF; 023C           # L&       LATIN CAPITAL LETTER C WITH STROKE
023D          ; NFKC_CF; 019A           # L&       LATIN CAPITAL LETTER L WITH BAR
023E          ; NFKC_CF; 2C66           # L&       LATIN CAPITAL LETTER T WITH DIAGONAL STROKE
0241          ; NFKC_CF; 0242           # L&       LATIN CAPITAL LETTER GLOTTAL STOP
0243          ; NFKC_CF; 0180           # L&       LATIN CAPITAL LETTER B WITH STROKE
0244          ; NFKC_CF; 0289           # L&       LATIN CAPITAL LETTER U BAR
0245          ; NFKC_CF; 028C           # L&       LATIN CAPITAL LETTER TURNED V
0246          ; NFKC_CF; 0247           # L&       LATIN CAPITAL LETTER E WITH STROKE
0248          ; NFKC_CF; 0249           # L&       LATIN CAPITAL LETTER J WITH STROKE
024A          ; NFKC_CF; 024B           # L&       LATIN CAPITAL LETTER SMALL Q WITH HOOK TAIL
024C          ; NFKC_CF; 024D           # L&       LATIN CAPITAL LETTER R WITH STROKE
024E          ; NFKC_CF; 024F           # L&       LATIN CAPITAL LETTER Y WITH STROKE
02B0          ; NFKC_CF; 0068           # Lm       MODIFIER LETTER SMALL H
02B1          ; NFKC_CF; 0266           # Lm       MODIFIER LETTER SMALL H WITH HOOK
"%string.
Definition props_text_157 := "02B2          ; NFKC_CF; 006A           # Lm       MODIFIER LETTER SMALL J
02B3          ; NFKC_CF; 0072           # Lm       MODIFIER LETTER SMALL R
02B4          ; NFKC_CF; 0279           # Lm       MODIFIER LETTER SMALL TURNED R
02B5          ; NFKC_CF; 027B           # Lm       MODIFIER LETTER SMALL TURNED R WITH HOOK
02B6          ; NFKC_CF; 0281           # Lm       MODIFIER LETTER SMALL CAPITAL INVERTED R
02B7          ; NFKC_CF; 0077           # Lm       MODIFIER LETTER SMALL W
02B8          ; NFKC_CF; 0079           # Lm       MODIFIER LETTER SMALL Y
02D8          ; NFKC_CF; 0020 0306      # Sk       BREVE
02D9          ; NFKC_CF; 0020 0307      # Sk       DOT ABOVE
02DA          ; NFKC_CF; 0020 030A      # Sk       RING ABOVE
02DB          ; NFKC_CF; 0020 0328      # Sk       OGONEK
02DC          ; NFKC_CF; 0020 0303      # Sk       SMALL TILDE
02DD          ; NFKC_CF; 0020 030B      # Sk       DOUBLE ACUTE ACCENT
02E0          ; NFKC_CF; 0263           # Lm       MODIFIER LETTER SMALL GAMMA
02E1          ; NFKC_CF; 006C           # Lm       MODIFIER LETTER SMALL L
02E2          ; NFKC_CF; 0073           # Lm       MODIFIER LETTER SMALL S
02E3          ; NFKC_CF; 0078           # Lm       MODIFIER LETTER SMALL X
02E4          ; NFKC_CF; 0295           # Lm       MODIFIER LETTER SMALL REVERSED GLOTTAL STOP
0340          ; NFKC_CF; 0300           # Mn       COMBINING GRAVE TONE MARK
0341          ; NFKC_CF; 0301           # Mn       COMBINING ACUTE TONE MARK
"%string.
Definition props_text_158 := "0343          ; NFKC_CF; 0313           # Mn       COMBINING GREEK KORONIS
0344          ; NFKC_CF; 0308 0301      # Mn       COMBINING GREEK DIALYTIKA TONOS
0345          ; NFKC_CF; 03B9           # Mn       COMBINING GREEK YPOGEGRAMMENI
034F          ; NFKC_CF;                # Mn       COMBINING GRAPHEME JOINER
0370          ; NFKC_CF; 0371           # L&       GREEK CAPITAL LETTER HETA
0372          ; NFKC_CF; 0373           # L&       GREEK CAPITAL LETTER ARCHAIC SAMPI
0374          ; NFKC_CF; 02B9           # Lm       GREEK NUMERAL SIGN
0376          ; NFKC_CF; 0377           # L&       GREEK CAPITAL LETTER PAMPHYLIAN DIGAMMA
037A          ; NFKC_CF; 0020 03B9      # Lm       GREEK YPOGEGRAMMENI
037E          ; NFKC_CF; 003B           # Po       GREEK QUESTION MARK
037F          ; NFKC_CF; 03F3           # L&       GREEK CAPITAL LETTER YOT
0384          ; NFKC_CF; 0020 0301      # Sk       GREEK TONOS
0385          ; NFKC_CF; 0020 0308 0301 # Sk       GREEK DIALYTIKA TONOS
0386          ; NFKC_CF; 03AC           # L&       GREEK CAPITAL LETTER ALPHA WITH TONOS
0387          ; NFKC_CF; 00B7           # Po       GREEK ANO TELEIA
0388          ; NFKC_CF; 03AD           # L&       GREEK CAPITAL LETTER EPSILON WITH TONOS
0389          ; NFKC_CF; 03AE           # L&       GREEK CAPITAL LETTER ETA WITH TONOS
038A          ; NFKC_CF; 03AF           # L&       GREEK CAPITAL LETTER IOTA WITH TONOS
038C          ; NFKC_CF; 03CC           # L&       GREEK CAPITAL LETTER OMICRON WITH TONOS
038E          ; NFKC_CF; 03CD           # L&       GREEK CAPITAL LETTER UPSILON WITH TONOS
"%string.
Definition props_text_159 := "038F          ; NFKC_CF; 03CE           # L&       GREEK CAPITAL LETTER OMEGA WITH TONOS
0391          ; NFKC_CF; 03B1           # L&       GREEK CAPITAL LETTER ALPHA
0392          ; NFKC_CF; 03B2           # L&       GREEK CAPITAL LETTER BETA
0393          ; NFKC_CF; 03B3           # L&       GREEK CAPITAL LETTER GAMMA
0394          ; NFKC_CF; 03B4           # L&       GREEK CAPITAL LETTER DELTA
0395          ; NFKC_CF; 03B5           # L&       GREEK CAPITAL LETTER EPSILON
0396          ; NFKC_CF; 03B6           # L&       GREEK CAPITAL LETTER ZETA
0397          ; NFKC_CF; 03B7           # L&       GREEK CAPITAL LETTER ETA
0398          ; NFKC_CF; 03B8           # L&       GREEK CAPITAL LETTER THETA
0399          ; NFKC_CF; 03B9           # L&       GREEK CAPITAL LETTER IOTA
039A          ; NFKC_CF; 03BA           # L&       GREEK CAPITAL LETTER KAPPA
039B          ; NFKC_CF; 03BB           # L&       GREEK CAPITAL LETTER LAMDA
039C          ; NFKC_CF; 03BC           # L&       GREEK CAPITAL LETTER MU
039D          ; NFKC_CF; 03BD           # L&       GREEK CAPITAL LETTER NU
039E          ; NFKC_CF; 03BE           # L&       GREEK CAPITAL LETTER XI
039F          ; NFKC_CF; 03BF           # L&       GREEK CAPITAL LETTER OMICRON
03A0          ; NFKC_CF; 03C0           # L&       GREEK CAPITAL LETTER PI
03A1          ; NFKC_CF; 03C1           # L&       GREEK CAPITAL LETTER RHO
03A3          ; NFKC_CF; 03C3           # L&       GREEK CAPITAL LETTER SIGMA
03A4          ; NFKC_CF; 03C4           # L&       GREEK CAPITAL LETTER TAU
"%string.
Definition props_text_160 := "03A5          ; NFKC_CF; 03C5           # L&       GREEK CAPITAL LETTER UPSILON
03A6          ; NFKC_CF; 03C6           # L&       GREEK CAPITAL LETTER PHI
03A7          ; NFKC_CF; 03C7           # L&       GREEK CAPITAL LETTER CHI
03A8          ; NFKC_CF; 03C8           # L&       GREEK CAPITAL LETTER PSI
03A9          ; NFKC_CF; 03C9           # L&       GREEK CAPITAL LETTER OMEGA
03AA          ; NFKC_CF; 03CA           # L&       GREEK CAPITAL LETTER IOTA WITH DIALYTIKA
03AB          ; NFKC_CF; 03CB           # L&       GREEK CAPITAL LETTER UPSILON WITH DIALYTIKA
03C2          ; NFKC_CF; 03C3           # L&       GREEK SMALL LETTER FINAL SIGMA
03CF          ; NFKC_CF; 03D7           # L&       GREEK CAPITAL KAI SYMBOL
03D0          ; NFKC_CF; 03B2           # L&       GREEK BETA SYMBOL
03D1          ; NFKC_CF; 03B8           # L&       GREEK THETA SYMBOL
03D2          ; NFKC_CF; 03C5           # L&       GREEK UPSILON WITH HOOK SYMBOL
03D3          ; NFKC_CF; 03CD           # L&       GREEK UPSILON WITH ACUTE AND HOOK SYMBOL
03D4          ; NFKC_CF; 03CB           # L&       GREEK UPSILON WITH DIAERESIS AND HOOK SYMBOL
03D5          ; NFKC_CF; 03C6           # L&       GREEK PHI SYMBOL
03D6          ; NFKC_CF; 03C0           # L&       GREEK PI SYMBOL
03D8          ; NFKC_CF; 03D9           # L&       GREEK LETTER ARCHAIC KOPPA
03DA          ; NFKC_CF; 03DB           # L&       GREEK LETTER STIGMA
03DC          ; NFKC_CF; 03DD           # L&       GREEK LETTER DIGAMMA
03DE          ; NFKC_CF; 03DF           # L&       GREEK LETTER KOPPA
"%string.
Definition props_text_161 := "03E0          ; NFKC_CF; 03E1           # L&       GREEK LETTER SAMPI
03E2          ; NFKC_CF; 03E3           # L&       COPTIC CAPITAL LETTER SHEI
03E4          ; NFKC_CF; 03E5           # L&       COPTIC CAPITAL LETTER FEI
03E6          ; NFKC_CF; 03E7           # L&       COPTIC CAPITAL LETTER KHEI
03E8          ; NFKC_CF; 03E9           # L&       COPTIC CAPITAL LETTER HORI
03EA          ; NFKC_CF; 03EB           # L&       COPTIC CAPITAL LETTER GANGIA
03EC          ; NFKC_CF; 03ED           # L&       COPTIC CAPITAL LETTER SHIMA
03EE          ; NFKC_CF; 03EF           # L&       COPTIC CAPITAL LETTER DEI
03F0          ; NFKC_CF; 03BA           # L&       GREEK KAPPA SYMBOL
03F1          ; NFKC_CF; 03C1           # L&       GREEK RHO SYMBOL
03F2          ; NFKC_CF; 03C3           # L&       GREEK LUNATE SIGMA SYMBOL
03F4          ; NFKC_CF; 03B8           # L&       GREEK CAPITAL THETA SYMBOL
03F5          ; NFKC_CF; 03B5           # L&       GREEK LUNATE EPSILON SYMBOL
03F7          ; NFKC_CF; 03F8           # L&       GREEK CAPITAL LETTER SHO
03F9          ; NFKC_CF; 03C3           # L&       GREEK CAPITAL LUNATE SIGMA SYMBOL
03FA          ; NFKC_CF; 03FB           # L&       GREEK CAPITAL LETTER SAN
03FD          ; NFKC_CF; 037B           # L&       GREEK CAPITAL REVERSED LUNATE SIGMA SYMBOL
03FE          ; NFKC_CF; 037C           # L&       GREEK CAPITAL DOTTED LUNATE SIGMA SYMBOL
03FF          ; NFKC_CF; 037D           # L&       GREEK CAPITAL REVERSED DOTTED LUNATE SIGMA SYMBOL
0400          ; NFKC_CF; 0450           # L&       CYRILLIC CAPITAL LETTER IE WITH GRAVE
"%string.
Definition props_text_162 := "0401          ; NFKC_CF; 0451           # L&       CYRILLIC CAPITAL LETTER IO
0402          ; NFKC_CF; 0452           # L&       CYRILLIC CAPITAL LETTER DJE
0403          ; NFKC_CF; 0453           # L&       CYRILLIC CAPITAL LETTER GJE
0404          ; NFKC_CF; 0454           # L&       CYRILLIC CAPITAL LETTER UKRAINIAN IE
0405          ; NFKC_CF; 0455           # L&       CYRILLIC CAPITAL LETTER DZE
0406          ; NFKC_CF; 0456           # L&       CYRILLIC CAPITAL LETTER BYELORUSSIAN-UKRAINIAN I
0407          ; NFKC_CF; 0457           # L&       CYRILLIC CAPITAL LETTER YI
0408          ; NFKC_CF; 0458           # L&       CYRILLIC CAPITAL LETTER JE
0409          ; NFKC_CF; 0459           # L&       CYRILLIC CAPITAL LETTER LJE
040A          ; NFKC_CF; 045A           # L&       CYRILLIC CAPITAL LETTER NJE
040B          ; NFKC_CF; 045B           # L&       CYRILLIC CAPITAL LETTER TSHE
040C          ; NFKC_CF; 045C           # L&       CYRILLIC CAPITAL LETTER KJE
040D          ; NFKC_CF; 045D           # L&       CYRILLIC CAPITAL LETTER I WITH GRAVE
040E          ; NFKC_CF; 045E           # L&       CYRILLIC CAPITAL LETTER SHORT U
040F          ; NFKC_CF; 045F           # L&       CYRILLIC CAPITAL LETTER DZHE
0410          ; NFKC_CF; 0430           # L&       CYRILLIC CAPITAL LETTER A
0411          ; NFKC_CF; 0431           # L&       CYRILLIC CAPITAL LETTER BE
0412          ; NFKC_CF; 0432           # L&       CYRILLIC CAPITAL LETTER VE
0413          ; NFKC_CF; 0433           # L&       CYRILLIC CAPITAL LETTER GHE
0414          ; NFKC_CF; 0434           # L&       CYRILLIC CAPITAL LETTER DE
"%string.
Definition props_text_163 := "0415          ; NFKC_CF; 0435           # L&       CYRILLIC CAPITAL LETTER IE
0416          ; NFKC_CF; 0436           # L&       CYRILLIC CAPITAL LETTER ZHE
0417          ; NFKC_CF; 0437           # L&       CYRILLIC CAPITAL LETTER ZE
0418          ; NFKC_CF; 0438           # L&       CYRILLIC CAPITAL LETTER I
0419          ; NFKC_CF; 0439           # L&       CYRILLIC CAPITAL LETTER SHORT I
041A          ; NFKC_CF; 043A           # L&       CYRILLIC CAPITAL LETTER KA
041B          ; NFKC_CF; 043B           # L&       CYRILLIC CAPITAL LETTER EL
041C          ; NFKC_CF; 043C           # L&       CYRILLIC CAPITAL LETTER EM
041D          ; NFKC_CF; 043D           # L&       CYRILLIC CAPITAL LETTER EN
041E          ; NFKC_CF; 043E           # L&       CYRILLIC CAPITAL LETTER O
041F          ; NFKC_CF; 043F           # L&       CYRILLIC CAPITAL LETTER PE
0420          ; NFKC_CF; 0440           # L&       CYRILLIC CAPITAL LETTER ER
0421          ; NFKC_CF; 0441           # L&       CYRILLIC CAPITAL LETTER ES
0422          ; NFKC_CF; 0442           # L&       CYRILLIC CAPITAL LETTER TE
0423          ; NFKC_CF; 0443           # L&       CYRILLIC CAPITAL LETTER U
0424          ; NFKC_CF; 0444           # L&       CYRILLIC CAPITAL LETTER EF
0425          ; NFKC_CF; 0445           # L&       CYRILLIC CAPITAL LETTER HA
0426          ; NFKC_CF; 0446           # L&       CYRILLIC CAPITAL LETTER TSE
0427          ; NFKC_CF; 0447           # L&       CYRILLIC CAPITAL LETTER CHE
0428          ; NFKC_CF; 0448           # L&       CYRILLIC CAPITAL LETTER SHA
"%string.
Definition props_text_164 := "0429          ; NFKC_CF; 0449           # L&       CYRILLIC CAPITAL LETTER SHCHA
042A          ; NFKC_CF; 044A           # L&       CYRILLIC CAPITAL LETTER HARD SIGN
042B          ; NFKC_CF; 044B           # L&       CYRILLIC CAPITAL LETTER YERU
042C          ; NFKC_CF; 044C           # L&       CYRILLIC CAPITAL LETTER SOFT SIGN
042D          ; NFKC_CF; 044D           # L&       CYRILLIC CAPITAL LETTER E
042E          ; NFKC_CF; 044E           # L&       CYRILLIC CAPITAL LETTER YU
042F          ; NFKC_CF; 044F           # L&       CYRILLIC CAPITAL LETTER YA
0460          ; NFKC_CF; 0461           # L&       CYRILLIC CAPITAL LETTER OMEGA
0462          ; NFKC_CF; 0463           # L&       CYRILLIC CAPITAL LETTER YAT
0464          ; NFKC_CF; 0465           # L&       CYRILLIC CAPITAL LETTER IOTIFIED E
0466          ; NFKC_CF; 0467           # L&       CYRILLIC CAPITAL LETTER LITTLE YUS
0468          ; NFKC_CF; 0469           # L&       CYRILLIC CAPITAL LETTER IOTIFIED LITTLE YUS
046A          ; NFKC_CF; 046B           # L&       CYRILLIC CAPITAL LETTER BIG YUS
046C          ; NFKC_CF; 046D           # L&       CYRILLIC CAPITAL LETTER IOTIFIED BIG YUS
046E          ; NFKC_CF; 046F           # L&       CYRILLIC CAPITAL LETTER KSI
0470          ; NFKC_CF; 0471           # L&       CYRILLIC CAPITAL LETTER PSI
0472          ; NFKC_CF; 0473           # L&       CYRILLIC CAPITAL LETTER FITA
0474          ; NFKC_CF; 0475           # L&       CYRILLIC CAPITAL LETTER IZHITSA
0476          ; NFKC_CF; 0477           # L&       CYRILLIC CAPITAL LETTER IZHITSA WITH DOUBLE GRAVE ACCENT
0478          ; NFKC_CF; 0479           # L&       CYRILLIC CAPITAL LETTER UK
"%string.
Definition props_text_165 := "047A          ; NFKC_CF; 047B           # L&       CYRILLIC CAPITAL LETTER ROUND OMEGA
047C          ; NFKC_CF; 047D           # L&       CYRILLIC CAPITAL LETTER OMEGA WITH TITLO
047E          ; NFKC_CF; 047F           # L&       CYRILLIC CAPITAL LETTER OT
0480          ; NFKC_CF; 0481           # L&       CYRILLIC CAPITAL LETTER KOPPA
048A          ; NFKC_CF; 048B           # L&       CYRILLIC CAPITAL LETTER SHORT I WITH TAIL
048C          ; NFKC_CF; 048D           # L&       CYRILLIC CAPITAL LETTER SEMISOFT SIGN
048E          ; NFKC_CF; 048F           # L&       CYRILLIC CAPITAL LETTER ER WITH TICK
0490          ; NFKC_CF; 0491           # L&       CYRILLIC CAPITAL LETTER GHE WITH UPTURN
0492          ; NFKC_CF; 0493           # L&       CYRILLIC CAPITAL LETTER GHE WITH STROKE
0494          ; NFKC_CF; 0495           # L&       CYRILLIC CAPITAL LETTER GHE WITH MIDDLE HOOK
0496          ; NFKC_CF; 0497           # L&       CYRILLIC CAPITAL LETTER ZHE WITH DESCENDER
0498          ; NFKC_CF; 0499           # L&       CYRILLIC CAPITAL LETTER ZE WITH DESCENDER
049A          ; NFKC_CF; 049B           # L&       CYRILLIC CAPITAL LETTER KA WITH DESCENDER
049C          ; NFKC_CF; 049D           # L&       CYRILLIC CAPITAL LETTER KA WITH VERTICAL STROKE
049E          ; NFKC_CF; 049F           # L&       CYRILLIC CAPITAL LETTER KA WITH STROKE
04A0          ; NFKC_CF; 04A1           # L&       CYRILLIC CAPITAL LETTER BASHKIR KA
04A2          ; NFKC_CF; 04A3           # L&       CYRILLIC CAPITAL LETTER EN WITH DESCENDER
04A4          ; NFKC_CF; 04A5           # L&       CYRILLIC CAPITAL LIGATURE EN GHE
04A6          ; NFKC_CF; 04A7           # L&       CYRILLIC CAPITAL LETTER PE WITH MIDDLE HOOK
04A8          ; NFKC_CF; 04A9           # L&       CYRILLIC CAPITAL LETTER ABKHASIAN HA
"%string.
Definition props_text_166 := "04AA          ; NFKC_CF; 04AB           # L&       CYRILLIC CAPITAL LETTER ES WITH DESCENDER
04AC          ; NFKC_CF; 04AD           # L&       CYRILLIC CAPITAL LETTER TE WITH DESCENDER
04AE          ; NFKC_CF; 04AF           # L&       CYRILLIC CAPITAL LETTER STRAIGHT U
04B0          ; NFKC_CF; 04B1           # L&       CYRILLIC CAPITAL LETTER STRAIGHT U WITH STROKE
04B2          ; NFKC_CF; 04B3           # L&       CYRILLIC CAPITAL LETTER HA WITH DESCENDER
04B4          ; NFKC_CF; 04B5           # L&       CYRILLIC CAPITAL LIGATURE TE TSE
04B6          ; NFKC_CF; 04B7           # L&       CYRILLIC CAPITAL LETTER CHE WITH DESCENDER
04B8          ; NFKC_CF; 04B9           # L&       CYRILLIC CAPITAL LETTER CHE WITH VERTICAL STROKE
04BA          ; NFKC_CF; 04BB           # L&       CYRILLIC CAPITAL LETTER SHHA
04BC          ; NFKC_CF; 04BD           # L&       CYRILLIC CAPITAL LETTER ABKHASIAN CHE
04BE          ; NFKC_CF; 04BF           # L&       CYRILLIC CAPITAL LETTER ABKHASIAN CHE WITH DESCENDER
04C0          ; NFKC_CF; 04CF           # L&       CYRILLIC LETTER PALOCHKA
04C1          ; NFKC_CF; 04C2           # L&       CYRILLIC CAPITAL LETTER ZHE WITH BREVE
04C3          ; NFKC_CF; 04C4           # L&       CYRILLIC CAPITAL LETTER KA WITH HOOK
04C5          ; NFKC_CF; 04C6           # L&       CYRILLIC CAPITAL LETTER EL WITH TAIL
04C7          ; NFKC_CF; 04C8           # L&       CYRILLIC CAPITAL LETTER EN WITH HOOK
04C9          ; NFKC_CF; 04CA           # L&       CYRILLIC CAPITAL LETTER EN WITH TAIL
04CB          ; NFKC_CF; 04CC           # L&       CYRILLIC CAPITAL LETTER KHAKASSIAN CHE
04CD          ; NFKC_CF; 04CE           # L&       CYRILLIC CAPITAL LETTER EM WITH TAIL
04D0          ; NFKC_CF; 04D1           # L&       CYRILLIC CAPITAL LETTER A WITH BREVE
"%string.
Definition props_text_167 := "04D2          ; NFKC_CF; 04D3           # L&       CYRILLIC CAPITAL LETTER A WITH DIAERESIS
04D4          ; NFKC_CF; 04D5           # L&       CYRILLIC CAPITAL LIGATURE A IE
04D6          ; NFKC_CF; 04D7           # L&       CYRILLIC CAPITAL LETTER IE WITH BREVE
04D8          ; NFKC_CF; 04D9           # L&       CYRILLIC CAPITAL LETTER SCHWA
04DA          ; NFKC_CF; 04DB           # L&       CYRILLIC CAPITAL LETTER SCHWA WITH DIAERESIS
04DC          ; NFKC_CF; 04DD           # L&       CYRILLIC CAPITAL LETTER ZHE WITH DIAERESIS
04DE          ; NFKC_CF; 04DF           # L&       CYRILLIC CAPITAL LETTER ZE WITH DIAERESIS
04E0          ; NFKC_CF; 04E1           # L&       CYRILLIC CAPITAL LETTER ABKHASIAN DZE
04E2          ; NFKC_CF; 04E3           # L&       CYRILLIC CAPITAL LETTER I WITH MACRON
04E4          ; NFKC_CF; 04E5           # L&       CYRILLIC CAPITAL LETTER I WITH DIAERESIS
04E6          ; NFKC_CF; 04E7           # L&       CYRILLIC CAPITAL LETTER O WITH DIAERESIS
04E8          ; NFKC_CF; 04E9           # L&       CYRILLIC CAPITAL LETTER BARRED O
04EA          ; NFKC_CF; 04EB           # L&       CYRILLIC CAPITAL LETTER BARRED O WITH DIAERESIS
04EC          ; NFKC_CF; 04ED           # L&       CYRILLIC CAPITAL LETTER E WITH DIAERESIS
04EE          ; NFKC_CF; 04EF           # L&       CYRILLIC CAPITAL LETTER U WITH MACRON
04F0          ; NFKC_CF; 04F1           # L&       CYRILLIC CAPITAL LETTER U WITH DIAERESIS
04F2          ; NFKC_CF; 04F3           # L&       CYRILLIC CAPITAL LETTER U WITH DOUBLE ACUTE
04F4          ; NFKC_CF; 04F5           # L&       CYRILLIC CAPITAL LETTER CHE WITH DIAERESIS
04F6          ; NFKC_CF; 04F7           # L&       CYRILLIC CAPITAL LETTER GHE WITH DESCENDER
04F8          ; NFKC_CF; 04F9           # L&       CYRILLIC CAPITAL LETTER YERU WITH DIAERESIS
"%string.
Definition props_text_168 := "04FA          ; NFKC_CF; 04FB           # L&       CYRILLIC CAPITAL LETTER GHE WITH STROKE AND HOOK
04FC          ; NFKC_CF; 04FD           # L&       CYRILLIC CAPITAL LETTER HA WITH HOOK
04FE          ; NFKC_CF; 04FF           # L&       CYRILLIC CAPITAL LETTER HA WITH STROKE
0500          ; NFKC_CF; 0501           # L&       CYRILLIC CAPITAL LETTER KOMI DE
0502          ; NFKC_CF; 0503           # L&       CYRILLIC CAPITAL LETTER KOMI DJE
0504          ; NFKC_CF; 0505           # L&       CYRILLIC CAPITAL LETTER KOMI ZJE
0506          ; NFKC_CF; 0507           # L&       CYRILLIC CAPITAL LETTER KOMI DZJE
0508          ; NFKC_CF; 0509           # L&       CYRILLIC CAPITAL LETTER KOMI LJE
050A          ; NFKC_CF; 050B           # L&       CYRILLIC CAPITAL LETTER KOMI NJE
050C          ; NFKC_CF; 050D           # L&       CYRILLIC CAPITAL LETTER KOMI SJE
050E          ; NFKC_CF; 050F           # L&       CYRILLIC CAPITAL LETTER KOMI TJE
0510          ; NFKC_CF; 0511           # L&       CYRILLIC CAPITAL LETTER REVERSED ZE
0512          ; NFKC_CF; 0513           # L&       CYRILLIC CAPITAL LETTER EL WITH HOOK
0514          ; NFKC_CF; 0515           # L&       CYRILLIC CAPITAL LETTER LHA
0516          ; NFKC_CF; 0517           # L&       CYRILLIC CAPITAL LETTER RHA
0518          ; NFKC_CF; 0519           # L&       CYRILLIC CAPITAL LETTER YAE
051A          ; NFKC_CF; 051B           # L&       CYRILLIC CAPITAL LETTER QA
051C          ; NFKC_CF; 051D           # L&       CYRILLIC CAPITAL LETTER WE
051E          ; NFKC_CF; 051F           # L&       CYRILLIC CAPITAL LETTER ALEUT KA
0520          ; NFKC_CF; 0521           # L&       CYRILLIC CAPITAL LETTER EL WITH MIDDLE HOOK
"%string.
Definition props_text_169 := "0522          ; NFKC_CF; 0523           # L&       CYRILLIC CAPITAL LETTER EN WITH MIDDLE HOOK
0524          ; NFKC_CF; 0525           # L&       CYRILLIC CAPITAL LETTER PE WITH DESCENDER
0526          ; NFKC_CF; 0527           # L&       CYRILLIC CAPITAL LETTER SHHA WITH DESCENDER
0528          ; NFKC_CF; 0529           # L&       CYRILLIC CAPITAL LETTER EN WITH LEFT HOOK
052A          ; NFKC_CF; 052B           # L&       CYRILLIC CAPITAL LETTER DZZHE
052C          ; NFKC_CF; 052D           # L&       CYRILLIC CAPITAL LETTER DCHE
052E          ; NFKC_CF; 052F           # L&       CYRILLIC CAPITAL LETTER EL WITH DESCENDER
0531          ; NFKC_CF; 0561           # L&       ARMENIAN CAPITAL LETTER AYB
0532          ; NFKC_CF; 0562           # L&       ARMENIAN CAPITAL LETTER BEN
0533          ; NFKC_CF; 0563           # L&       ARMENIAN CAPITAL LETTER GIM
0534          ; NFKC_CF; 0564           # L&       ARMENIAN CAPITAL LETTER DA
0535          ; NFKC_CF; 0565           # L&       ARMENIAN CAPITAL LETTER ECH
0536          ; NFKC_CF; 0566           # L&       ARMENIAN CAPITAL LETTER ZA
0537          ; NFKC_CF; 0567           # L&       ARMENIAN CAPITAL LETTER EH
0538          ; NFKC_CF; 0568           # L&       ARMENIAN CAPITAL LETTER ET
0539          ; NFKC_CF; 0569           # L&       ARMENIAN CAPITAL LETTER TO
053A          ; NFKC_CF; 056A           # L&       ARMENIAN CAPITAL LETTER ZHE
053B          ; NFKC_CF; 056B           # L&       ARMENIAN CAPITAL LETTER INI
053C          ; NFKC_CF; 056C           # L&       ARMENIAN CAPITAL LETTER LIWN
053D          ; NFKC_CF; 056D           # L&       ARMENIAN CAPITAL LETTER XEH
"%string.
Definition props_text_170 := "053E          ; NFKC_CF; 056E           # L&       ARMENIAN CAPITAL LETTER CA
053F          ; NFKC_CF; 056F           # L&       ARMENIAN CAPITAL LETTER KEN
0540          ; NFKC_CF; 0570           # L&       ARMENIAN CAPITAL LETTER HO
0541          ; NFKC_CF; 0571           # L&       ARMENIAN CAPITAL LETTER JA
0542          ; NFKC_CF; 0572           # L&       ARMENIAN CAPITAL LETTER GHAD
0543          ; NFKC_CF; 0573           # L&       ARMENIAN CAPITAL LETTER CHEH
0544          ; NFKC_CF; 0574           # L&       ARMENIAN CAPITAL LETTER MEN
0545          ; NFKC_CF; 0575           # L&       ARMENIAN CAPITAL LETTER YI
0546          ; NFKC_CF; 0576           # L&       ARMENIAN CAPITAL LETTER NOW
0547          ; NFKC_CF; 0577           # L&       ARMENIAN CAPITAL LETTER SHA
0548          ; NFKC_CF; 0578           # L&       ARMENIAN CAPITAL LETTER VO
0549          ; NFKC_CF; 0579           # L&       ARMENIAN CAPITAL LETTER CHA
054A          ; NFKC_CF; 057A           # L&       ARMENIAN CAPITAL LETTER PEH
054B          ; NFKC_CF; 057B           # L&       ARMENIAN CAPITAL LETTER JHEH
054C          ; NFKC_CF; 057C           # L&       ARMENIAN CAPITAL LETTER RA
054D          ; NFKC_CF; 057D           # L&       ARMENIAN CAPITAL LETTER SEH
054E          ; NFKC_CF; 057E           # L&       ARMENIAN CAPITAL LETTER VEW
054F          ; NFKC_CF; 057F           # L&       ARMENIAN CAPITAL LETTER TIWN
0550          ; NFKC_CF; 0580           # L&       ARMENIAN CAPITAL LETTER REH
0551          ; NFKC_CF; 0581           # L&       ARMENIAN CAPITAL LETTER CO
"%string.
Definition props_text_171 := "0552          ; NFKC_CF; 0582           # L&       ARMENIAN CAPITAL LETTER YIWN
0553          ; NFKC_CF; 0583           # L&       ARMENIAN CAPITAL LETTER PIWR
0554          ; NFKC_CF; 0584           # L&       ARMENIAN CAPITAL LETTER KEH
0555          ; NFKC_CF; 0585           # L&       ARMENIAN CAPITAL LETTER OH
0556          ; NFKC_CF; 0586           # L&       ARMENIAN CAPITAL LETTER FEH
0587          ; NFKC_CF; 0565 0582      # L&       ARMENIAN SMALL LIGATURE ECH YIWN
061C          ; NFKC_CF;                # Cf       ARABIC LETTER MARK
0675          ; NFKC_CF; 0627 0674      # Lo       ARABIC LETTER HIGH HAMZA ALEF
0676          ; NFKC_CF; 0648 0674      # Lo       ARABIC LETTER HIGH HAMZA WAW
0677          ; NFKC_CF; 06C7 0674      # Lo       ARABIC LETTER U WITH HAMZA ABOVE
0678          ; NFKC_CF; 064A 0674      # Lo       ARABIC LETTER HIGH HAMZA YEH
0958          ; NFKC_CF; 0915 093C      # Lo       DEVANAGARI LETTER QA
0959          ; NFKC_CF; 0916 093C      # Lo       DEVANAGARI LETTER KHHA
095A          ; NFKC_CF; 0917 093C      # Lo       DEVANAGARI LETTER GHHA
095B          ; NFKC_CF; 091C 093C      # Lo       DEVANAGARI LETTER ZA
095C          ; NFKC_CF; 0921 093C      # Lo       DEVANAGARI LETTER DDDHA
095D          ; NFKC_CF; 0922 093C      # Lo       DEVANAGARI LETTER RHA
095E          ; NFKC_CF; 092B 093C      # Lo       DEVANAGARI LETTER FA
095F          ; NFKC_CF; 092F 093C      # Lo       DEVANAGARI LETTER YYA
09DC          ; NFKC_CF; 09A1 09BC      # Lo       BENGALI LETTER RRA
"%string.
Definition props_text_172 := "09DD          ; NFKC_CF; 09A2 09BC      # Lo       BENGALI LETTER RHA
09DF          ; NFKC_CF; 09AF 09BC      # Lo       BENGALI LETTER YYA
0A33          ; NFKC_CF; 0A32 0A3C      # Lo       GURMUKHI LETTER LLA
0A36          ; NFKC_CF; 0A38 0A3C      # Lo       GURMUKHI LETTER SHA
0A59          ; NFKC_CF; 0A16 0A3C      # Lo       GURMUKHI LETTER KHHA
0A5A          ; NFKC_CF; 0A17 0A3C      # Lo       GURMUKHI LETTER GHHA
0A5B          ; NFKC_CF; 0A1C 0A3C      # Lo       GURMUKHI LETTER ZA
0A5E          ; NFKC_CF; 0A2B 0A3C      # Lo       GURMUKHI LETTER FA
0B5C          ; NFKC_CF; 0B21 0B3C      # Lo       ORIYA LETTER RRA
0B5D          ; NFKC_CF; 0B22 0B3C      # Lo       ORIYA LETTER RHA
0E33          ; NFKC_CF; 0E4D 0E32      # Lo       THAI CHARACTER SARA AM
0EB3          ; NFKC_CF; 0ECD 0EB2      # Lo       LAO VOWEL SIGN AM
0EDC          ; NFKC_CF; 0EAB 0E99      # Lo       LAO HO NO
0EDD          ; NFKC_CF; 0EAB 0EA1      # Lo       LAO HO MO
0F0C          ; NFKC_CF; 0F0B           # Po       TIBETAN MARK DELIMITER TSHEG BSTAR
0F43          ; NFKC_CF; 0F42 0FB7      # Lo       TIBETAN LETTER GHA
0F4D          ; NFKC_CF; 0F4C 0FB7      # Lo       TIBETAN LETTER DDHA
0F52          ; NFKC_CF; 0F51 0FB7      # Lo       TIBETAN LETTER DHA
0F57          ; NFKC_CF; 0F56 0FB7      # Lo       TIBETAN LETTER BHA
0F5C          ; NFKC_CF; 0F5B 0FB7      # Lo       TIBETAN LETTER DZHA
"%string.
Definition props_text_173 := "0F69          ; NFKC_CF; 0F40 0FB5      # Lo       TIBETAN LETTER KSSA
0F73          ; NFKC_CF; 0F71 0F72      # Mn       TIBETAN VOWEL SIGN II
0F75          ; NFKC_CF; 0F71 0F74      # Mn       TIBETAN VOWEL SIGN UU
0F76          ; NFKC_CF; 0FB2 0F80      # Mn       TIBETAN VOWEL SIGN VOCALIC R
0F77          ; NFKC_CF; 0FB2 0F71 0F80 # Mn       TIBETAN VOWEL SIGN VOCALIC RR
0F78          ; NFKC_CF; 0FB3 0F80      # Mn       TIBETAN VOWEL SIGN VOCALIC L
0F79          ; NFKC_CF; 0FB3 0F71 0F80 # Mn       TIBETAN VOWEL SIGN VOCALIC LL
0F81          ; NFKC_CF; 0F71 0F80      # Mn       TIBETAN VOWEL SIGN REVERSED II
0F93          ; NFKC_CF; 0F92 0FB7      # Mn       TIBETAN SUBJOINED LETTER GHA
0F9D          ; NFKC_CF; 0F9C 0FB7      # Mn       TIBETAN SUBJOINED LETTER DDHA
0FA2          ; NFKC_CF; 0FA1 0FB7      # Mn       TIBETAN SUBJOINED LETTER DHA
0FA7          ; NFKC_CF; 0FA6 0FB7      # Mn       TIBETAN SUBJOINED LETTER BHA
0FAC          ; NFKC_CF; 0FAB 0FB7      # Mn       TIBETAN SUBJOINED LETTER DZHA
0FB9          ; NFKC_CF; 0F90 0FB5      # Mn       TIBETAN SUBJOINED LETTER KSSA
10A0          ; NFKC_CF; 2D00           # L&       GEORGIAN CAPITAL LETTER AN
10A1          ; NFKC_CF; 2D01           # L&       GEORGIAN CAPITAL LETTER BAN
10A2          ; NFKC_CF; 2D02           # L&       GEORGIAN CAPITAL LETTER GAN
10A3          ; NFKC_CF; 2D03           # L&       GEORGIAN CAPITAL LETTER DON
10A4          ; NFKC_CF; 2D04           # L&       GEORGIAN CAPITAL LETTER EN
10A5          ; NFKC_CF; 2D05           # L&       GEORGIAN CAPITAL LETTER VIN
"%string.
Definition props_text_174 := "10A6          ; NFKC_CF; 2D06           # L&       GEORGIAN CAPITAL LETTER ZEN
10A7          ; NFKC_CF; 2D07           # L&       GEORGIAN CAPITAL LETTER TAN
10A8          ; NFKC_CF; 2D08           # L&       GEORGIAN CAPITAL LETTER IN
10A9          ; NFKC_CF; 2D09           # L&       GEORGIAN CAPITAL LETTER KAN
10AA          ; NFKC_CF; 2D0A           # L&       GEORGIAN CAPITAL LETTER LAS
10AB          ; NFKC_CF; 2D0B           # L&       GEORGIAN CAPITAL LETTER MAN
10AC          ; NFKC_CF; 2D0C           # L&       GEORGIAN CAPITAL LETTER NAR
10AD          ; NFKC_CF; 2D0D           # L&       GEORGIAN CAPITAL LETTER ON
10AE          ; NFKC_CF; 2D0E           # L&       GEORGIAN CAPITAL LETTER PAR
10AF          ; NFKC_CF; 2D0F           # L&       GEORGIAN CAPITAL LETTER ZHAR
10B0          ; NFKC_CF; 2D10           # L&       GEORGIAN CAPITAL LETTER RAE
10B1          ; NFKC_CF; 2D11           # L&       GEORGIAN CAPITAL LETTER SAN
10B2          ; NFKC_CF; 2D12           # L&       GEORGIAN CAPITAL LETTER TAR
10B3          ; NFKC_CF; 2D13           # L&       GEORGIAN CAPITAL LETTER UN
10B4          ; NFKC_CF; 2D14           # L&       GEORGIAN CAPITAL LETTER PHAR
10B5          ; NFKC_CF; 2D15           # L&       GEORGIAN CAPITAL LETTER KHAR
10B6          ; NFKC_CF; 2D16           # L&       GEORGIAN CAPITAL LETTER GHAN
10B7          ; NFKC_CF; 2D17           # L&       GEORGIAN CAPITAL LETTER QAR
10B8          ; NFKC_CF; 2D18           # L&       GEORGIAN CAPITAL LETTER SHIN
10B9          ; NFKC_CF; 2D19           # L&       GEORGIAN CAPITAL LETTER CHIN
"%string.
Definition props_text_175 := "10BA          ; NFKC_CF; 2D1A           # L&       GEORGIAN CAPITAL LETTER CAN
10BB          ; NFKC_CF; 2D1B           # L&       GEORGIAN CAPITAL LETTER JIL
10BC          ; NFKC_CF; 2D1C           # L&       GEORGIAN CAPITAL LETTER CIL
10BD          ; NFKC_CF; 2D1D           # L&       GEORGIAN CAPITAL LETTER CHAR
10BE          ; NFKC_CF; 2D1E           # L&       GEORGIAN CAPITAL LETTER XAN
10BF          ; NFKC_CF; 2D1F           # L&       GEORGIAN CAPITAL LETTER JHAN
10C0          ; NFKC_CF; 2D20           # L&       GEORGIAN CAPITAL LETTER HAE
10C1          ; NFKC_CF; 2D21           # L&       GEORGIAN CAPITAL LETTER HE
10C2          ; NFKC_CF; 2D22           # L&       GEORGIAN CAPITAL LETTER HIE
10C3          ; NFKC_CF; 2D23           # L&       GEORGIAN CAPITAL LETTER WE
10C4          ; NFKC_CF; 2D24           # L&       GEORGIAN CAPITAL LETTER HAR
10C5          ; NFKC_CF; 2D25           # L&       GEORGIAN CAPITAL LETTER HOE
10C7          ; NFKC_CF; 2D27           # L&       GEORGIAN CAPITAL LETTER YN
10CD          ; NFKC_CF; 2D2D           # L&       GEORGIAN CAPITAL LETTER AEN
10FC          ; NFKC_CF; 10DC           # Lm       MODIFIER LETTER GEORGIAN NAR
115F..1160    ; NFKC_CF;                # Lo   [2] HANGUL CHOSEONG FILLER..HANGUL JUNGSEONG FILLER
13F8          ; NFKC_CF; 13F0           # L&       CHEROKEE SMALL LETTER YE
13F9          ; NFKC_CF; 13F1           # L&       CHEROKEE SMALL LETTER YI
13FA          ; NFKC_CF; 13F2           # L&       CHEROKEE SMALL LETTER YO
13FB          ; NFKC_CF; 13F3           # L&       CHEROKEE SMALL LETTER YU
"%string.
Definition props_text_176 := "13FC          ; NFKC_CF; 13F4           # L&       CHEROKEE SMALL LETTER YV
13FD          ; NFKC_CF; 13F5           # L&       CHEROKEE SMALL LETTER MV
17B4..17B5    ; NFKC_CF;                # Mn   [2] KHMER VOWEL INHERENT AQ..KHMER VOWEL INHERENT AA
180B..180D    ; NFKC_CF;                # Mn   [3] MONGOLIAN FREE VARIATION SELECTOR ONE..MONGOLIAN FREE VARIATION SELECTOR THREE
180E          ; NFKC_CF;                # Cf       MONGOLIAN VOWEL SEPARATOR
1C80          ; NFKC_CF; 0432           # L&       CYRILLIC SMALL LETTER ROUNDED VE
1C81          ; NFKC_CF; 0434           # L&       CYRILLIC SMALL LETTER LONG-LEGGED DE
1C82          ; NFKC_CF; 043E           # L&       CYRILLIC SMALL LETTER NARROW O
1C83          ; NFKC_CF; 0441           # L&       CYRILLIC SMALL LETTER WIDE ES
1C84..1C85    ; NFKC_CF; 0442           # L&   [2] CYRILLIC SMALL LETTER TALL TE..CYRILLIC SMALL LETTER THREE-LEGGED TE
1C86          ; NFKC_CF; 044A           # L&       CYRILLIC SMALL LETTER TALL HARD SIGN
1C87          ; NFKC_CF; 0463           # L&       CYRILLIC SMALL LETTER TALL YAT
1C88          ; NFKC_CF; A64B           # L&       CYRILLIC SMALL LETTER UNBLENDED UK
1C90          ; NFKC_CF; 10D0           # L&       GEORGIAN MTAVRULI CAPITAL LETTER AN
1C91          ; NFKC_CF; 10D1           # L&       GEORGIAN MTAVRULI CAPITAL LETTER BAN
1C92          ; NFKC_CF; 10D2           # L&       GEORGIAN MTAVRULI CAPITAL LETTER GAN
1C93          ; NFKC_CF; 10D3           # L&       GEORGIAN MTAVRULI CAPITAL LETTER DON
1C94          ; NFKC_CF; 10D4           # L&       GEORGIAN MTAVRULI CAPITAL LETTER EN
1C95          ; NFKC_CF; 10D5           # L&       GEORGIAN MTAVRULI CAPITAL LETTER VIN
1C96          ; NFKC_CF; 10D6           # L&       GEORGIAN MTAVRULI CAPITAL LETTER ZEN
"%string.
Definition props_text_177 := "1C97          ; NFKC_CF; 10D7           # L&       GEORGIAN MTAVRULI CAPITAL LETTER TAN
1C98          ; NFKC_CF; 10D8           # L&       GEORGIAN MTAVRULI CAPITAL LETTER IN
1C99          ; NFKC_CF; 10D9           # L&       GEORGIAN MTAVRULI CAPITAL LETTER KAN
1C9A          ; NFKC_CF; 10DA           # L&       GEORGIAN MTAVRULI CAPITAL LETTER LAS
1C9B          ; NFKC_CF; 10DB           # L&       GEORGIAN MTAVRULI CAPITAL LETTER MAN
1C9C          ; NFKC_CF; 10DC           # L&       GEORGIAN MTAVRULI CAPITAL LETTER NAR
1C9D          ; NFKC_CF; 10DD           # L&       GEORGIAN MTAVRULI CAPITAL LETTER ON
1C9E          ; NFKC_CF; 10DE           # L&       GEORGIAN MTAVRULI CAPITAL LETTER PAR
1C9F          ; NFKC_CF; 10DF           # L&       GEORGIAN MTAVRULI CAPITAL LETTER ZHAR
1CA0          ; NFKC_CF; 10E0           # L&       GEORGIAN MTAVRULI CAPITAL LETTER RAE
1CA1          ; NFKC_CF; 10E1           # L&       GEORGIAN MTAVRULI CAPITAL LETTER SAN
1CA2          ; NFKC_CF; 10E2           # L&       GEORGIAN MTAVRULI CAPITAL LETTER TAR
1CA3          ; NFKC_CF; 10E3           # L&       GEORGIAN MTAVRULI CAPITAL LETTER UN
1CA4          ; NFKC_CF; 10E4           # L&       GEORGIAN MTAVRULI CAPITAL LETTER PHAR
1CA5          ; NFKC_CF; 10E5           # L&       GEORGIAN MTAVRULI CAPITAL LETTER KHAR
1CA6          ; NFKC_CF; 10E6           # L&       GEORGIAN MTAVRULI CAPITAL LETTER GHAN
1CA7          ; NFKC_CF; 10E7           # L&       GEORGIAN MTAVRULI CAPITAL LETTER QAR
1CA8          ; NFKC_CF; 10E8           # L&       GEORGIAN MTAVRULI CAPITAL LETTER SHIN
1CA9          ; NFKC_CF; 10E9           # L&       GEORGIAN MTAVRULI CAPITAL LETTER CHIN
1CAA          ; NFKC_CF; 10EA           # L&       GEORGIAN MTAVRULI CAPITAL LETTER CAN
"%string.
Definition props_text_178 := "1CAB          ; NFKC_CF; 10EB           # L&       GEORGIAN MTAVRULI CAPITAL LETTER JIL
1CAC          ; NFKC_CF; 10EC           # L&       GEORGIAN MTAVRULI CAPITAL LETTER CIL
1CAD          ; NFKC_CF; 10ED           # L&       GEORGIAN MTAVRULI CAPITAL LETTER CHAR
1CAE          ; NFKC_CF; 10EE           # L&       GEORGIAN MTAVRULI CAPITAL LETTER XAN
1CAF          ; NFKC_CF; 10EF           # L&       GEORGIAN MTAVRULI CAPITAL LETTER JHAN
1CB0          ; NFKC_CF; 10F0           # L&       GEORGIAN MTAVRULI CAPITAL LETTER HAE
1CB1          ; NFKC_CF; 10F1           # L&       GEORGIAN MTAVRULI CAPITAL LETTER HE
1CB2          ; NFKC_CF; 10F2           # L&       GEORGIAN MTAVRULI CAPITAL LETTER HIE
1CB3          ; NFKC_CF; 10F3           # L&       GEORGIAN MTAVRULI CAPITAL LETTER WE
1CB4          ; NFKC_CF; 10F4           # L&       GEORGIAN MTAVRULI CAPITAL LETTER HAR
1CB5          ; NFKC_CF; 10F5           # L&       GEORGIAN MTAVRULI CAPITAL LETTER HOE
1CB6          ; NFKC_CF; 10F6           # L&       GEORGIAN MTAVRULI CAPITAL LETTER FI
1CB7          ; NFKC_CF; 10F7           # L&       GEORGIAN MTAVRULI CAPITAL LETTER YN
1CB8          ; NFKC_CF; 10F8           # L&       GEORGIAN MTAVRULI CAPITAL LETTER ELIFI
1CB9          ; NFKC_CF; 10F9           # L&       GEORGIAN MTAVRULI CAPITAL LETTER TURNED GAN
1CBA          ; NFKC_CF; 10FA           # L&       GEORGIAN MTAVRULI CAPITAL LETTER AIN
1CBD          ; NFKC_CF; 10FD           # L&       GEORGIAN MTAVRULI CAPITAL LETTER AEN
1CBE          ; NFKC_CF; 10FE           # L&       GEORGIAN MTAVRULI CAPITAL LETTER HARD SIGN
1CBF          ; NFKC_CF; 10FF           # L&       GEORGIAN MTAVRULI CAPITAL LETTER LABIAL SIGN
1D2C          ; NFKC_CF; 0061           # Lm       MODIFIER LETTER CAPITAL A
"%string.
Definition props_text_179 := "1D2D          ; NFKC_CF; 00E6           # Lm       MODIFIER LETTER CAPITAL AE
1D2E          ; NFKC_CF; 0062           # Lm       MODIFIER LETTER CAPITAL B
1D30          ; NFKC_CF; 0064           # Lm       MODIFIER LETTER CAPITAL D
1D31          ; NFKC_CF; 0065           # Lm       MODIFIER LETTER CAPITAL E
1D32          ; NFKC_CF; 01DD           # Lm       MODIFIER LETTER CAPITAL REVERSED E
1D33          ; NFKC_CF; 0067           # Lm       MODIFIER LETTER CAPITAL G
1D34          ; NFKC_CF; 0068           # Lm       MODIFIER LETTER CAPITAL H
1D35          ; NFKC_CF; 0069           # Lm       MODIFIER LETTER CAPITAL I
1D36          ; NFKC_CF; 006A           # Lm       MODIFIER LETTER CAPITAL J
1D37          ; NFKC_CF; 006B           # Lm       MODIFIER LETTER CAPITAL K
1D38          ; NFKC_CF; 006C           # Lm       MODIFIER LETTER CAPITAL L
1D39          ; NFKC_CF; 006D           # Lm       MODIFIER LETTER CAPITAL M
1D3A          ; NFKC_CF; 006E           # Lm       MODIFIER LETTER CAPITAL N
1D3C          ; NFKC_CF; 006F           # Lm       MODIFIER LETTER CAPITAL O
1D3D          ; NFKC_CF; 0223           # Lm       MODIFIER LETTER CAPITAL OU
1D3E          ; NFKC_CF; 0070           # Lm       MODIFIER LETTER CAPITAL P
1D3F          ; NFKC_CF; 0072           # Lm       MODIFIER LETTER CAPITAL R
1D40          ; NFKC_CF; 0074           # Lm       MODIFIER LETTER CAPITAL T
1D41          ; NFKC_CF; 0075           # Lm       MODIFIER LETTER CAPITAL U
1D42          ; NFKC_CF; 0077           # Lm       MODIFIER LETTER CAPITAL W
"%string.
Definition props_text_180 := "1D43          ; NFKC_CF; 0061           # Lm       MODIFIER LETTER SMALL A
1D44          ; NFKC_CF; 0250           # Lm       MODIFIER LETTER SMALL TURNED A
1D45          ; NFKC_CF; 0251           # Lm       MODIFIER LETTER SMALL ALPHA
1D46          ; NFKC_CF; 1D02           # Lm       MODIFIER LETTER SMALL TURNED AE
1D47          ; NFKC_CF; 0062           # Lm       MODIFIER LETTER SMALL B
1D48          ; NFKC_CF; 0064           # Lm       MODIFIER LETTER SMALL D
1D49          ; NFKC_CF; 0065           # Lm       MODIFIER LETTER SMALL E
1D4A          ; NFKC_CF; 0259           # Lm       MODIFIER LETTER SMALL SCHWA
1D4B          ; NFKC_CF; 025B           # Lm       MODIFIER LETTER SMALL OPEN E
1D4C          ; NFKC_CF; 025C           # Lm       MODIFIER LETTER SMALL TURNED OPEN E
1D4D          ; NFKC_CF; 0067           # Lm       MODIFIER LETTER SMALL G
1D4F          ; NFKC_CF; 006B           # Lm       MODIFIER LETTER SMALL K
1D50          ; NFKC_CF; 006D           # Lm       MODIFIER LETTER SMALL M
1D51          ; NFKC_CF; 014B           # Lm       MODIFIER LETTER SMALL ENG
1D52          ; NFKC_CF; 006F           # Lm       MODIFIER LETTER SMALL O
1D53          ; NFKC_CF; 0254           # Lm       MODIFIER LETTER SMALL OPEN O
1D54          ; NFKC_CF; 1D16           # Lm       MODIFIER LETTER SMALL TOP HALF O
1D55          ; NFKC_CF; 1D17           # Lm       MODIFIER LETTER SMALL BOTTOM HALF O
1D56          ; NFKC_CF; 0070           # Lm       MODIFIER LETTER SMALL P
1D57          ; NFKC_CF; 0074           # Lm       MODIFIER LETTER SMALL T
"%string.
Definition props_text_181 := "1D58          ; NFKC_CF; 0075           # Lm       MODIFIER LETTER SMALL U
1D59          ; NFKC_CF; 1D1D           # Lm       MODIFIER LETTER SMALL SIDEWAYS U
1D5A          ; NFKC_CF; 026F           # Lm       MODIFIER LETTER SMALL TURNED M
1D5B          ; NFKC_CF; 0076           # Lm       MODIFIER LETTER SMALL V
1D5C          ; NFKC_CF; 1D25           # Lm       MODIFIER LETTER SMALL AIN
1D5D          ; NFKC_CF; 03B2           # Lm       MODIFIER LETTER SMALL BETA
1D5E          ; NFKC_CF; 03B3           # Lm       MODIFIER LETTER SMALL GREEK GAMMA
1D5F          ; NFKC_CF; 03B4           # Lm       MODIFIER LETTER SMALL DELTA
1D60          ; NFKC_CF; 03C6           # Lm       MODIFIER LETTER SMALL GREEK PHI
1D61          ; NFKC_CF; 03C7           # Lm       MODIFIER LETTER SMALL CHI
1D62          ; NFKC_CF; 0069           # Lm       LATIN SUBSCRIPT SMALL LETTER I
1D63          ; NFKC_CF; 0072           # Lm       LATIN SUBSCRIPT SMALL LETTER R
1D64          ; NFKC_CF; 0075           # Lm       LATIN SUBSCRIPT SMALL LETTER U
1D65          ; NFKC_CF; 0076           # Lm       LATIN SUBSCRIPT SMALL LETTER V
1D66          ; NFKC_CF; 03B2           # Lm       GREEK SUBSCRIPT SMALL LETTER BETA
1D67          ; NFKC_CF; 03B3           # Lm       GREEK SUBSCRIPT SMALL LETTER GAMMA
1D68          ; NFKC_CF; 03C1           # Lm       GREEK SUBSCRIPT SMALL LETTER RHO
1D69          ; NFKC_CF; 03C6           # Lm       GREEK SUBSCRIPT SMALL LETTER PHI
1D6A          ; NFKC_CF; 03C7           # Lm       GREEK SUBSCRIPT SMALL LETTER CHI
1D78          ; NFKC_CF; 043D           # Lm       MODIFIER LETTER CYRILLIC EN
"%string.
Definition props_text_182 := "1D9B          ; NFKC_CF; 0252           # Lm       MODIFIER LETTER SMALL TURNED ALPHA
1D9C          ; NFKC_CF; 0063           # Lm       MODIFIER LETTER SMALL C
1D9D          ; NFKC_CF; 0255           # Lm       MODIFIER LETTER SMALL C WITH CURL
1D9E          ; NFKC_CF; 00F0           # Lm       MODIFIER LETTER SMALL ETH
1D9F          ; NFKC_CF; 025C           # Lm       MODIFIER LETTER SMALL REVERSED OPEN E
1DA0          ; NFKC_CF; 0066           # Lm       MODIFIER LETTER SMALL F
1DA1          ; NFKC_CF; 025F           # Lm       MODIFIER LETTER SMALL DOTLESS J WITH STROKE
1DA2          ; NFKC_CF; 0261           # Lm       MODIFIER LETTER SMALL SCRIPT G
1DA3          ; NFKC_CF; 0265           # Lm       MODIFIER LETTER SMALL TURNED H
1DA4          ; NFKC_CF; 0268           # Lm       MODIFIER LETTER SMALL I WITH STROKE
1DA5          ; NFKC_CF; 0269           # Lm       MODIFIER LETTER SMALL IOTA
1DA6          ; NFKC_CF; 026A           # Lm       MODIFIER LETTER SMALL CAPITAL I
1DA7          ; NFKC_CF; 1D7B           # Lm       MODIFIER LETTER SMALL CAPITAL I WITH STROKE
1DA8          ; NFKC_CF; 029D           # Lm       MODIFIER LETTER SMALL J WITH CROSSED-TAIL
1DA9          ; NFKC_CF; 026D           # Lm       MODIFIER LETTER SMALL L WITH RETROFLEX HOOK
1DAA          ; NFKC_CF; 1D85           # Lm       MODIFIER LETTER SMALL L WITH PALATAL HOOK
1DAB          ; NFKC_CF; 029F           # Lm       MODIFIER LETTER SMALL CAPITAL L
1DAC          ; NFKC_CF; 0271           # Lm       MODIFIER LETTER SMALL M WITH HOOK
1DAD          ; NFKC_CF; 0270           # Lm       MODIFIER LETTER SMALL TURNED M WITH LONG LEG
1DAE          ; NFKC_CF; 0272           # Lm       MODIFIER LETTER SMALL N WITH LEFT HOOK
"%string.
Definition props_text_183 := "1DAF          ; NFKC_CF; 0273           # Lm       MODIFIER LETTER SMALL N WITH RETROFLEX HOOK
1DB0          ; NFKC_CF; 0274           # Lm       MODIFIER LETTER SMALL CAPITAL N
1DB1          ; NFKC_CF; 0275           # Lm       MODIFIER LETTER SMALL BARRED O
1DB2          ; NFKC_CF; 0278           # Lm       MODIFIER LETTER SMALL PHI
1DB3          ; NFKC_CF; 0282           # Lm       MODIFIER LETTER SMALL S WITH HOOK
1DB4          ; NFKC_CF; 0283           # Lm       MODIFIER LETTER SMALL ESH
1DB5          ; NFKC_CF; 01AB           # Lm       MODIFIER LETTER SMALL T WITH PALATAL HOOK
1DB6          ; NFKC_CF; 0289           # Lm       MODIFIER LETTER SMALL U BAR
1DB7          ; NFKC_CF; 028A           # Lm       MODIFIER LETTER SMALL UPSILON
1DB8          ; NFKC_CF; 1D1C           # Lm       MODIFIER LETTER SMALL CAPITAL U
1DB9          ; NFKC_CF; 028B           # Lm       MODIFIER LETTER SMALL V WITH HOOK
1DBA          ; NFKC_CF; 028C           # Lm       MODIFIER LETTER SMALL TURNED V
1DBB          ; NFKC_CF; 007A           # Lm       MODIFIER LETTER SMALL Z
1DBC          ; NFKC_CF; 0290           # Lm       MODIFIER LETTER SMALL Z WITH RETROFLEX HOOK
1DBD          ; NFKC_CF; 0291           # Lm       MODIFIER LETTER SMALL Z WITH CURL
1DBE          ; NFKC_CF; 0292           # Lm       MODIFIER LETTER SMALL EZH
1DBF          ; NFKC_CF; 03B8           # Lm       MODIFIER LETTER SMALL THETA
1E00          ; NFKC_CF; 1E01           # L&       LATIN CAPITAL LETTER A WITH RING BELOW
1E02          ; NFKC_CF; 1E03           # L&       LATIN CAPITAL LETTER B WITH DOT ABOVE
1E04          ; NFKC_CF; 1E05           # L&       LATIN CAPITAL LETTER B WITH DOT BELOW
"%string.
Definition props_text_184 := "1E06          ; NFKC_CF; 1E07           # L&       LATIN CAPITAL LETTER B WITH LINE BELOW
1E08          ; NFKC_CF; 1E09           # L&       LATIN CAPITAL LETTER C WITH CEDILLA AND ACUTE
1E0A          ; NFKC_CF; 1E0B           # L&       LATIN CAPITAL LETTER D WITH DOT ABOVE
1E0C          ; NFKC_CF; 1E0D           # L&       LATIN CAPITAL LETTER D WITH DOT BELOW
1E0E          ; NFKC_CF; 1E0F           # L&       LATIN CAPITAL LETTER D WITH LINE BELOW
1E10          ; NFKC_CF; 1E11           # L&       LATIN CAPITAL LETTER D WITH CEDILLA
1E12          ; NFKC_CF; 1E13           # L&       LATIN CAPITAL LETTER D WITH CIRCUMFLEX BELOW
1E14          ; NFKC_CF; 1E15           # L&       LATIN CAPITAL LETTER E WITH MACRON AND GRAVE
1E16          ; NFKC_CF; 1E17           # L&       LATIN CAPITAL LETTER E WITH MACRON AND ACUTE
1E18          ; NFKC_CF; 1E19           # L&       LATIN CAPITAL LETTER E WITH CIRCUMFLEX BELOW
1E1A          ; NFKC_CF; 1E1B           # L&       LATIN CAPITAL LETTER E WITH TILDE BELOW
1E1C          ; NFKC_CF; 1E1D           # L&       LATIN CAPITAL LETTER E WITH CEDILLA AND BREVE
1E1E          ; NFKC_CF; 1E1F           # L&       LATIN CAPITAL LETTER F WITH DOT ABOVE
1E20          ; NFKC_CF; 1E21           # L&       LATIN CAPITAL LETTER G WITH MACRON
1E22          ; NFKC_CF; 1E23           # L&       LATIN CAPITAL LETTER H WITH DOT ABOVE
1E24          ; NFKC_CF; 1E25           # L&       LATIN CAPITAL LETTER H WITH DOT BELOW
1E26          ; NFKC_CF; 1E27           # L&       LATIN CAPITAL LETTER H WITH DIAERESIS
1E28          ; NFKC_CF; 1E29           # L&       LATIN CAPITAL LETTER H WITH CEDILLA
1E2A          ; NFKC_CF; 1E2B           # L&       LATIN CAPITAL LETTER H WITH BREVE BELOW
1E2C          ; NFKC_CF; 1E2D           # L&       LATIN CAPITAL LETTER I WITH TILDE BELOW
"%string.
Definition props_text_185 := "1E2E          ; NFKC_CF; 1E2F           # L&       LATIN CAPITAL LETTER I WITH DIAERESIS AND ACUTE
1E30          ; NFKC_CF; 1E31           # L&       LATIN CAPITAL LETTER K WITH ACUTE
1E32          ; NFKC_CF; 1E33           # L&       LATIN CAPITAL LETTER K WITH DOT BELOW
1E34          ; NFKC_CF; 1E35           # L&       LATIN CAPITAL LETTER K WITH LINE BELOW
1E36          ; NFKC_CF; 1E37           # L&       LATIN CAPITAL LETTER L WITH DOT BELOW
1E38          ; NFKC_CF; 1E39           # L&       LATIN CAPITAL LETTER L WITH DOT BELOW AND MACRON
1E3A          ; NFKC_CF; 1E3B           # L&       LATIN CAPITAL LETTER L WITH LINE BELOW
1E3C          ; NFKC_CF; 1E3D           # L&       LATIN CAPITAL LETTER L WITH CIRCUMFLEX BELOW
1E3E          ; NFKC_CF; 1E3F           # L&       LATIN CAPITAL LETTER M WITH ACUTE
1E40          ; NFKC_CF; 1E41           # L&       LATIN CAPITAL LETTER M WITH DOT ABOVE
1E42          ; NFKC_CF; 1E43           # L&       LATIN CAPITAL LETTER M WITH DOT BELOW
1E44          ; NFKC_CF; 1E45           # L&       LATIN CAPITAL LETTER N WITH DOT ABOVE
1E46          ; NFKC_CF; 1E47           # L&       LATIN CAPITAL LETTER N WITH DOT BELOW
1E48          ; NFKC_CF; 1E49           # L&       LATIN CAPITAL LETTER N WITH LINE BELOW
1E4A          ; NFKC_CF; 1E4B           # L&       LATIN CAPITAL LETTER N WITH CIRCUMFLEX BELOW
1E4C          ; NFKC_CF; 1E4D           # L&       LATIN CAPITAL LETTER O WITH TILDE AND ACUTE
1E4E          ; NFKC_CF; 1E4F           # L&       LATIN CAPITAL LETTER O WITH TILDE AND DIAERESIS
1E50          ; NFKC_CF; 1E51           # L&       LATIN CAPITAL LETTER O WITH MACRON AND GRAVE
1E52          ; NFKC_CF; 1E53           # L&       LATIN CAPITAL LETTER O WITH MACRON AND ACUTE
1E54          ; NFKC_CF; 1E55           # L&       LATIN CAPITAL LETTER P WITH ACUTE
"%string.
Definition props_text_186 := "1E56          ; NFKC_CF; 1E57           # L&       LATIN CAPITAL LETTER P WITH DOT ABOVE
1E58          ; NFKC_CF; 1E59           # L&       LATIN CAPITAL LETTER R WITH DOT ABOVE
1E5A          ; NFKC_CF; 1E5B           # L&       LATIN CAPITAL LETTER R WITH DOT BELOW
1E5C          ; NFKC_CF; 1E5D           # L&       LATIN CAPITAL LETTER R WITH DOT BELOW AND MACRON
1E5E          ; NFKC_CF; 1E5F           # L&       LATIN CAPITAL LETTER R WITH LINE BELOW
1E60          ; NFKC_CF; 1E61           # L&       LATIN CAPITAL LETTER S WITH DOT ABOVE
1E62          ; NFKC_CF; 1E63           # L&       LATIN CAPITAL LETTER S WITH DOT BELOW
1E64          ; NFKC_CF; 1E65           # L&       LATIN CAPITAL LETTER S WITH ACUTE AND DOT ABOVE
1E66          ; NFKC_CF; 1E67           # L&       LATIN CAPITAL LETTER S WITH CARON AND DOT ABOVE
1E68          ; NFKC_CF; 1E69           # L&       LATIN CAPITAL LETTER S WITH DOT BELOW AND DOT ABOVE
1E6A          ; NFKC_CF; 1E6B           # L&       LATIN CAPITAL LETTER T WITH DOT ABOVE
1E6C          ; NFKC_CF; 1E6D           # L&       LATIN CAPITAL LETTER T WITH DOT BELOW
1E6E          ; NFKC_CF; 1E6F           # L&       LATIN CAPITAL LETTER T WITH LINE BELOW
1E70          ; NFKC_CF; 1E71           # L&       LATIN CAPITAL LETTER T WITH CIRCUMFLEX BELOW
1E72          ; NFKC_CF; 1E73           # L&       LATIN CAPITAL LETTER U WITH DIAERESIS BELOW
1E74          ; NFKC_CF; 1E75           # L&       LATIN CAPITAL LETTER U WITH TILDE BELOW
1E76          ; NFKC_CF; 1E77           # L&       LATIN CAPITAL LETTER U WITH CIRCUMFLEX BELOW
1E78          ; NFKC_CF; 1E79           # L&       LATIN CAPITAL LETTER U WITH TILDE AND ACUTE
1E7A          ; NFKC_CF; 1E7B           # L&       LATIN CAPITAL LETTER U WITH MACRON AND DIAERESIS
1E7C          ; NFKC_CF; 1E7D           # L&       LATIN CAPITAL LETTER V WITH TILDE
"%string.
Definition props_text_187 := "1E7E          ; NFKC_CF; 1E7F           # L&       LATIN CAPITAL LETTER V WITH DOT BELOW
1E80          ; NFKC_CF; 1E81           # L&       LATIN CAPITAL LETTER W WITH GRAVE
1E82          ; NFKC_CF; 1E83           # L&       LATIN CAPITAL LETTER W WITH ACUTE
1E84          ; NFKC_CF; 1E85           # L&       LATIN CAPITAL LETTER W WITH DIAERESIS
1E86          ; NFKC_CF; 1E87           # L&       LATIN CAPITAL LETTER W WITH DOT ABOVE
1E88          ; NFKC_CF; 1E89           # L&       LATIN CAPITAL LETTER W WITH DOT BELOW
1E8A          ; NFKC_CF; 1E8B           # L&       LATIN CAPITAL LETTER X WITH DOT ABOVE
1E8C          ; NFKC_CF; 1E8D           # L&       LATIN CAPITAL LETTER X WITH DIAERESIS
1E8E          ; NFKC_CF; 1E8F           # L&       LATIN CAPITAL LETTER Y WITH DOT ABOVE
1E90          ; NFKC_CF; 1E91           # L&       LATIN CAPITAL LETTER Z WITH CIRCUMFLEX
1E92          ; NFKC_CF; 1E93           # L&       LATIN CAPITAL LETTER Z WITH DOT BELOW
1E94          ; NFKC_CF; 1E95           # L&       LATIN CAPITAL LETTER Z WITH LINE BELOW
1E9A          ; NFKC_CF; 0061 02BE      # L&       LATIN SMALL LETTER A WITH RIGHT HALF RING
1E9B          ; NFKC_CF; 1E61           # L&       LATIN SMALL LETTER LONG S WITH DOT ABOVE
1E9E          ; NFKC_CF; 0073 0073      # L&       LATIN CAPITAL LETTER SHARP S
1EA0          ; NFKC_CF; 1EA1           # L&       LATIN CAPITAL LETTER A WITH DOT BELOW
1EA2          ; NFKC_CF; 1EA3           # L&       LATIN CAPITAL LETTER A WITH HOOK ABOVE
1EA4          ; NFKC_CF; 1EA5           # L&       LATIN CAPITAL LETTER A WITH CIRCUMFLEX AND ACUTE
1EA6          ; NFKC_CF; 1EA7           # L&       LATIN CAPITAL LETTER A WITH CIRCUMFLEX AND GRAVE
1EA8          ; NFKC_CF; 1EA9           # L&       LATIN CAPITAL LETTER A WITH CIRCUMFLEX AND HOOK ABOVE
"%string.
Definition props_text_188 := "1EAA          ; NFKC_CF; 1EAB           # L&       LATIN CAPITAL LETTER A WITH CIRCUMFLEX AND TILDE
1EAC          ; NFKC_CF; 1EAD           # L&       LATIN CAPITAL LETTER A WITH CIRCUMFLEX AND DOT BELOW
1EAE          ; NFKC_CF; 1EAF           # L&       LATIN CAPITAL LETTER A WITH BREVE AND ACUTE
1EB0          ; NFKC_CF; 1EB1           # L&       LATIN CAPITAL LETTER A WITH BREVE AND GRAVE
1EB2          ; NFKC_CF; 1EB3           # L&       LATIN CAPITAL LETTER A WITH BREVE AND HOOK ABOVE
1EB4          ; NFKC_CF; 1EB5           # L&       LATIN CAPITAL LETTER A WITH BREVE AND TILDE
1EB6          ; NFKC_CF; 1EB7           # L&       LATIN CAPITAL LETTER A WITH BREVE AND DOT BELOW
1EB8          ; NFKC_CF; 1EB9           # L&       LATIN CAPITAL LETTER E WITH DOT BELOW
1EBA          ; NFKC_CF; 1EBB           # L&       LATIN CAPITAL LETTER E WITH HOOK ABOVE
1EBC          ; NFKC_CF; 1EBD           # L&       LATIN CAPITAL LETTER E WITH TILDE
1EBE          ; NFKC_CF; 1EBF           # L&       LATIN CAPITAL LETTER E WITH CIRCUMFLEX AND ACUTE
1EC0          ; NFKC_CF; 1EC1           # L&       LATIN CAPITAL LETTER E WITH CIRCUMFLEX AND GRAVE
1EC2          ; NFKC_CF; 1EC3           # L&       LATIN CAPITAL LETTER E WITH CIRCUMFLEX AND HOOK ABOVE
1EC4          ; NFKC_CF; 1EC5           # L&       LATIN CAPITAL LETTER E WITH CIRCUMFLEX AND TILDE
1EC6          ; NFKC_CF; 1EC7           # L&       LATIN CAPITAL LETTER E WITH CIRCUMFLEX AND DOT BELOW
1EC8          ; NFKC_CF; 1EC9           # L&       LATIN CAPITAL LETTER I WITH HOOK ABOVE
1ECA          ; NFKC_CF; 1ECB           # L&       LATIN CAPITAL LETTER I WITH DOT BELOW
1ECC          ; NFKC_CF; 1ECD           # L&       LATIN CAPITAL LETTER O WITH DOT BELOW
1ECE          ; NFKC_CF; 1ECF           # L&       LATIN CAPITAL LETTER O WITH HOOK ABOVE
1ED0          ; NFKC_CF; 1ED1           # L&       LATIN CAPITAL LETTER O WITH CIRCUMFLEX AND ACUTE
"%string.
Definition props_text_189 := "1ED2          ; NFKC_CF; 1ED3           # L&       LATIN CAPITAL LETTER O WITH CIRCUMFLEX AND GRAVE
1ED4          ; NFKC_CF; 1ED5           # L&       LATIN CAPITAL LETTER O WITH CIRCUMFLEX AND HOOK ABOVE
1ED6          ; NFKC_CF; 1ED7           # L&       LATIN CAPITAL LETTER O WITH CIRCUMFLEX AND TILDE
1ED8          ; NFKC_CF; 1ED9           # L&       LATIN CAPITAL LETTER O WITH CIRCUMFLEX AND DOT BELOW
1EDA          ; NFKC_CF; 1EDB           # L&       LATIN CAPITAL LETTER O WITH HORN AND ACUTE
1EDC          ; NFKC_CF; 1EDD           # L&       LATIN CAPITAL LETTER O WITH HORN AND GRAVE
1EDE          ; NFKC_CF; 1EDF           # L&       LATIN CAPITAL LETTER O WITH HORN AND HOOK ABOVE
1EE0          ; NFKC_CF; 1EE1           # L&       LATIN CAPITAL LETTER O WITH HORN AND TILDE
1EE2          ; NFKC_CF; 1EE3           # L&       LATIN CAPITAL LETTER O WITH HORN AND DOT BELOW
1EE4          ; NFKC_CF; 1EE5           # L&       LATIN CAPITAL LETTER U WITH DOT BELOW
1EE6          ; NFKC_CF; 1EE7           # L&       LATIN CAPITAL LETTER U WITH HOOK ABOVE
1EE8          ; NFKC_CF; 1EE9           # L&       LATIN CAPITAL LETTER U WITH HORN AND ACUTE
1EEA          ; NFKC_CF; 1EEB           # L&       LATIN CAPITAL LETTER U WITH HORN AND GRAVE
1EEC          ; NFKC_CF; 1EED           # L&       LATIN CAPITAL LETTER U WITH HORN AND HOOK ABOVE
1EEE          ; NFKC_CF; 1EEF           # L&       LATIN CAPITAL LETTER U WITH HORN AND TILDE
1EF0          ; NFKC_CF; 1EF1           # L&       LATIN CAPITAL LETTER U WITH HORN AND DOT BELOW
1EF2          ; NFKC_CF; 1EF3           # L&       LATIN CAPITAL LETTER Y WITH GRAVE
1EF4          ; NFKC_CF; 1EF5           # L&       LATIN CAPITAL LETTER Y WITH DOT BELOW
1EF6          ; NFKC_CF; 1EF7           # L&       LATIN CAPITAL LETTER Y WITH HOOK ABOVE
1EF8          ; NFKC_CF; 1EF9           # L&       LATIN CAPITAL LETTER Y WITH TILDE
"%string.
Definition props_text_190 := "1EFA          ; NFKC_CF; 1EFB           # L&       LATIN CAPITAL LETTER MIDDLE-WELSH LL
1EFC          ; NFKC_CF; 1EFD           # L&       LATIN CAPITAL LETTER MIDDLE-WELSH V
1EFE          ; NFKC_CF; 1EFF           # L&       LATIN CAPITAL LETTER Y WITH LOOP
1F08          ; NFKC_CF; 1F00           # L&       GREEK CAPITAL LETTER ALPHA WITH PSILI
1F09          ; NFKC_CF; 1F01           # L&       GREEK CAPITAL LETTER ALPHA WITH DASIA
1F0A          ; NFKC_CF; 1F02           # L&       GREEK CAPITAL LETTER ALPHA WITH PSILI AND VARIA
1F0B          ; NFKC_CF; 1F03           # L&       GREEK CAPITAL LETTER ALPHA WITH DASIA AND VARIA
1F0C          ; NFKC_CF; 1F04           # L&       GREEK CAPITAL LETTER ALPHA WITH PSILI AND OXIA
1F0D          ; NFKC_CF; 1F05           # L&       GREEK CAPITAL LETTER ALPHA WITH DASIA AND OXIA
1F0E          ; NFKC_CF; 1F06           # L&       GREEK CAPITAL LETTER ALPHA WITH PSILI AND PERISPOMENI
1F0F          ; NFKC_CF; 1F07           # L&       GREEK CAPITAL LETTER ALPHA WITH DASIA AND PERISPOMENI
1F18          ; NFKC_CF; 1F10           # L&       GREEK CAPITAL LETTER EPSILON WITH PSILI
1F19          ; NFKC_CF; 1F11           # L&       GREEK CAPITAL LETTER EPSILON WITH DASIA
1F1A          ; NFKC_CF; 1F12           # L&       GREEK CAPITAL LETTER EPSILON WITH PSILI AND VARIA
1F1B          ; NFKC_CF; 1F13           # L&       GREEK CAPITAL LETTER EPSILON WITH DASIA AND VARIA
1F1C          ; NFKC_CF; 1F14           # L&       GREEK CAPITAL LETTER EPSILON WITH PSILI AND OXIA
1F1D          ; NFKC_CF; 1F15           # L&       GREEK CAPITAL LETTER EPSILON WITH DASIA AND OXIA
1F28          ; NFKC_CF; 1F20           # L&       GREEK CAPITAL LETTER ETA WITH PSILI
1F29          ; NFKC_CF; 1F21           # L&       GREEK CAPITAL LETTER ETA WITH DASIA
1F2A          ; NFKC_CF; 1F22           # L&       GREEK CAPITAL LETTER ETA WITH PSILI AND VARIA
"%string.
Definition props_text_191 := "1F2B          ; NFKC_CF; 1F23           # L&       GREEK CAPITAL LETTER ETA WITH DASIA AND VARIA
1F2C          ; NFKC_CF; 1F24           # L&       GREEK CAPITAL LETTER ETA WITH PSILI AND OXIA
1F2D          ; NFKC_CF; 1F25           # L&       GREEK CAPITAL LETTER ETA WITH DASIA AND OXIA
1F2E          ; NFKC_CF; 1F26           # L&       GREEK CAPITAL LETTER ETA WITH PSILI AND PERISPOMENI
1F2F          ; NFKC_CF; 1F27           # L&       GREEK CAPITAL LETTER ETA WITH DASIA AND PERISPOMENI
1F38          ; NFKC_CF; 1F30           # L&       GREEK CAPITAL LETTER IOTA WITH PSILI
1F39          ; NFKC_CF; 1F31           # L&       GREEK CAPITAL LETTER IOTA WITH DASIA
1F3A          ; NFKC_CF; 1F32           # L&       GREEK CAPITAL LETTER IOTA WITH PSILI AND VARIA
1F3B          ; NFKC_CF; 1F33           # L&       GREEK CAPITAL LETTER IOTA WITH DASIA AND VARIA
1F3C          ; NFKC_CF; 1F34           # L&       GREEK CAPITAL LETTER IOTA WITH PSILI AND OXIA
1F3D          ; NFKC_CF; 1F35           # L&       GREEK CAPITAL LETTER IOTA WITH DASIA AND OXIA
1F3E          ; NFKC_CF; 1F36           # L&       GREEK CAPITAL LETTER IOTA WITH PSILI AND PERISPOMENI
1F3F          ; NFKC_CF; 1F37           # L&       GREEK CAPITAL LETTER IOTA WITH DASIA AND PERISPOMENI
1F48          ; NFKC_CF; 1F40           # L&       GREEK CAPITAL LETTER OMICRON WITH PSILI
1F49          ; NFKC_CF; 1F41           # L&       GREEK CAPITAL LETTER OMICRON WITH DASIA
1F4A          ; NFKC_CF; 1F42           # L&       GREEK CAPITAL LETTER OMICRON WITH PSILI AND VARIA
1F4B          ; NFKC_CF; 1F43           # L&       GREEK CAPITAL LETTER OMICRON WITH DASIA AND VARIA
1F4C          ; NFKC_CF; 1F44           # L&       GREEK CAPITAL LETTER OMICRON WITH PSILI AND OXIA
1F4D          ; NFKC_CF; 1F45           # L&       GREEK CAPITAL LETTER OMICRON WITH DASIA AND OXIA
1F59          ; NFKC_CF; 1F51           # L&       GREEK CAPITAL LETTER UPSILON WITH DASIA
"%string.
Definition props_text_192 := "1F5B          ; NFKC_CF; 1F53           # L&       GREEK CAPITAL LETTER UPSILON WITH DASIA AND VARIA
1F5D          ; NFKC_CF; 1F55           # L&       GREEK CAPITAL LETTER UPSILON WITH DASIA AND OXIA
1F5F          ; NFKC_CF; 1F57           # L&       GREEK CAPITAL LETTER UPSILON WITH DASIA AND PERISPOMENI
1F68          ; NFKC_CF; 1F60           # L&       GREEK CAPITAL LETTER OMEGA WITH PSILI
1F69          ; NFKC_CF; 1F61           # L&       GREEK CAPITAL LETTER OMEGA WITH DASIA
1F6A          ; NFKC_CF; 1F62           # L&       GREEK CAPITAL LETTER OMEGA WITH PSILI AND VARIA
1F6B          ; NFKC_CF; 1F63           # L&       GREEK CAPITAL LETTER OMEGA WITH DASIA AND VARIA
1F6C          ; NFKC_CF; 1F64           # L&       GREEK CAPITAL LETTER OMEGA WITH PSILI AND OXIA
1F6D          ; NFKC_CF; 1F65           # L&       GREEK CAPITAL LETTER OMEGA WITH DASIA AND OXIA
1F6E          ; NFKC_CF; 1F66           # L&       GREEK CAPITAL LETTER OMEGA WITH PSILI AND PERISPOMENI
1F6F          ; NFKC_CF; 1F67           # L&       GREEK CAPITAL LETTER OMEGA WITH DASIA AND PERISPOMENI
1F71          ; NFKC_CF; 03AC           # L&       GREEK SMALL LETTER ALPHA WITH OXIA
1F73          ; NFKC_CF; 03AD           # L&       GREEK SMALL LETTER EPSILON WITH OXIA
1F75          ; NFKC_CF; 03AE           # L&       GREEK SMALL LETTER ETA WITH OXIA
1F77          ; NFKC_CF; 03AF           # L&       GREEK SMALL LETTER IOTA WITH OXIA
1F79          ; NFKC_CF; 03CC           # L&       GREEK SMALL LETTER OMICRON WITH OXIA
1F7B          ; NFKC_CF; 03CD           # L&       GREEK SMALL LETTER UPSILON WITH OXIA
1F7D          ; NFKC_CF; 03CE           # L&       GREEK SMALL LETTER OMEGA WITH OXIA
1F80          ; NFKC_CF; 1F00 03B9      # L&       GREEK SMALL LETTER ALPHA WITH PSILI AND YPOGEGRAMMENI
1F81          ; NFKC_CF; 1F01 03B9      # L&       GREEK SMALL LETTER ALPHA WITH DASIA AND YPOGEGRAMMENI
"%string.
Definition props_text_193 := "1F82          ; NFKC_CF; 1F02 03B9      # L&       GREEK SMALL LETTER ALPHA WITH PSILI AND VARIA AND YPOGEGRAMMENI
1F83          ; NFKC_CF; 1F03 03B9      # L&       GREEK SMALL LETTER ALPHA WITH DASIA AND VARIA AND YPOGEGRAMMENI
1F84          ; NFKC_CF; 1F04 03B9      # L&       GREEK SMALL LETTER ALPHA WITH PSILI AND OXIA AND YPOGEGRAMMENI
1F85          ; NFKC_CF; 1F05 03B9      # L&       GREEK SMALL LETTER ALPHA WITH DASIA AND OXIA AND YPOGEGRAMMENI
1F86          ; NFKC_CF; 1F06 03B9      # L&       GREEK SMALL LETTER ALPHA WITH PSILI AND PERISPOMENI AND YPOGEGRAMMENI
1F87          ; NFKC_CF; 1F07 03B9      # L&       GREEK SMALL LETTER ALPHA WITH DASIA AND PERISPOMENI AND YPOGEGRAMMENI
1F88          ; NFKC_CF; 1F00 03B9      # L&       GREEK CAPITAL LETTER ALPHA WITH PSILI AND PROSGEGRAMMENI
1F89          ; NFKC_CF; 1F01 03B9      # L&       GREEK CAPITAL LETTER ALPHA WITH DASIA AND PROSGEGRAMMENI
1F8A          ; NFKC_CF; 1F02 03B9      # L&       GREEK CAPITAL LETTER ALPHA WITH PSILI AND VARIA AND PROSGEGRAMMENI
1F8B          ; NFKC_CF; 1F03 03B9      # L&       GREEK CAPITAL LETTER ALPHA WITH DASIA AND VARIA AND PROSGEGRAMMENI
1F8C          ; NFKC_CF; 1F04 03B9      # L&       GREEK CAPITAL LETTER ALPHA WITH PSILI AND OXIA AND PROSGEGRAMMENI
1F8D          ; NFKC_CF; 1F05 03B9      # L&       GREEK CAPITAL LETTER ALPHA WITH DASIA AND OXIA AND PROSGEGRAMMENI
1F8E          ; NFKC_CF; 1F06 03B9      # L&       GREEK CAPITAL LETTER ALPHA WITH PSILI AND PERISPOMENI AND PROSGEGRAMMENI
1F8F          ; NFKC_CF; 1F07 03B9      # L&       GREEK CAPITAL LETTER ALPHA WITH DASIA AND PERISPOMENI AND PROSGEGRAMMENI
1F90          ; NFKC_CF; 1F20 03B9      # L&       GREEK SMALL LETTER ETA WITH PSILI AND YPOGEGRAMMENI
1F91          ; NFKC_CF; 1F21 03B9      # L&       GREEK SMALL LETTER ETA WITH DASIA AND YPOGEGRAMMENI
1F92          ; NFKC_CF; 1F22 03B9      # L&       GREEK SMALL LETTER ETA WITH PSILI AND VARIA AND YPOGEGRAMMENI
1F93          ; NFKC_CF; 1F23 03B9      # L&       GREEK SMALL LETTER ETA WITH DASIA AND VARIA AND YPOGEGRAMMENI
1F94          ; NFKC_CF; 1F24 03B9      # L&       GREEK SMALL LETTER ETA WITH PSILI AND OXIA AND YPOGEGRAMMENI
1F95          ; NFKC_CF; 1F25 03B9      # L&       GREEK SMALL LETTER ETA WITH DASIA AND OXIA AND YPOGEGRAMMENI
"%string.
Definition props_text_194 := "1F96          ; NFKC_CF; 1F26 03B9      # L&       GREEK SMALL LETTER ETA WITH PSILI AND PERISPOMENI AND YPOGEGRAMMENI
1F97          ; NFKC_CF; 1F27 03B9      # L&       GREEK SMALL LETTER ETA WITH DASIA AND PERISPOMENI AND YPOGEGRAMMENI
1F98          ; NFKC_CF; 1F20 03B9      # L&       GREEK CAPITAL LETTER ETA WITH PSILI AND PROSGEGRAMMENI
1F99          ; NFKC_CF; 1F21 03B9      # L&       GREEK CAPITAL LETTER ETA WITH DASIA AND PROSGEGRAMMENI
1F9A          ; NFKC_CF; 1F22 03B9      # L&       GREEK CAPITAL LETTER ETA WITH PSILI AND VARIA AND PROSGEGRAMMENI
1F9B          ; NFKC_CF; 1F23 03B9      # L&       GREEK CAPITAL LETTER ETA WITH DASIA AND VARIA AND PROSGEGRAMMENI
1F9C          ; NFKC_CF; 1F24 03B9      # L&       GREEK CAPITAL LETTER ETA WITH PSILI AND OXIA AND PROSGEGRAMMENI
1F9D          ; NFKC_CF; 1F25 03B9      # L&       GREEK CAPITAL LETTER ETA WITH DASIA AND OXIA AND PROSGEGRAMMENI
1F9E          ; NFKC_CF; 1F26 03B9      # L&       GREEK CAPITAL LETTER ETA WITH PSILI AND PERISPOMENI AND PROSGEGRAMMENI
1F9F          ; NFKC_CF; 1F27 03B9      # L&       GREEK CAPITAL LETTER ETA WITH DASIA AND PERISPOMENI AND PROSGEGRAMMENI
1FA0          ; NFKC_CF; 1F60 03B9      # L&       GREEK SMALL LETTER OMEGA WITH PSILI AND YPOGEGRAMMENI
1FA1          ; NFKC_CF; 1F61 03B9      # L&       GREEK SMALL LETTER OMEGA WITH DASIA AND YPOGEGRAMMENI
1FA2          ; NFKC_CF; 1F62 03B9      # L&       GREEK SMALL LETTER OMEGA WITH PSILI AND VARIA AND YPOGEGRAMMENI
1FA3          ; NFKC_CF; 1F63 03B9      # L&       GREEK SMALL LETTER OMEGA WITH DASIA AND VARIA AND YPOGEGRAMMENI
1FA4          ; NFKC_CF; 1F64 03B9      # L&       GREEK SMALL LETTER OMEGA WITH PSILI AND OXIA AND YPOGEGRAMMENI
1FA5          ; NFKC_CF; 1F65 03B9      # L&       GREEK SMALL LETTER OMEGA WITH DASIA AND OXIA AND YPOGEGRAMMENI
1FA6          ; NFKC_CF; 1F66 03B9      # L&       GREEK SMALL LETTER OMEGA WITH PSILI AND PERISPOMENI AND YPOGEGRAMMENI
1FA7          ; NFKC_CF; 1F67 03B9      # L&       GREEK SMALL LETTER OMEGA WITH DASIA AND PERISPOMENI AND YPOGEGRAMMENI
1FA8          ; NFKC_CF; 1F60 03B9      # L&       GREEK CAPITAL LETTER OMEGA WITH PSILI AND PROSGEGRAMMENI
1FA9          ; NFKC_CF; 1F61 03B9      # L&       GREEK CAPITAL LETTER OMEGA WITH DASIA AND PROSGEGRAMMENI
"%string.
Definition props_text_195 := "1FAA          ; NFKC_CF; 1F62 03B9      # L&       GREEK CAPITAL LETTER OMEGA WITH PSILI AND VARIA AND PROSGEGRAMMENI
1FAB          ; NFKC_CF; 1F63 03B9      # L&       GREEK CAPITAL LETTER OMEGA WITH DASIA AND VARIA AND PROSGEGRAMMENI
1FAC          ; NFKC_CF; 1F64 03B9      # L&       GREEK CAPITAL LETTER OMEGA WITH PSILI AND OXIA AND PROSGEGRAMMENI
1FAD          ; NFKC_CF; 1F65 03B9      # L&       GREEK CAPITAL LETTER OMEGA WITH DASIA AND OXIA AND PROSGEGRAMMENI
1FAE          ; NFKC_CF; 1F66 03B9      # L&       GREEK CAPITAL LETTER OMEGA WITH PSILI AND PERISPOMENI AND PROSGEGRAMMENI
1FAF          ; NFKC_CF; 1F67 03B9      # L&       GREEK CAPITAL LETTER OMEGA WITH DASIA AND PERISPOMENI AND PROSGEGRAMMENI
1FB2          ; NFKC_CF; 1F70 03B9      # L&       GREEK SMALL LETTER ALPHA WITH VARIA AND YPOGEGRAMMENI
1FB3          ; NFKC_CF; 03B1 03B9      # L&       GREEK SMALL LETTER ALPHA WITH YPOGEGRAMMENI
1FB4          ; NFKC_CF; 03AC 03B9      # L&       GREEK SMALL LETTER ALPHA WITH OXIA AND YPOGEGRAMMENI
1FB7          ; NFKC_CF; 1FB6 03B9      # L&       GREEK SMALL LETTER ALPHA WITH PERISPOMENI AND YPOGEGRAMMENI
1FB8          ; NFKC_CF; 1FB0           # L&       GREEK CAPITAL LETTER ALPHA WITH VRACHY
1FB9          ; NFKC_CF; 1FB1           # L&       GREEK CAPITAL LETTER ALPHA WITH MACRON
1FBA          ; NFKC_CF; 1F70           # L&       GREEK CAPITAL LETTER ALPHA WITH VARIA
1FBB          ; NFKC_CF; 03AC           # L&       GREEK CAPITAL LETTER ALPHA WITH OXIA
1FBC          ; NFKC_CF; 03B1 03B9      # L&       GREEK CAPITAL LETTER ALPHA WITH PROSGEGRAMMENI
1FBD          ; NFKC_CF; 0020 0313      # Sk       GREEK KORONIS
1FBE          ; NFKC_CF; 03B9           # L&       GREEK PROSGEGRAMMENI
1FBF          ; NFKC_CF; 0020 0313      # Sk       GREEK PSILI
1FC0          ; NFKC_CF; 0020 0342      # Sk       GREEK PERISPOMENI
1FC1          ; NFKC_CF; 0020 0308 0342 # Sk       GREEK DIALYTIKA AND PERISPOMENI
"%string.
Definition props_text_196 := "1FC2          ; NFKC_CF; 1F74 03B9      # L&       GREEK SMALL LETTER ETA WITH VARIA AND YPOGEGRAMMENI
1FC3          ; NFKC_CF; 03B7 03B9      # L&       GREEK SMALL LETTER ETA WITH YPOGEGRAMMENI
1FC4          ; NFKC_CF; 03AE 03B9      # L&       GREEK SMALL LETTER ETA WITH OXIA AND YPOGEGRAMMENI
1FC7          ; NFKC_CF; 1FC6 03B9      # L&       GREEK SMALL LETTER ETA WITH PERISPOMENI AND YPOGEGRAMMENI
1FC8          ; NFKC_CF; 1F72           # L&       GREEK CAPITAL LETTER EPSILON WITH VARIA
1FC9          ; NFKC_CF; 03AD           # L&       GREEK CAPITAL LETTER EPSILON WITH OXIA
1FCA          ; NFKC_CF; 1F74           # L&       GREEK CAPITAL LETTER ETA WITH VARIA
1FCB          ; NFKC_CF; 03AE           # L&       GREEK CAPITAL LETTER ETA WITH OXIA
1FCC          ; NFKC_CF; 03B7 03B9      # L&       GREEK CAPITAL LETTER ETA WITH PROSGEGRAMMENI
1FCD          ; NFKC_CF; 0020 0313 0300 # Sk       GREEK PSILI AND VARIA
1FCE          ; NFKC_CF; 0020 0313 0301 # Sk       GREEK PSILI AND OXIA
1FCF          ; NFKC_CF; 0020 0313 0342 # Sk       GREEK PSILI AND PERISPOMENI
1FD3          ; NFKC_CF; 0390           # L&       GREEK SMALL LETTER IOTA WITH DIALYTIKA AND OXIA
1FD8          ; NFKC_CF; 1FD0           # L&       GREEK CAPITAL LETTER IOTA WITH VRACHY
1FD9          ; NFKC_CF; 1FD1           # L&       GREEK CAPITAL LETTER IOTA WITH MACRON
1FDA          ; NFKC_CF; 1F76           # L&       GREEK CAPITAL LETTER IOTA WITH VARIA
1FDB          ; NFKC_CF; 03AF           # L&       GREEK CAPITAL LETTER IOTA WITH OXIA
1FDD          ; NFKC_CF; 0020 0314 0300 # Sk       GREEK DASIA AND VARIA
1FDE          ; NFKC_CF; 0020 0314 0301 # Sk       GREEK DASIA AND OXIA
1FDF          ; NFKC_CF; 0020 0314 0342 # Sk       GREEK DASIA AND PERISPOMENI
"%string.
Definition props_text_197 := "1FE3          ; NFKC_CF; 03B0           # L&       GREEK SMALL LETTER UPSILON WITH DIALYTIKA AND OXIA
1FE8          ; NFKC_CF; 1FE0           # L&       GREEK CAPITAL LETTER UPSILON WITH VRACHY
1FE9          ; NFKC_CF; 1FE1           # L&       GREEK CAPITAL LETTER UPSILON WITH MACRON
1FEA          ; NFKC_CF; 1F7A           # L&       GREEK CAPITAL LETTER UPSILON WITH VARIA
1FEB          ; NFKC_CF; 03CD           # L&       GREEK CAPITAL LETTER UPSILON WITH OXIA
1FEC          ; NFKC_CF; 1FE5           # L&       GREEK CAPITAL LETTER RHO WITH DASIA
1FED          ; NFKC_CF; 0020 0308 0300 # Sk       GREEK DIALYTIKA AND VARIA
1FEE          ; NFKC_CF; 0020 0308 0301 # Sk       GREEK DIALYTIKA AND OXIA
1FEF          ; NFKC_CF; 0060           # Sk       GREEK VARIA
1FF2          ; NFKC_CF; 1F7C 03B9      # L&       GREEK SMALL LETTER OMEGA WITH VARIA AND YPOGEGRAMMENI
1FF3          ; NFKC_CF; 03C9 03B9      # L&       GREEK SMALL LETTER OMEGA WITH YPOGEGRAMMENI
1FF4          ; NFKC_CF; 03CE 03B9      # L&       GREEK SMALL LETTER OMEGA WITH OXIA AND YPOGEGRAMMENI
1FF7          ; NFKC_CF; 1FF6 03B9      # L&       GREEK SMALL LETTER OMEGA WITH PERISPOMENI AND YPOGEGRAMMENI
1FF8          ; NFKC_CF; 1F78           # L&       GREEK CAPITAL LETTER OMICRON WITH VARIA
1FF9          ; NFKC_CF; 03CC           # L&       GREEK CAPITAL LETTER OMICRON WITH OXIA
1FFA          ; NFKC_CF; 1F7C           # L&       GREEK CAPITAL LETTER OMEGA WITH VARIA
1FFB          ; NFKC_CF; 03CE           # L&       GREEK CAPITAL LETTER OMEGA WITH OXIA
1FFC          ; NFKC_CF; 03C9 03B9      # L&       GREEK CAPITAL LETTER OMEGA WITH PROSGEGRAMMENI
1FFD          ; NFKC_CF; 0020 0301      # Sk       GREEK OXIA
1FFE          ; NFKC_CF; 0020 0314      # Sk       GREEK DASIA
"%string.
Definition props_text_198 := "2000..200A    ; NFKC_CF; 0020           # Zs  [11] EN QUAD..HAIR SPACE
200B..200F    ; NFKC_CF;                # Cf   [5] ZERO WIDTH SPACE..RIGHT-TO-LEFT MARK
2011          ; NFKC_CF; 2010           # Pd       NON-BREAKING HYPHEN
2017          ; NFKC_CF; 0020 0333      # Po       DOUBLE LOW LINE
2024          ; NFKC_CF; 002E           # Po       ONE DOT LEADER
2025          ; NFKC_CF; 002E 002E      # Po       TWO DOT LEADER
2026          ; NFKC_CF; 002E 002E 002E # Po       HORIZONTAL ELLIPSIS
202A..202E    ; NFKC_CF;                # Cf   [5] LEFT-TO-RIGHT EMBEDDING..RIGHT-TO-LEFT OVERRIDE
202F          ; NFKC_CF; 0020           # Zs       NARROW NO-BREAK SPACE
2033          ; NFKC_CF; 2032 2032      # Po       DOUBLE PRIME
2034          ; NFKC_CF; 2032 2032 2032 # Po       TRIPLE PRIME
2036          ; NFKC_CF; 2035 2035      # Po       REVERSED DOUBLE PRIME
2037          ; NFKC_CF; 2035 2035 2035 # Po       REVERSED TRIPLE PRIME
203C          ; NFKC_CF; 0021 0021      # Po       DOUBLE EXCLAMATION MARK
203E          ; NFKC_CF; 0020 0305      # Po       OVERLINE
2047          ; NFKC_CF; 003F 003F      # Po       DOUBLE QUESTION MARK
2048          ; NFKC_CF; 003F 0021      # Po       QUESTION EXCLAMATION MARK
2049          ; NFKC_CF; 0021 003F      # Po       EXCLAMATION QUESTION MARK
2057          ; NFKC_CF; 2032 2032 2032 2032 #Po   QUADRUPLE PRIME
205F          ; NFKC_CF; 0020           # Zs       MEDIUM MATHEMATICAL SPACE
"%string.
Definition props_text_199 := "2060..2064    ; NFKC_CF;                # Cf   [5] WORD JOINER..INVISIBLE PLUS
2065          ; NFKC_CF;                # Cn       <reserved-2065>
2066..206F    ; NFKC_CF;                # Cf  [10] LEFT-TO-RIGHT ISOLATE..NOMINAL DIGIT SHAPES
2070          ; NFKC_CF; 0030           # No       SUPERSCRIPT ZERO
2071          ; NFKC_CF; 0069           # Lm       SUPERSCRIPT LATIN SMALL LETTER I
2074          ; NFKC_CF; 0034           # No       SUPERSCRIPT FOUR
2075          ; NFKC_CF; 0035           # No       SUPERSCRIPT FIVE
2076          ; NFKC_CF; 0036           # No       SUPERSCRIPT SIX
2077          ; NFKC_CF; 0037           # No       SUPERSCRIPT SEVEN
2078          ; NFKC_CF; 0038           # No       SUPERSCRIPT EIGHT
2079          ; NFKC_CF; 0039           # No       SUPERSCRIPT NINE
207A          ; NFKC_CF; 002B           # Sm       SUPERSCRIPT PLUS SIGN
207B          ; NFKC_CF; 2212           # Sm       SUPERSCRIPT MINUS
207C          ; NFKC_CF; 003D           # Sm       SUPERSCRIPT EQUALS SIGN
207D          ; NFKC_CF; 0028           # Ps       SUPERSCRIPT LEFT PARENTHESIS
207E          ; NFKC_CF; 0029           # Pe       SUPERSCRIPT RIGHT PARENTHESIS
207F          ; NFKC_CF; 006E           # Lm       SUPERSCRIPT LATIN SMALL LETTER N
2080          ; NFKC_CF; 0030           # No       SUBSCRIPT ZERO
2081          ; NFKC_CF; 0031           # No       SUBSCRIPT ONE
2082          ; NFKC_CF; 0032           # No       SUBSCRIPT TWO
"%string.
Definition props_text_200 := "2083          ; NFKC_CF; 0033           # No       SUBSCRIPT THREE
2084          ; NFKC_CF; 0034           # No       SUBSCRIPT FOUR
2085          ; NFKC_CF; 0035           # No       SUBSCRIPT FIVE
2086          ; NFKC_CF; 0036           # No       SUBSCRIPT SIX
2087          ; NFKC_CF; 0037           # No       SUBSCRIPT SEVEN
2088          ; NFKC_CF; 0038           # No       SUBSCRIPT EIGHT
2089          ; NFKC_CF; 0039           # No       SUBSCRIPT NINE
208A          ; NFKC_CF; 002B           # Sm       SUBSCRIPT PLUS SIGN
208B          ; NFKC_CF; 2212           # Sm       SUBSCRIPT MINUS
208C          ; NFKC_CF; 003D           # Sm       SUBSCRIPT EQUALS SIGN
208D          ; NFKC_CF; 0028           # Ps       SUBSCRIPT LEFT PARENTHESIS
208E          ; NFKC_CF; 0029           # Pe       SUBSCRIPT RIGHT PARENTHESIS
2090          ; NFKC_CF; 0061           # Lm       LATIN SUBSCRIPT SMALL LETTER A
2091          ; NFKC_CF; 0065           # Lm       LATIN SUBSCRIPT SMALL LETTER E
2092          ; NFKC_CF; 006F           # Lm       LATIN SUBSCRIPT SMALL LETTER O
2093          ; NFKC_CF; 0078           # Lm       LATIN SUBSCRIPT SMALL LETTER X
2094          ; NFKC_CF; 0259           # Lm       LATIN SUBSCRIPT SMALL LETTER SCHWA
2095          ; NFKC_CF; 0068           # Lm       LATIN SUBSCRIPT SMALL LETTER H
2096          ; NFKC_CF; 006B           # Lm       LATIN SUBSCRIPT SMALL LETTER K
2097          ; NFKC_CF; 006C           # Lm       LATIN SUBSCRIPT SMALL LETTER L
"%string.
Definition props_text_201 := "2098          ; NFKC_CF; 006D           # Lm       LATIN SUBSCRIPT SMALL LETTER M
2099          ; NFKC_CF; 006E           # Lm       LATIN SUBSCRIPT SMALL LETTER N
209A          ; NFKC_CF; 0070           # Lm       LATIN SUBSCRIPT SMALL LETTER P
209B          ; NFKC_CF; 0073           # Lm       LATIN SUBSCRIPT SMALL LETTER S
209C          ; NFKC_CF; 0074           # Lm       LATIN SUBSCRIPT SMALL LETTER T
20A8          ; NFKC_CF; 0072 0073      # Sc       RUPEE SIGN
2100          ; NFKC_CF; 0061 002F 0063 # So       ACCOUNT OF
2101          ; NFKC_CF; 0061 002F 0073 # So       ADDRESSED TO THE SUBJECT
2102          ; NFKC_CF; 0063           # L&       DOUBLE-STRUCK CAPITAL C
2103          ; NFKC_CF; 00B0 0063      # So       DEGREE CELSIUS
2105          ; NFKC_CF; 0063 002F 006F # So       CARE OF
2106          ; NFKC_CF; 0063 002F 0075 # So       CADA UNA
2107          ; NFKC_CF; 025B           # L&       EULER CONSTANT
2109          ; NFKC_CF; 00B0 0066      # So       DEGREE FAHRENHEIT
210A          ; NFKC_CF; 0067           # L&       SCRIPT SMALL G
210B..210E    ; NFKC_CF; 0068           # L&   [4] SCRIPT CAPITAL H..PLANCK CONSTANT
210F          ; NFKC_CF; 0127           # L&       PLANCK CONSTANT OVER TWO PI
2110..2111    ; NFKC_CF; 0069           # L&   [2] SCRIPT CAPITAL I..BLACK-LETTER CAPITAL I
2112..2113    ; NFKC_CF; 006C           # L&   [2] SCRIPT CAPITAL L..SCRIPT SMALL L
2115          ; NFKC_CF; 006E           # L&       DOUBLE-STRUCK CAPITAL N
"%string.
Definition props_text_202 := "2116          ; NFKC_CF; 006E 006F      # So       NUMERO SIGN
2119          ; NFKC_CF; 0070           # L&       DOUBLE-STRUCK CAPITAL P
211A          ; NFKC_CF; 0071           # L&       DOUBLE-STRUCK CAPITAL Q
211B..211D    ; NFKC_CF; 0072           # L&   [3] SCRIPT CAPITAL R..DOUBLE-STRUCK CAPITAL R
2120          ; NFKC_CF; 0073 006D      # So       SERVICE MARK
2121          ; NFKC_CF; 0074 0065 006C # So       TELEPHONE SIGN
2122          ; NFKC_CF; 0074 006D      # So       TRADE MARK SIGN
2124          ; NFKC_CF; 007A           # L&       DOUBLE-STRUCK CAPITAL Z
2126          ; NFKC_CF; 03C9           # L&       OHM SIGN
2128          ; NFKC_CF; 007A           # L&       BLACK-LETTER CAPITAL Z
212A          ; NFKC_CF; 006B           # L&       KELVIN SIGN
212B          ; NFKC_CF; 00E5           # L&       ANGSTROM SIGN
212C          ; NFKC_CF; 0062           # L&       SCRIPT CAPITAL B
212D          ; NFKC_CF; 0063           # L&       BLACK-LETTER CAPITAL C
212F..2130    ; NFKC_CF; 0065           # L&   [2] SCRIPT SMALL E..SCRIPT CAPITAL E
2131          ; NFKC_CF; 0066           # L&       SCRIPT CAPITAL F
2132          ; NFKC_CF; 214E           # L&       TURNED CAPITAL F
2133          ; NFKC_CF; 006D           # L&       SCRIPT CAPITAL M
2134          ; NFKC_CF; 006F           # L&       SCRIPT SMALL O
2135          ; NFKC_CF; 05D0           # Lo       ALEF SYMBOL
"%string.
Definition props_text_203 := "2136          ; NFKC_CF; 05D1           # Lo       BET SYMBOL
2137          ; NFKC_CF; 05D2           # Lo       GIMEL SYMBOL
2138          ; NFKC_CF; 05D3           # Lo       DALET SYMBOL
2139          ; NFKC_CF; 0069           # L&       INFORMATION SOURCE
213B          ; NFKC_CF; 0066 0061 0078 # So       FACSIMILE SIGN
213C          ; NFKC_CF; 03C0           # L&       DOUBLE-STRUCK SMALL PI
213D..213E    ; NFKC_CF; 03B3           # L&   [2] DOUBLE-STRUCK SMALL GAMMA..DOUBLE-STRUCK CAPITAL GAMMA
213F          ; NFKC_CF; 03C0           # L&       DOUBLE-STRUCK CAPITAL PI
2140          ; NFKC_CF; 2211           # Sm       DOUBLE-STRUCK N-ARY SUMMATION
2145..2146    ; NFKC_CF; 0064           # L&   [2] DOUBLE-STRUCK ITALIC CAPITAL D..DOUBLE-STRUCK ITALIC SMALL D
2147          ; NFKC_CF; 0065           # L&       DOUBLE-STRUCK ITALIC SMALL E
2148          ; NFKC_CF; 0069           # L&       DOUBLE-STRUCK ITALIC SMALL I
2149          ; NFKC_CF; 006A           # L&       DOUBLE-STRUCK ITALIC SMALL J
2150          ; NFKC_CF; 0031 2044 0037 # No       VULGAR FRACTION ONE SEVENTH
2151          ; NFKC_CF; 0031 2044 0039 # No       VULGAR FRACTION ONE NINTH
2152          ; NFKC_CF; 0031 2044 0031 0030 #No   VULGAR FRACTION ONE TENTH
2153          ; NFKC_CF; 0031 2044 0033 # No       VULGAR FRACTION ONE THIRD
2154          ; NFKC_CF; 0032 2044 0033 # No       VULGAR FRACTION TWO THIRDS
2155          ; NFKC_CF; 0031 2044 0035 # No       VULGAR FRACTION ONE FIFTH
2156          ; NFKC_CF; 0032 2044 0035 # No       VULGAR FRACTION TWO FIFTHS
"%string.
Definition props_text_204 := "2157          ; NFKC_CF; 0033 2044 0035 # No       VULGAR FRACTION THREE FIFTHS
2158          ; NFKC_CF; 0034 2044 0035 # No       VULGAR FRACTION FOUR FIFTHS
2159          ; NFKC_CF; 0031 2044 0036 # No       VULGAR FRACTION ONE SIXTH
215A          ; NFKC_CF; 0035 2044 0036 # No       VULGAR FRACTION FIVE SIXTHS
215B          ; NFKC_CF; 0031 2044 0038 # No       VULGAR FRACTION ONE EIGHTH
215C          ; NFKC_CF; 0033 2044 0038 # No       VULGAR FRACTION THREE EIGHTHS
215D          ; NFKC_CF; 0035 2044 0038 # No       VULGAR FRACTION FIVE EIGHTHS
215E          ; NFKC_CF; 0037 2044 0038 # No       VULGAR FRACTION SEVEN EIGHTHS
215F          ; NFKC_CF; 0031 2044      # No       FRACTION NUMERATOR ONE
2160          ; NFKC_CF; 0069           # Nl       ROMAN NUMERAL ONE
2161          ; NFKC_CF; 0069 0069      # Nl       ROMAN NUMERAL TWO
2162          ; NFKC_CF; 0069 0069 0069 # Nl       ROMAN NUMERAL THREE
2163          ; NFKC_CF; 0069 0076      # Nl       ROMAN NUMERAL FOUR
2164          ; NFKC_CF; 0076           # Nl       ROMAN NUMERAL FIVE
2165          ; NFKC_CF; 0076 0069      # Nl       ROMAN NUMERAL SIX
2166          ; NFKC_CF; 0076 0069 0069 # Nl       ROMAN NUMERAL SEVEN
2167          ; NFKC_CF; 0076 0069 0069 0069 #Nl   ROMAN NUMERAL EIGHT
2168          ; NFKC_CF; 0069 0078      # Nl       ROMAN NUMERAL NINE
2169          ; NFKC_CF; 0078           # Nl       ROMAN NUMERAL TEN
216A          ; NFKC_CF; 0078 0069      # Nl       ROMAN NUMERAL ELEVEN
"%string.
Definition props_text_205 := "216B          ; NFKC_CF; 0078 0069 0069 # Nl       ROMAN NUMERAL TWELVE
216C          ; NFKC_CF; 006C           # Nl       ROMAN NUMERAL FIFTY
216D          ; NFKC_CF; 0063           # Nl       ROMAN NUMERAL ONE HUNDRED
216E          ; NFKC_CF; 0064           # Nl       ROMAN NUMERAL FIVE HUNDRED
216F          ; NFKC_CF; 006D           # Nl       ROMAN NUMERAL ONE THOUSAND
2170          ; NFKC_CF; 0069           # Nl       SMALL ROMAN NUMERAL ONE
2171          ; NFKC_CF; 0069 0069      # Nl       SMALL ROMAN NUMERAL TWO
2172          ; NFKC_CF; 0069 0069 0069 # Nl       SMALL ROMAN NUMERAL THREE
2173          ; NFKC_CF; 0069 0076      # Nl       SMALL ROMAN NUMERAL FOUR
2174          ; NFKC_CF; 0076           # Nl       SMALL ROMAN NUMERAL FIVE
2175          ; NFKC_CF; 0076 0069      # Nl       SMALL ROMAN NUMERAL SIX
2176          ; NFKC_CF; 0076 0069 0069 # Nl       SMALL ROMAN NUMERAL SEVEN
2177          ; NFKC_CF; 0076 0069 0069 0069 #Nl   SMALL ROMAN NUMERAL EIGHT
2178          ; NFKC_CF; 0069 0078      # Nl       SMALL ROMAN NUMERAL NINE
2179          ; NFKC_CF; 0078           # Nl       SMALL ROMAN NUMERAL TEN
217A          ; NFKC_CF; 0078 0069      # Nl       SMALL ROMAN NUMERAL ELEVEN
217B          ; NFKC_CF; 0078 0069 0069 # Nl       SMALL ROMAN NUMERAL TWELVE
217C          ; NFKC_CF; 006C           # Nl       SMALL ROMAN NUMERAL FIFTY
217D          ; NFKC_CF; 0063           # Nl       SMALL ROMAN NUMERAL ONE HUNDRED
217E          ; NFKC_CF; 0064           # Nl       SMALL ROMAN NUMERAL FIVE HUNDRED
"%string.
Definition props_text_206 := "217F          ; NFKC_CF; 006D           # Nl       SMALL ROMAN NUMERAL ONE THOUSAND
2183          ; NFKC_CF; 2184           # L&       ROMAN NUMERAL REVERSED ONE HUNDRED
2189          ; NFKC_CF; 0030 2044 0033 # No       VULGAR FRACTION ZERO THIRDS
222C          ; NFKC_CF; 222B 222B      # Sm       DOUBLE INTEGRAL
222D          ; NFKC_CF; 222B 222B 222B # Sm       TRIPLE INTEGRAL
222F          ; NFKC_CF; 222E 222E      # Sm       SURFACE INTEGRAL
2230          ; NFKC_CF; 222E 222E 222E # Sm       VOLUME INTEGRAL
2329          ; NFKC_CF; 3008           # Ps       LEFT-POINTING ANGLE BRACKET
232A          ; NFKC_CF; 3009           # Pe       RIGHT-POINTING ANGLE BRACKET
2460          ; NFKC_CF; 0031           # No       CIRCLED DIGIT ONE
2461          ; NFKC_CF; 0032           # No       CIRCLED DIGIT TWO
2462          ; NFKC_CF; 0033           # No       CIRCLED DIGIT THREE
2463          ; NFKC_CF; 0034           # No       CIRCLED DIGIT FOUR
2464          ; NFKC_CF; 0035           # No       CIRCLED DIGIT FIVE
2465          ; NFKC_CF; 0036           # No       CIRCLED DIGIT SIX
2466          ; NFKC_CF; 0037           # No       CIRCLED DIGIT SEVEN
2467          ; NFKC_CF; 0038           # No       CIRCLED DIGIT EIGHT
2468          ; NFKC_CF; 0039           # No       CIRCLED DIGIT NINE
2469          ; NFKC_CF; 0031 0030      # No       CIRCLED NUMBER TEN
246A          ; NFKC_CF; 0031 0031      # No       CIRCLED NUMBER ELEVEN
"%string.
Definition props_text_207 := "246B          ; NFKC_CF; 0031 0032      # No       CIRCLED NUMBER TWELVE
246C          ; NFKC_CF; 0031 0033      # No       CIRCLED NUMBER THIRTEEN
246D          ; NFKC_CF; 0031 0034      # No       CIRCLED NUMBER FOURTEEN
246E          ; NFKC_CF; 0031 0035      # No       CIRCLED NUMBER FIFTEEN
246F          ; NFKC_CF; 0031 0036      # No       CIRCLED NUMBER SIXTEEN
2470          ; NFKC_CF; 0031 0037      # No       CIRCLED NUMBER SEVENTEEN
2471          ; NFKC_CF; 0031 0038      # No       CIRCLED NUMBER EIGHTEEN
2472          ; NFKC_CF; 0031 0039      # No       CIRCLED NUMBER NINETEEN
2473          ; NFKC_CF; 0032 0030      # No       CIRCLED NUMBER TWENTY
2474          ; NFKC_CF; 0028 0031 0029 # No       PARENTHESIZED DIGIT ONE
2475          ; NFKC_CF; 0028 0032 0029 # No       PARENTHESIZED DIGIT TWO
2476          ; NFKC_CF; 0028 0033 0029 # No       PARENTHESIZED DIGIT THREE
2477          ; NFKC_CF; 0028 0034 0029 # No       PARENTHESIZED DIGIT FOUR
2478          ; NFKC_CF; 0028 0035 0029 # No       PARENTHESIZED DIGIT FIVE
2479          ; NFKC_CF; 0028 0036 0029 # No       PARENTHESIZED DIGIT SIX
247A          ; NFKC_CF; 0028 0037 0029 # No       PARENTHESIZED DIGIT SEVEN
247B          ; NFKC_CF; 0028 0038 0029 # No       PARENTHESIZED DIGIT EIGHT
247C          ; NFKC_CF; 0028 0039 0029 # No       PARENTHESIZED DIGIT NINE
247D          ; NFKC_CF; 0028 0031 0030 0029 #No   PARENTHESIZED NUMBER TEN
247E          ; NFKC_CF; 0028 0031 0031 0029 #No   PARENTHESIZED NUMBER ELEVEN
"%string.
Definition props_text_208 := "247F          ; NFKC_CF; 0028 0031 0032 0029 #No   PARENTHESIZED NUMBER TWELVE
2480          ; NFKC_CF; 0028 0031 0033 0029 #No   PARENTHESIZED NUMBER THIRTEEN
2481          ; NFKC_CF; 0028 0031 0034 0029 #No   PARENTHESIZED NUMBER FOURTEEN
2482          ; NFKC_CF; 0028 0031 0035 0029 #No   PARENTHESIZED NUMBER FIFTEEN
2483          ; NFKC_CF; 0028 0031 0036 0029 #No   PARENTHESIZED NUMBER SIXTEEN
2484          ; NFKC_CF; 0028 0031 0037 0029 #No   PARENTHESIZED NUMBER SEVENTEEN
2485          ; NFKC_CF; 0028 0031 0038 0029 #No   PARENTHESIZED NUMBER EIGHTEEN
2486          ; NFKC_CF; 0028 0031 0039 0029 #No   PARENTHESIZED NUMBER NINETEEN
2487          ; NFKC_CF; 0028 0032 0030 0029 #No   PARENTHESIZED NUMBER TWENTY
2488          ; NFKC_CF; 0031 002E      # No       DIGIT ONE FULL STOP
2489          ; NFKC_CF; 0032 002E      # No       DIGIT TWO FULL STOP
248A          ; NFKC_CF; 0033 002E      # No       DIGIT THREE FULL STOP
248B          ; NFKC_CF; 0034 002E      # No       DIGIT FOUR FULL STOP
248C          ; NFKC_CF; 0035 002E      # No       DIGIT FIVE FULL STOP
248D          ; NFKC_CF; 0036 002E      # No       DIGIT SIX FULL STOP
248E          ; NFKC_CF; 0037 002E      # No       DIGIT SEVEN FULL STOP
248F          ; NFKC_CF; 0038 002E      # No       DIGIT EIGHT FULL STOP
2490          ; NFKC_CF; 0039 002E      # No       DIGIT NINE FULL STOP
2491          ; NFKC_CF; 0031 0030 002E # No       NUMBER TEN FULL STOP
2492          ; NFKC_CF; 0031 0031 002E # No       NUMBER ELEVEN FULL STOP
"%string.
Definition props_text_209 := "2493          ; NFKC_CF; 0031 0032 002E # No       NUMBER TWELVE FULL STOP
2494          ; NFKC_CF; 0031 0033 002E # No       NUMBER THIRTEEN FULL STOP
2495          ; NFKC_CF; 0031 0034 002E # No       NUMBER FOURTEEN FULL STOP
2496          ; NFKC_CF; 0031 0035 002E # No       NUMBER FIFTEEN FULL STOP
2497          ; NFKC_CF; 0031 0036 002E # No       NUMBER SIXTEEN FULL STOP
2498          ; NFKC_CF; 0031 0037 002E # No       NUMBER SEVENTEEN FULL STOP
2499          ; NFKC_CF; 0031 0038 002E # No       NUMBER EIGHTEEN FULL STOP
249A          ; NFKC_CF; 0031 0039 002E # No       NUMBER NINETEEN FULL STOP
249B          ; NFKC_CF; 0032 0030 002E # No       NUMBER TWENTY FULL STOP
249C          ; NFKC_CF; 0028 0061 0029 # So       PARENTHESIZED LATIN SMALL LETTER A
249D          ; NFKC_CF; 0028 0062 0029 # So       PARENTHESIZED LATIN SMALL LETTER B
249E          ; NFKC_CF; 0028 0063 0029 # So       PARENTHESIZED LATIN SMALL LETTER C
249F          ; NFKC_CF; 0028 0064 0029 # So       PARENTHESIZED LATIN SMALL LETTER D
24A0          ; NFKC_CF; 0028 0065 0029 # So       PARENTHESIZED LATIN SMALL LETTER E
24A1          ; NFKC_CF; 0028 0066 0029 # So       PARENTHESIZED LATIN SMALL LETTER F
24A2          ; NFKC_CF; 0028 0067 0029 # So       PARENTHESIZED LATIN SMALL LETTER G
24A3          ; NFKC_CF; 0028 0068 0029 # So       PARENTHESIZED LATIN SMALL LETTER H
24A4          ; NFKC_CF; 0028 0069 0029 # So       PARENTHESIZED LATIN SMALL LETTER I
24A5          ; NFKC_CF; 0028 006A 0029 # So       PARENTHESIZED LATIN SMALL LETTER J
24A6          ; NFKC_CF; 0028 006B 0029 # So       PARENTHESIZED LATIN SMALL LETTER K
"%string.
Definition props_text_210 := "24A7          ; NFKC_CF; 0028 006C 0029 # So       PARENTHESIZED LATIN SMALL LETTER L
24A8          ; NFKC_CF; 0028 006D 0029 # So       PARENTHESIZED LATIN SMALL LETTER M
24A9          ; NFKC_CF; 0028 006E 0029 # So       PARENTHESIZED LATIN SMALL LETTER N
24AA          ; NFKC_CF; 0028 006F 0029 # So       PARENTHESIZED LATIN SMALL LETTER O
24AB          ; NFKC_CF; 0028 0070 0029 # So       PARENTHESIZED LATIN SMALL LETTER P
24AC          ; NFKC_CF; 0028 0071 0029 # So       PARENTHESIZED LATIN SMALL LETTER Q
24AD          ; NFKC_CF; 0028 0072 0029 # So       PARENTHESIZED LATIN SMALL LETTER R
24AE          ; NFKC_CF; 0028 0073 0029 # So       PARENTHESIZED LATIN SMALL LETTER S
24AF          ; NFKC_CF; 0028 0074 0029 # So       PARENTHESIZED LATIN SMALL LETTER T
24B0          ; NFKC_CF; 0028 0075 0029 # So       PARENTHESIZED LATIN SMALL LETTER U
24B1          ; NFKC_CF; 0028 0076 0029 # So       PARENTHESIZED LATIN SMALL LETTER V
24B2          ; NFKC_CF; 0028 0077 0029 # So       PARENTHESIZED LATIN SMALL LETTER W
24B3          ; NFKC_CF; 0028 0078 0029 # So       PARENTHESIZED LATIN SMALL LETTER X
24B4          ; NFKC_CF; 0028 0079 0029 # So       PARENTHESIZED LATIN SMALL LETTER Y
24B5          ; NFKC_CF; 0028 007A 0029 # So       PARENTHESIZED LATIN SMALL LETTER Z
24B6          ; NFKC_CF; 0061           # So       CIRCLED LATIN CAPITAL LETTER A
24B7          ; NFKC_CF; 0062           # So       CIRCLED LATIN CAPITAL LETTER B
24B8          ; NFKC_CF; 0063           # So       CIRCLED LATIN CAPITAL LETTER C
24B9          ; NFKC_CF; 0064           # So       CIRCLED LATIN CAPITAL LETTER D
24BA          ; NFKC_CF; 0065           # So       CIRCLED LATIN CAPITAL LETTER E
"%string.
Definition props_text_211 := "24BB          ; NFKC_CF; 0066           # So       CIRCLED LATIN CAPITAL LETTER F
24BC          ; NFKC_CF; 0067           # So       CIRCLED LATIN CAPITAL LETTER G
24BD          ; NFKC_CF; 0068           # So       CIRCLED LATIN CAPITAL LETTER H
24BE          ; NFKC_CF; 0069           # So       CIRCLED LATIN CAPITAL LETTER I
24BF          ; NFKC_CF; 006A           # So       CIRCLED LATIN CAPITAL LETTER J
24C0          ; NFKC_CF; 006B           # So       CIRCLED LATIN CAPITAL LETTER K
24C1          ; NFKC_CF; 006C           # So       CIRCLED LATIN CAPITAL LETTER L
24C2          ; NFKC_CF; 006D           # So       CIRCLED LATIN CAPITAL LETTER M
24C3          ; NFKC_CF; 006E           # So       CIRCLED LATIN CAPITAL LETTER N
24C4          ; NFKC_CF; 006F           # So       CIRCLED LATIN CAPITAL LETTER O
24C5          ; NFKC_CF; 0070           # So       CIRCLED LATIN CAPITAL LETTER P
24C6          ; NFKC_CF; 0071           # So       CIRCLED LATIN CAPITAL LETTER Q
24C7          ; NFKC_CF; 0072           # So       CIRCLED LATIN CAPITAL LETTER R
24C8          ; NFKC_CF; 0073           # So       CIRCLED LATIN CAPITAL LETTER S
24C9          ; NFKC_CF; 0074           # So       CIRCLED LATIN CAPITAL LETTER T
24CA          ; NFKC_CF; 0075           # So       CIRCLED LATIN CAPITAL LETTER U
24CB          ; NFKC_CF; 0076           # So       CIRCLED LATIN CAPITAL LETTER V
24CC          ; NFKC_CF; 0077           # So       CIRCLED LATIN CAPITAL LETTER W
24CD          ; NFKC_CF; 0078           # So       CIRCLED LATIN CAPITAL LETTER X
24CE          ; NFKC_CF; 0079           # So       CIRCLED LATIN CAPITAL LETTER Y
"%string.
Definition props_text_212 := "24CF          ; NFKC_CF; 007A           # So       CIRCLED LATIN CAPITAL LETTER Z
24D0          ; NFKC_CF; 0061           # So       CIRCLED LATIN SMALL LETTER A
24D1          ; NFKC_CF; 0062           # So       CIRCLED LATIN SMALL LETTER B
24D2          ; NFKC_CF; 0063           # So       CIRCLED LATIN SMALL LETTER C
24D3          ; NFKC_CF; 0064           # So       CIRCLED LATIN SMALL LETTER D
24D4          ; NFKC_CF; 0065           # So       CIRCLED LATIN SMALL LETTER E
24D5          ; NFKC_CF; 0066           # So       CIRCLED LATIN SMALL LETTER F
24D6          ; NFKC_CF; 0067           # So       CIRCLED LATIN SMALL LETTER G
24D7          ; NFKC_CF; 0068           # So       CIRCLED LATIN SMALL LETTER H
24D8          ; NFKC_CF; 0069           # So       CIRCLED LATIN SMALL LETTER I
24D9          ; NFKC_CF; 006A           # So       CIRCLED LATIN SMALL LETTER J
24DA          ; NFKC_CF; 006B           # So       CIRCLED LATIN SMALL LETTER K
24DB          ; NFKC_CF; 006C           # So       CIRCLED LATIN SMALL LETTER L
24DC          ; NFKC_CF; 006D           # So       CIRCLED LATIN SMALL LETTER M
24DD          ; NFKC_CF; 006E           # So       CIRCLED LATIN SMALL LETTER N
24DE          ; NFKC_CF; 006F           # So       CIRCLED LATIN SMALL LETTER O
24DF          ; NFKC_CF; 0070           # So       CIRCLED LATIN SMALL LETTER P
24E0          ; NFKC_CF; 0071           # So       CIRCLED LATIN SMALL LETTER Q
24E1          ; NFKC_CF; 0072           # So       CIRCLED LATIN SMALL LETTER R
24E2          ; NFKC_CF; 0073           # So       CIRCLED LATIN SMALL LETTER S
"%string.
Definition props_text_213 := "24E3          ; NFKC_CF; 0074           # So       CIRCLED LATIN SMALL LETTER T
24E4          ; NFKC_CF; 0075           # So       CIRCLED LATIN SMALL LETTER U
24E5          ; NFKC_CF; 0076           # So       CIRCLED LATIN SMALL LETTER V
24E6          ; NFKC_CF; 0077           # So       CIRCLED LATIN SMALL LETTER W
24E7          ; NFKC_CF; 0078           # So       CIRCLED LATIN SMALL LETTER X
24E8          ; NFKC_CF; 0079           # So       CIRCLED LATIN SMALL LETTER Y
24E9          ; NFKC_CF; 007A           # So       CIRCLED LATIN SMALL LETTER Z
24EA          ; NFKC_CF; 0030           # No       CIRCLED DIGIT ZERO
2A0C          ; NFKC_CF; 222B 222B 222B 222B #Sm   QUADRUPLE INTEGRAL OPERATOR
2A74          ; NFKC_CF; 003A 003A 003D # Sm       DOUBLE COLON EQUAL
2A75          ; NFKC_CF; 003D 003D      # Sm       TWO CONSECUTIVE EQUALS SIGNS
2A76          ; NFKC_CF; 003D 003D 003D # Sm       THREE CONSECUTIVE EQUALS SIGNS
2ADC          ; NFKC_CF; 2ADD 0338      # Sm       FORKING
2C00          ; NFKC_CF; 2C30           # L&       GLAGOLITIC CAPITAL LETTER AZU
2C01          ; NFKC_CF; 2C31           # L&       GLAGOLITIC CAPITAL LETTER BUKY
2C02          ; NFKC_CF; 2C32           # L&       GLAGOLITIC CAPITAL LETTER VEDE
2C03          ; NFKC_CF; 2C33           # L&       GLAGOLITIC CAPITAL LETTER GLAGOLI
2C04          ; NFKC_CF; 2C34           # L&       GLAGOLITIC CAPITAL LETTER DOBRO
2C05          ; NFKC_CF; 2C35           # L&       GLAGOLITIC CAPITAL LETTER YESTU
2C06          ; NFKC_CF; 2C36           # L&       GLAGOLITIC CAPITAL LETTER ZHIVETE
"%string.
Definition props_text_214 := "2C07          ; NFKC_CF; 2C37           # L&       GLAGOLITIC CAPITAL LETTER DZELO
2C08          ; NFKC_CF; 2C38           # L&       GLAGOLITIC CAPITAL LETTER ZEMLJA
2C09          ; NFKC_CF; 2C39           # L&       GLAGOLITIC CAPITAL LETTER IZHE
2C0A          ; NFKC_CF; 2C3A           # L&       GLAGOLITIC CAPITAL LETTER INITIAL IZHE
2C0B          ; NFKC_CF; 2C3B           # L&       GLAGOLITIC CAPITAL LETTER I
2C0C          ; NFKC_CF; 2C3C           # L&       GLAGOLITIC CAPITAL LETTER DJERVI
2C0D          ; NFKC_CF; 2C3D           # L&       GLAGOLITIC CAPITAL LETTER KAKO
2C0E          ; NFKC_CF; 2C3E           # L&       GLAGOLITIC CAPITAL LETTER LJUDIJE
2C0F          ; NFKC_CF; 2C3F           # L&       GLAGOLITIC CAPITAL LETTER MYSLITE
2C10          ; NFKC_CF; 2C40           # L&       GLAGOLITIC CAPITAL LETTER NASHI
2C11          ; NFKC_CF; 2C41           # L&       GLAGOLITIC CAPITAL LETTER ONU
2C12          ; NFKC_CF; 2C42           # L&       GLAGOLITIC CAPITAL LETTER POKOJI
2C13          ; NFKC_CF; 2C43           # L&       GLAGOLITIC CAPITAL LETTER RITSI
2C14          ; NFKC_CF; 2C44           # L&       GLAGOLITIC CAPITAL LETTER SLOVO
2C15          ; NFKC_CF; 2C45           # L&       GLAGOLITIC CAPITAL LETTER TVRIDO
2C16          ; NFKC_CF; 2C46           # L&       GLAGOLITIC CAPITAL LETTER UKU
2C17          ; NFKC_CF; 2C47           # L&       GLAGOLITIC CAPITAL LETTER FRITU
2C18          ; NFKC_CF; 2C48           # L&       GLAGOLITIC CAPITAL LETTER HERU
2C19          ; NFKC_CF; 2C49           # L&       GLAGOLITIC CAPITAL LETTER OTU
2C1A          ; NFKC_CF; 2C4A           # L&       GLAGOLITIC CAPITAL LETTER PE
"%string.
Definition props_text_215 := "2C1B          ; NFKC_CF; 2C4B           # L&       GLAGOLITIC CAPITAL LETTER SHTA
2C1C          ; NFKC_CF; 2C4C           # L&       GLAGOLITIC CAPITAL LETTER TSI
2C1D          ; NFKC_CF; 2C4D           # L&       GLAGOLITIC CAPITAL LETTER CHRIVI
2C1E          ; NFKC_CF; 2C4E           # L&       GLAGOLITIC CAPITAL LETTER SHA
2C1F          ; NFKC_CF; 2C4F           # L&       GLAGOLITIC CAPITAL LETTER YERU
2C20          ; NFKC_CF; 2C50           # L&       GLAGOLITIC CAPITAL LETTER YERI
2C21          ; NFKC_CF; 2C51           # L&       GLAGOLITIC CAPITAL LETTER YATI
2C22          ; NFKC_CF; 2C52           # L&       GLAGOLITIC CAPITAL LETTER SPIDERY HA
2C23          ; NFKC_CF; 2C53           # L&       GLAGOLITIC CAPITAL LETTER YU
2C24          ; NFKC_CF; 2C54           # L&       GLAGOLITIC CAPITAL LETTER SMALL YUS
2C25          ; NFKC_CF; 2C55           # L&       GLAGOLITIC CAPITAL LETTER SMALL YUS WITH TAIL
2C26          ; NFKC_CF; 2C56           # L&       GLAGOLITIC CAPITAL LETTER YO
2C27          ; NFKC_CF; 2C57           # L&       GLAGOLITIC CAPITAL LETTER IOTATED SMALL YUS
2C28          ; NFKC_CF; 2C58           # L&       GLAGOLITIC CAPITAL LETTER BIG YUS
2C29          ; NFKC_CF; 2C59           # L&       GLAGOLITIC CAPITAL LETTER IOTATED BIG YUS
2C2A          ; NFKC_CF; 2C5A           # L&       GLAGOLITIC CAPITAL LETTER FITA
2C2B          ; NFKC_CF; 2C5B           # L&       GLAGOLITIC CAPITAL LETTER IZHITSA
2C2C          ; NFKC_CF; 2C5C           # L&       GLAGOLITIC CAPITAL LETTER SHTAPIC
2C2D          ; NFKC_CF; 2C5D           # L&       GLAGOLITIC CAPITAL LETTER TROKUTASTI A
2C2E          ; NFKC_CF; 2C5E           # L&       GLAGOLITIC CAPITAL LETTER LATINATE MYSLITE
"%string.
Definition props_text_216 := "2C60          ; NFKC_CF; 2C61           # L&       LATIN CAPITAL LETTER L WITH DOUBLE BAR
2C62          ; NFKC_CF; 026B           # L&       LATIN CAPITAL LETTER L WITH MIDDLE TILDE
2C63          ; NFKC_CF; 1D7D           # L&       LATIN CAPITAL LETTER P WITH STROKE
2C64          ; NFKC_CF; 027D           # L&       LATIN CAPITAL LETTER R WITH TAIL
2C67          ; NFKC_CF; 2C68           # L&       LATIN CAPITAL LETTER H WITH DESCENDER
2C69          ; NFKC_CF; 2C6A           # L&       LATIN CAPITAL LETTER K WITH DESCENDER
2C6B          ; NFKC_CF; 2C6C           # L&       LATIN CAPITAL LETTER Z WITH DESCENDER
2C6D          ; NFKC_CF; 0251           # L&       LATIN CAPITAL LETTER ALPHA
2C6E          ; NFKC_CF; 0271           # L&       LATIN CAPITAL LETTER M WITH HOOK
2C6F          ; NFKC_CF; 0250           # L&       LATIN CAPITAL LETTER TURNED A
2C70          ; NFKC_CF; 0252           # L&       LATIN CAPITAL LETTER TURNED ALPHA
2C72          ; NFKC_CF; 2C73           # L&       LATIN CAPITAL LETTER W WITH HOOK
2C75          ; NFKC_CF; 2C76           # L&       LATIN CAPITAL LETTER HALF H
2C7C          ; NFKC_CF; 006A           # Lm       LATIN SUBSCRIPT SMALL LETTER J
2C7D          ; NFKC_CF; 0076           # Lm       MODIFIER LETTER CAPITAL V
2C7E          ; NFKC_CF; 023F           # L&       LATIN CAPITAL LETTER S WITH SWASH TAIL
2C7F          ; NFKC_CF; 0240           # L&       LATIN CAPITAL LETTER Z WITH SWASH TAIL
2C80          ; NFKC_CF; 2C81           # L&       COPTIC CAPITAL LETTER ALFA
2C82          ; NFKC_CF; 2C83           # L&       COPTIC CAPITAL LETTER VIDA
2C84          ; NFKC_CF; 2C85           # L&       COPTIC CAPITAL LETTER GAMMA
"%string.
Definition props_text_217 := "2C86          ; NFKC_CF; 2C87           # L&       COPTIC CAPITAL LETTER DALDA
2C88          ; NFKC_CF; 2C89           # L&       COPTIC CAPITAL LETTER EIE
2C8A          ; NFKC_CF; 2C8B           # L&       COPTIC CAPITAL LETTER SOU
2C8C          ; NFKC_CF; 2C8D           # L&       COPTIC CAPITAL LETTER ZATA
2C8E          ; NFKC_CF; 2C8F           # L&       COPTIC CAPITAL LETTER HATE
2C90          ; NFKC_CF; 2C91           # L&       COPTIC CAPITAL LETTER THETHE
2C92          ; NFKC_CF; 2C93           # L&       COPTIC CAPITAL LETTER IAUDA
2C94          ; NFKC_CF; 2C95           # L&       COPTIC CAPITAL LETTER KAPA
2C96          ; NFKC_CF; 2C97           # L&       COPTIC CAPITAL LETTER LAULA
2C98          ; NFKC_CF; 2C99           # L&       COPTIC CAPITAL LETTER MI
2C9A          ; NFKC_CF; 2C9B           # L&       COPTIC CAPITAL LETTER NI
2C9C          ; NFKC_CF; 2C9D           # L&       COPTIC CAPITAL LETTER KSI
2C9E          ; NFKC_CF; 2C9F           # L&       COPTIC CAPITAL LETTER O
2CA0          ; NFKC_CF; 2CA1           # L&       COPTIC CAPITAL LETTER PI
2CA2          ; NFKC_CF; 2CA3           # L&       COPTIC CAPITAL LETTER RO
2CA4          ; NFKC_CF; 2CA5           # L&       COPTIC CAPITAL LETTER SIMA
2CA6          ; NFKC_CF; 2CA7           # L&       COPTIC CAPITAL LETTER TAU
2CA8          ; NFKC_CF; 2CA9           # L&       COPTIC CAPITAL LETTER UA
2CAA          ; NFKC_CF; 2CAB           # L&       COPTIC CAPITAL LETTER FI
2CAC          ; NFKC_CF; 2CAD           # L&       COPTIC CAPITAL LETTER KHI
"%string.
Definition props_text_218 := "2CAE          ; NFKC_CF; 2CAF           # L&       COPTIC CAPITAL LETTER PSI
2CB0          ; NFKC_CF; 2CB1           # L&       COPTIC CAPITAL LETTER OOU
2CB2          ; NFKC_CF; 2CB3           # L&       COPTIC CAPITAL LETTER DIALECT-P ALEF
2CB4          ; NFKC_CF; 2CB5           # L&       COPTIC CAPITAL LETTER OLD COPTIC AIN
2CB6          ; NFKC_CF; 2CB7           # L&       COPTIC CAPITAL LETTER CRYPTOGRAMMIC EIE
2CB8          ; NFKC_CF; 2CB9           # L&       COPTIC CAPITAL LETTER DIALECT-P KAPA
2CBA          ; NFKC_CF; 2CBB           # L&       COPTIC CAPITAL LETTER DIALECT-P NI
2CBC          ; NFKC_CF; 2CBD           # L&       COPTIC CAPITAL LETTER CRYPTOGRAMMIC NI
2CBE          ; NFKC_CF; 2CBF           # L&       COPTIC CAPITAL LETTER OLD COPTIC OOU
2CC0          ; NFKC_CF; 2CC1           # L&       COPTIC CAPITAL LETTER SAMPI
2CC2          ; NFKC_CF; 2CC3           # L&       COPTIC CAPITAL LETTER CROSSED SHEI
2CC4          ; NFKC_CF; 2CC5           # L&       COPTIC CAPITAL LETTER OLD COPTIC SHEI
2CC6          ; NFKC_CF; 2CC7           # L&       COPTIC CAPITAL LETTER OLD COPTIC ESH
2CC8          ; NFKC_CF; 2CC9           # L&       COPTIC CAPITAL LETTER AKHMIMIC KHEI
2CCA          ; NFKC_CF; 2CCB           # L&       COPTIC CAPITAL LETTER DIALECT-P HORI
2CCC          ; NFKC_CF; 2CCD           # L&       COPTIC CAPITAL LETTER OLD COPTIC HORI
2CCE          ; NFKC_CF; 2CCF           # L&       COPTIC CAPITAL LETTER OLD COPTIC HA
2CD0          ; NFKC_CF; 2CD1           # L&       COPTIC CAPITAL LETTER L-SHAPED HA
2CD2          ; NFKC_CF; 2CD3           # L&       COPTIC CAPITAL LETTER OLD COPTIC HEI
2CD4          ; NFKC_CF; 2CD5           # L&       COPTIC CAPITAL LETTER OLD COPTIC HAT
"%string.
Definition props_text_219 := "2CD6          ; NFKC_CF; 2CD7           # L&       COPTIC CAPITAL LETTER OLD COPTIC GANGIA
2CD8          ; NFKC_CF; 2CD9           # L&       COPTIC CAPITAL LETTER OLD COPTIC DJA
2CDA          ; NFKC_CF; 2CDB           # L&       COPTIC CAPITAL LETTER OLD COPTIC SHIMA
2CDC          ; NFKC_CF; 2CDD           # L&       COPTIC CAPITAL LETTER OLD NUBIAN SHIMA
2CDE          ; NFKC_CF; 2CDF           # L&       COPTIC CAPITAL LETTER OLD NUBIAN NGI
2CE0          ; NFKC_CF; 2CE1           # L&       COPTIC CAPITAL LETTER OLD NUBIAN NYI
2CE2          ; NFKC_CF; 2CE3           # L&       COPTIC CAPITAL LETTER OLD NUBIAN WAU
2CEB          ; NFKC_CF; 2CEC           # L&       COPTIC CAPITAL LETTER CRYPTOGRAMMIC SHEI
2CED          ; NFKC_CF; 2CEE           # L&       COPTIC CAPITAL LETTER CRYPTOGRAMMIC GANGIA
2CF2          ; NFKC_CF; 2CF3           # L&       COPTIC CAPITAL LETTER BOHAIRIC KHEI
2D6F          ; NFKC_CF; 2D61           # Lm       TIFINAGH MODIFIER LETTER LABIALIZATION MARK
2E9F          ; NFKC_CF; 6BCD           # So       CJK RADICAL MOTHER
2EF3          ; NFKC_CF; 9F9F           # So       CJK RADICAL C-SIMPLIFIED TURTLE
2F00          ; NFKC_CF; 4E00           # So       KANGXI RADICAL ONE
2F01          ; NFKC_CF; 4E28           # So       KANGXI RADICAL LINE
2F02          ; NFKC_CF; 4E36           # So       KANGXI RADICAL DOT
2F03          ; NFKC_CF; 4E3F           # So       KANGXI RADICAL SLASH
2F04          ; NFKC_CF; 4E59           # So       KANGXI RADICAL SECOND
2F05          ; NFKC_CF; 4E85           # So       KANGXI RADICAL HOOK
2F06          ; NFKC_CF; 4E8C           # So       KANGXI RADICAL TWO
"%string.
Definition props_text_220 := "2F07          ; NFKC_CF; 4EA0           # So       KANGXI RADICAL LID
2F08          ; NFKC_CF; 4EBA           # So       KANGXI RADICAL MAN
2F09          ; NFKC_CF; 513F           # So       KANGXI RADICAL LEGS
2F0A          ; NFKC_CF; 5165           # So       KANGXI RADICAL ENTER
2F0B          ; NFKC_CF; 516B           # So       KANGXI RADICAL EIGHT
2F0C          ; NFKC_CF; 5182           # So       KANGXI RADICAL DOWN BOX
2F0D          ; NFKC_CF; 5196           # So       KANGXI RADICAL COVER
2F0E          ; NFKC_CF; 51AB           # So       KANGXI RADICAL ICE
2F0F          ; NFKC_CF; 51E0           # So       KANGXI RADICAL TABLE
2F10          ; NFKC_CF; 51F5           # So       KANGXI RADICAL OPEN BOX
2F11          ; NFKC_CF; 5200           # So       KANGXI RADICAL KNIFE
2F12          ; NFKC_CF; 529B           # So       KANGXI RADICAL POWER
2F13          ; NFKC_CF; 52F9           # So       KANGXI RADICAL WRAP
2F14          ; NFKC_CF; 5315           # So       KANGXI RADICAL SPOON
2F15          ; NFKC_CF; 531A           # So       KANGXI RADICAL RIGHT OPEN BOX
2F16          ; NFKC_CF; 5338           # So       KANGXI RADICAL HIDING ENCLOSURE
2F17          ; NFKC_CF; 5341           # So       KANGXI RADICAL TEN
2F18          ; NFKC_CF; 535C           # So       KANGXI RADICAL DIVINATION
2F19          ; NFKC_CF; 5369           # So       KANGXI RADICAL SEAL
2F1A          ; NFKC_CF; 5382           # So       KANGXI RADICAL CLIFF
"%string.
Definition props_text_221 := "2F1B          ; NFKC_CF; 53B6           # So       KANGXI RADICAL PRIVATE
2F1C          ; NFKC_CF; 53C8           # So       KANGXI RADICAL AGAIN
2F1D          ; NFKC_CF; 53E3           # So       KANGXI RADICAL MOUTH
2F1E          ; NFKC_CF; 56D7           # So       KANGXI RADICAL ENCLOSURE
2F1F          ; NFKC_CF; 571F           # So       KANGXI RADICAL EARTH
2F20          ; NFKC_CF; 58EB           # So       KANGXI RADICAL SCHOLAR
2F21          ; NFKC_CF; 5902           # So       KANGXI RADICAL GO
2F22          ; NFKC_CF; 590A           # So       KANGXI RADICAL GO SLOWLY
2F23          ; NFKC_CF; 5915           # So       KANGXI RADICAL EVENING
2F24          ; NFKC_CF; 5927           # So       KANGXI RADICAL BIG
2F25          ; NFKC_CF; 5973           # So       KANGXI RADICAL WOMAN
2F26          ; NFKC_CF; 5B50           # So       KANGXI RADICAL CHILD
2F27          ; NFKC_CF; 5B80           # So       KANGXI RADICAL ROOF
2F28          ; NFKC_CF; 5BF8           # So       KANGXI RADICAL INCH
2F29          ; NFKC_CF; 5C0F           # So       KANGXI RADICAL SMALL
2F2A          ; NFKC_CF; 5C22           # So       KANGXI RADICAL LAME
2F2B          ; NFKC_CF; 5C38           # So       KANGXI RADICAL CORPSE
2F2C          ; NFKC_CF; 5C6E           # So       KANGXI RADICAL SPROUT
2F2D          ; NFKC_CF; 5C71           # So       KANGXI RADICAL MOUNTAIN
2F2E          ; NFKC_CF; 5DDB           # So       KANGXI RADICAL RIVER
"%string.
Definition props_text_222 := "2F2F          ; NFKC_CF; 5DE5           # So       KANGXI RADICAL WORK
2F30          ; NFKC_CF; 5DF1           # So       KANGXI RADICAL ONESELF
2F31          ; NFKC_CF; 5DFE           # So       KANGXI RADICAL TURBAN
2F32          ; NFKC_CF; 5E72           # So       KANGXI RADICAL DRY
2F33          ; NFKC_CF; 5E7A           # So       KANGXI RADICAL SHORT THREAD
2F34          ; NFKC_CF; 5E7F           # So       KANGXI RADICAL DOTTED CLIFF
2F35          ; NFKC_CF; 5EF4           # So       KANGXI RADICAL LONG STRIDE
2F36          ; NFKC_CF; 5EFE           # So       KANGXI RADICAL TWO HANDS
2F37          ; NFKC_CF; 5F0B           # So       KANGXI RADICAL SHOOT
2F38          ; NFKC_CF; 5F13           # So       KANGXI RADICAL BOW
2F39          ; NFKC_CF; 5F50           # So       KANGXI RADICAL SNOUT
2F3A          ; NFKC_CF; 5F61           # So       KANGXI RADICAL BRISTLE
2F3B          ; NFKC_CF; 5F73           # So       KANGXI RADICAL STEP
2F3C          ; NFKC_CF; 5FC3           # So       KANGXI RADICAL HEART
2F3D          ; NFKC_CF; 6208           # So       KANGXI RADICAL HALBERD
2F3E          ; NFKC_CF; 6236           # So       KANGXI RADICAL DOOR
2F3F          ; NFKC_CF; 624B           # So       KANGXI RADICAL HAND
2F40          ; NFKC_CF; 652F           # So       KANGXI RADICAL BRANCH
2F41          ; NFKC_CF; 6534           # So       KANGXI RADICAL RAP
2F42          ; NFKC_CF; 6587           # So       KANGXI RADICAL SCRIPT
"%string.
Definition props_text_223 := "2F43          ; NFKC_CF; 6597           # So       KANGXI RADICAL DIPPER
2F44          ; NFKC_CF; 65A4           # So       KANGXI RADICAL AXE
2F45          ; NFKC_CF; 65B9           # So       KANGXI RADICAL SQUARE
2F46          ; NFKC_CF; 65E0           # So       KANGXI RADICAL NOT
2F47          ; NFKC_CF; 65E5           # So       KANGXI RADICAL SUN
2F48          ; NFKC_CF; 66F0           # So       KANGXI RADICAL SAY
2F49          ; NFKC_CF; 6708           # So       KANGXI RADICAL MOON
2F4A          ; NFKC_CF; 6728           # So       KANGXI RADICAL TREE
2F4B          ; NFKC_CF; 6B20           # So       KANGXI RADICAL LACK
2F4C          ; NFKC_CF; 6B62           # So       KANGXI RADICAL STOP
2F4D          ; NFKC_CF; 6B79           # So       KANGXI RADICAL DEATH
2F4E          ; NFKC_CF; 6BB3           # So       KANGXI RADICAL WEAPON
2F4F          ; NFKC_CF; 6BCB           # So       KANGXI RADICAL DO NOT
2F50          ; NFKC_CF; 6BD4           # So       KANGXI RADICAL COMPARE
2F51          ; NFKC_CF; 6BDB           # So       KANGXI RADICAL FUR
2F52          ; NFKC_CF; 6C0F           # So       KANGXI RADICAL CLAN
2F53          ; NFKC_CF; 6C14           # So       KANGXI RADICAL STEAM
2F54          ; NFKC_CF; 6C34           # So       KANGXI RADICAL WATER
2F55          ; NFKC_CF; 706B           # So       KANGXI RADICAL FIRE
2F56          ; NFKC_CF; 722A           # So       KANGXI RADICAL CLAW
"%string.
Definition props_text_224 := "2F57          ; NFKC_CF; 7236           # So       KANGXI RADICAL FATHER
2F58          ; NFKC_CF; 723B           # So       KANGXI RADICAL DOUBLE X
2F59          ; NFKC_CF; 723F           # So       KANGXI RADICAL HALF TREE TRUNK
2F5A          ; NFKC_CF; 7247           # So       KANGXI RADICAL SLICE
2F5B          ; NFKC_CF; 7259           # So       KANGXI RADICAL FANG
2F5C          ; NFKC_CF; 725B           # So       KANGXI RADICAL COW
2F5D          ; NFKC_CF; 72AC           # So       KANGXI RADICAL DOG
2F5E          ; NFKC_CF; 7384           # So       KANGXI RADICAL PROFOUND
2F5F          ; NFKC_CF; 7389           # So       KANGXI RADICAL JADE
2F60          ; NFKC_CF; 74DC           # So       KANGXI RADICAL MELON
2F61          ; NFKC_CF; 74E6           # So       KANGXI RADICAL TILE
2F62          ; NFKC_CF; 7518           # So       KANGXI RADICAL SWEET
2F63          ; NFKC_CF; 751F           # So       KANGXI RADICAL LIFE
2F64          ; NFKC_CF; 7528           # So       KANGXI RADICAL USE
2F65          ; NFKC_CF; 7530           # So       KANGXI RADICAL FIELD
2F66          ; NFKC_CF; 758B           # So       KANGXI RADICAL BOLT OF CLOTH
2F67          ; NFKC_CF; 7592           # So       KANGXI RADICAL SICKNESS
2F68          ; NFKC_CF; 7676           # So       KANGXI RADICAL DOTTED TENT
2F69          ; NFKC_CF; 767D           # So       KANGXI RADICAL WHITE
2F6A          ; NFKC_CF; 76AE           # So       KANGXI RADICAL SKIN
"%string.
Definition props_text_225 := "2F6B          ; NFKC_CF; 76BF           # So       KANGXI RADICAL DISH
2F6C          ; NFKC_CF; 76EE           # So       KANGXI RADICAL EYE
2F6D          ; NFKC_CF; 77DB           # So       KANGXI RADICAL SPEAR
2F6E          ; NFKC_CF; 77E2           # So       KANGXI RADICAL ARROW
2F6F          ; NFKC_CF; 77F3           # So       KANGXI RADICAL STONE
2F70          ; NFKC_CF; 793A           # So       KANGXI RADICAL SPIRIT
2F71          ; NFKC_CF; 79B8           # So       KANGXI RADICAL TRACK
2F72          ; NFKC_CF; 79BE           # So       KANGXI RADICAL GRAIN
2F73          ; NFKC_CF; 7A74           # So       KANGXI RADICAL CAVE
2F74          ; NFKC_CF; 7ACB           # So       KANGXI RADICAL STAND
2F75          ; NFKC_CF; 7AF9           # So       KANGXI RADICAL BAMBOO
2F76          ; NFKC_CF; 7C73           # So       KANGXI RADICAL RICE
2F77          ; NFKC_CF; 7CF8           # So       KANGXI RADICAL SILK
2F78          ; NFKC_CF; 7F36           # So       KANGXI RADICAL JAR
2F79          ; NFKC_CF; 7F51           # So       KANGXI RADICAL NET
2F7A          ; NFKC_CF; 7F8A           # So       KANGXI RADICAL SHEEP
2F7B          ; NFKC_CF; 7FBD           # So       KANGXI RADICAL FEATHER
2F7C          ; NFKC_CF; 8001           # So       KANGXI RADICAL OLD
2F7D          ; NFKC_CF; 800C           # So       KANGXI RADICAL AND
2F7E          ; NFKC_CF; 8012           # So       KANGXI RADICAL PLOW
"%string.
Definition props_text_226 := "2F7F          ; NFKC_CF; 8033           # So       KANGXI RADICAL EAR
2F80          ; NFKC_CF; 807F           # So       KANGXI RADICAL BRUSH
2F81          ; NFKC_CF; 8089           # So       KANGXI RADICAL MEAT
2F82          ; NFKC_CF; 81E3           # So       KANGXI RADICAL MINISTER
2F83          ; NFKC_CF; 81EA           # So       KANGXI RADICAL SELF
2F84          ; NFKC_CF; 81F3           # So       KANGXI RADICAL ARRIVE
2F85          ; NFKC_CF; 81FC           # So       KANGXI RADICAL MORTAR
2F86          ; NFKC_CF; 820C           # So       KANGXI RADICAL TONGUE
2F87          ; NFKC_CF; 821B           # So       KANGXI RADICAL OPPOSE
2F88          ; NFKC_CF; 821F           # So       KANGXI RADICAL BOAT
2F89          ; NFKC_CF; 826E           # So       KANGXI RADICAL STOPPING
2F8A          ; NFKC_CF; 8272           # So       KANGXI RADICAL COLOR
2F8B          ; NFKC_CF; 8278           # So       KANGXI RADICAL GRASS
2F8C          ; NFKC_CF; 864D           # So       KANGXI RADICAL TIGER
2F8D          ; NFKC_CF; 866B           # So       KANGXI RADICAL INSECT
2F8E          ; NFKC_CF; 8840           # So       KANGXI RADICAL BLOOD
2F8F          ; NFKC_CF; 884C           # So       KANGXI RADICAL WALK ENCLOSURE
2F90          ; NFKC_CF; 8863           # So       KANGXI RADICAL CLOTHES
2F91          ; NFKC_CF; 897E           # So       KANGXI RADICAL WEST
2F92          ; NFKC_CF; 898B           # So       KANGXI RADICAL SEE
"%string.
Definition props_text_227 := "2F93          ; NFKC_CF; 89D2           # So       KANGXI RADICAL HORN
2F94          ; NFKC_CF; 8A00           # So       KANGXI RADICAL SPEECH
2F95          ; NFKC_CF; 8C37           # So       KANGXI RADICAL VALLEY
2F96          ; NFKC_CF; 8C46           # So       KANGXI RADICAL BEAN
2F97          ; NFKC_CF; 8C55           # So       KANGXI RADICAL PIG
2F98          ; NFKC_CF; 8C78           # So       KANGXI RADICAL BADGER
2F99          ; NFKC_CF; 8C9D           # So       KANGXI RADICAL SHELL
2F9A          ; NFKC_CF; 8D64           # So       KANGXI RADICAL RED
2F9B          ; NFKC_CF; 8D70           # So       KANGXI RADICAL RUN
2F9C          ; NFKC_CF; 8DB3           # So       KANGXI RADICAL FOOT
2F9D          ; NFKC_CF; 8EAB           # So       KANGXI RADICAL BODY
2F9E          ; NFKC_CF; 8ECA           # So       KANGXI RADICAL CART
2F9F          ; NFKC_CF; 8F9B           # So       KANGXI RADICAL BITTER
2FA0          ; NFKC_CF; 8FB0           # So       KANGXI RADICAL MORNING
2FA1          ; NFKC_CF; 8FB5           # So       KANGXI RADICAL WALK
2FA2          ; NFKC_CF; 9091           # So       KANGXI RADICAL CITY
2FA3          ; NFKC_CF; 9149           # So       KANGXI RADICAL WINE
2FA4          ; NFKC_CF; 91C6           # So       KANGXI RADICAL DISTINGUISH
2FA5          ; NFKC_CF; 91CC           # So       KANGXI RADICAL VILLAGE
2FA6          ; NFKC_CF; 91D1           # So       KANGXI RADICAL GOLD
"%string.
Definition props_text_228 := "2FA7          ; NFKC_CF; 9577           # So       KANGXI RADICAL LONG
2FA8          ; NFKC_CF; 9580           # So       KANGXI RADICAL GATE
2FA9          ; NFKC_CF; 961C           # So       KANGXI RADICAL MOUND
2FAA          ; NFKC_CF; 96B6           # So       KANGXI RADICAL SLAVE
2FAB          ; NFKC_CF; 96B9           # So       KANGXI RADICAL SHORT TAILED BIRD
2FAC          ; NFKC_CF; 96E8           # So       KANGXI RADICAL RAIN
2FAD          ; NFKC_CF; 9751           # So       KANGXI RADICAL BLUE
2FAE          ; NFKC_CF; 975E           # So       KANGXI RADICAL WRONG
2FAF          ; NFKC_CF; 9762           # So       KANGXI RADICAL FACE
2FB0          ; NFKC_CF; 9769           # So       KANGXI RADICAL LEATHER
2FB1          ; NFKC_CF; 97CB           # So       KANGXI RADICAL TANNED LEATHER
2FB2          ; NFKC_CF; 97ED           # So       KANGXI RADICAL LEEK
2FB3          ; NFKC_CF; 97F3           # So       KANGXI RADICAL SOUND
2FB4          ; NFKC_CF; 9801           # So       KANGXI RADICAL LEAF
2FB5          ; NFKC_CF; 98A8           # So       KANGXI RADICAL WIND
2FB6          ; NFKC_CF; 98DB           # So       KANGXI RADICAL FLY
2FB7          ; NFKC_CF; 98DF           # So       KANGXI RADICAL EAT
2FB8          ; NFKC_CF; 9996           # So       KANGXI RADICAL HEAD
2FB9          ; NFKC_CF; 9999           # So       KANGXI RADICAL FRAGRANT
2FBA          ; NFKC_CF; 99AC           # So       KANGXI RADICAL HORSE
"%string.
Definition props_text_229 := "2FBB          ; NFKC_CF; 9AA8           # So       KANGXI RADICAL BONE
2FBC          ; NFKC_CF; 9AD8           # So       KANGXI RADICAL TALL
2FBD          ; NFKC_CF; 9ADF           # So       KANGXI RADICAL HAIR
2FBE          ; NFKC_CF; 9B25           # So       KANGXI RADICAL FIGHT
2FBF          ; NFKC_CF; 9B2F           # So       KANGXI RADICAL SACRIFICIAL WINE
2FC0          ; NFKC_CF; 9B32           # So       KANGXI RADICAL CAULDRON
2FC1          ; NFKC_CF; 9B3C           # So       KANGXI RADICAL GHOST
2FC2          ; NFKC_CF; 9B5A           # So       KANGXI RADICAL FISH
2FC3          ; NFKC_CF; 9CE5           # So       KANGXI RADICAL BIRD
2FC4          ; NFKC_CF; 9E75           # So       KANGXI RADICAL SALT
2FC5          ; NFKC_CF; 9E7F           # So       KANGXI RADICAL DEER
2FC6          ; NFKC_CF; 9EA5           # So       KANGXI RADICAL WHEAT
2FC7          ; NFKC_CF; 9EBB           # So       KANGXI RADICAL HEMP
2FC8          ; NFKC_CF; 9EC3           # So       KANGXI RADICAL YELLOW
2FC9          ; NFKC_CF; 9ECD           # So       KANGXI RADICAL MILLET
2FCA          ; NFKC_CF; 9ED1           # So       KANGXI RADICAL BLACK
2FCB          ; NFKC_CF; 9EF9           # So       KANGXI RADICAL EMBROIDERY
2FCC          ; NFKC_CF; 9EFD           # So       KANGXI RADICAL FROG
2FCD          ; NFKC_CF; 9F0E           # So       KANGXI RADICAL TRIPOD
2FCE          ; NFKC_CF; 9F13           # So       KANGXI RADICAL DRUM
"%string.
Definition props_text_230 := "2FCF          ; NFKC_CF; 9F20           # So       KANGXI RADICAL RAT
2FD0          ; NFKC_CF; 9F3B           # So       KANGXI RADICAL NOSE
2FD1          ; NFKC_CF; 9F4A           # So       KANGXI RADICAL EVEN
2FD2          ; NFKC_CF; 9F52           # So       KANGXI RADICAL TOOTH
2FD3          ; NFKC_CF; 9F8D           # So       KANGXI RADICAL DRAGON
2FD4          ; NFKC_CF; 9F9C           # So       KANGXI RADICAL TURTLE
2FD5          ; NFKC_CF; 9FA0           # So       KANGXI RADICAL FLUTE
3000          ; NFKC_CF; 0020           # Zs       IDEOGRAPHIC SPACE
3036          ; NFKC_CF; 3012           # So       CIRCLED POSTAL MARK
3038          ; NFKC_CF; 5341           # Nl       HANGZHOU NUMERAL TEN
3039          ; NFKC_CF; 5344           # Nl       HANGZHOU NUMERAL TWENTY
303A          ; NFKC_CF; 5345           # Nl       HANGZHOU NUMERAL THIRTY
309B          ; NFKC_CF; 0020 3099      # Sk       KATAKANA-HIRAGANA VOICED SOUND MARK
309C          ; NFKC_CF; 0020 309A      # Sk       KATAKANA-HIRAGANA SEMI-VOICED SOUND MARK
309F          ; NFKC_CF; 3088 308A      # Lo       HIRAGANA DIGRAPH YORI
30FF          ; NFKC_CF; 30B3 30C8      # Lo       KATAKANA DIGRAPH KOTO
3131          ; NFKC_CF; 1100           # Lo       HANGUL LETTER KIYEOK
3132          ; NFKC_CF; 1101           # Lo       HANGUL LETTER SSANGKIYEOK
3133          ; NFKC_CF; 11AA           # Lo       HANGUL LETTER KIYEOK-SIOS
3134          ; NFKC_CF; 1102           # Lo       HANGUL LETTER NIEUN
"%string.
Definition props_text_231 := "3135          ; NFKC_CF; 11AC           # Lo       HANGUL LETTER NIEUN-CIEUC
3136          ; NFKC_CF; 11AD           # Lo       HANGUL LETTER NIEUN-HIEUH
3137          ; NFKC_CF; 1103           # Lo       HANGUL LETTER TIKEUT
3138          ; NFKC_CF; 1104           # Lo       HANGUL LETTER SSANGTIKEUT
3139          ; NFKC_CF; 1105           # Lo       HANGUL LETTER RIEUL
313A          ; NFKC_CF; 11B0           # Lo       HANGUL LETTER RIEUL-KIYEOK
313B          ; NFKC_CF; 11B1           # Lo       HANGUL LETTER RIEUL-MIEUM
313C          ; NFKC_CF; 11B2           # Lo       HANGUL LETTER RIEUL-PIEUP
313D          ; NFKC_CF; 11B3           # Lo       HANGUL LETTER RIEUL-SIOS
313E          ; NFKC_CF; 11B4           # Lo       HANGUL LETTER RIEUL-THIEUTH
313F          ; NFKC_CF; 11B5           # Lo       HANGUL LETTER RIEUL-PHIEUPH
3140          ; NFKC_CF; 111A           # Lo       HANGUL LETTER RIEUL-HIEUH
3141          ; NFKC_CF; 1106           # Lo       HANGUL LETTER MIEUM
3142          ; NFKC_CF; 1107           # Lo       HANGUL LETTER PIEUP
3143          ; NFKC_CF; 1108           # Lo       HANGUL LETTER SSANGPIEUP
3144          ; NFKC_CF; 1121           # Lo       HANGUL LETTER PIEUP-SIOS
3145          ; NFKC_CF; 1109           # Lo       HANGUL LETTER SIOS
3146          ; NFKC_CF; 110A           # Lo       HANGUL LETTER SSANGSIOS
3147          ; NFKC_CF; 110B           # Lo       HANGUL LETTER IEUNG
3148          ; NFKC_CF; 110C           # Lo       HANGUL LETTER CIEUC
"%string.
Definition props_text_232 := "3149          ; NFKC_CF; 110D           # Lo       HANGUL LETTER SSANGCIEUC
314A          ; NFKC_CF; 110E           # Lo       HANGUL LETTER CHIEUCH
314B          ; NFKC_CF; 110F           # Lo       HANGUL LETTER KHIEUKH
314C          ; NFKC_CF; 1110           # Lo       HANGUL LETTER THIEUTH
314D          ; NFKC_CF; 1111           # Lo       HANGUL LETTER PHIEUPH
314E          ; NFKC_CF; 1112           # Lo       HANGUL LETTER HIEUH
314F          ; NFKC_CF; 1161           # Lo       HANGUL LETTER A
3150          ; NFKC_CF; 1162           # Lo       HANGUL LETTER AE
3151          ; NFKC_CF; 1163           # Lo       HANGUL LETTER YA
3152          ; NFKC_CF; 1164           # Lo       HANGUL LETTER YAE
3153          ; NFKC_CF; 1165           # Lo       HANGUL LETTER EO
3154          ; NFKC_CF; 1166           # Lo       HANGUL LETTER E
3155          ; NFKC_CF; 1167           # Lo       HANGUL LETTER YEO
3156          ; NFKC_CF; 1168           # Lo       HANGUL LETTER YE
3157          ; NFKC_CF; 1169           # Lo       HANGUL LETTER O
3158          ; NFKC_CF; 116A           # Lo       HANGUL LETTER WA
3159          ; NFKC_CF; 116B           # Lo       HANGUL LETTER WAE
315A          ; NFKC_CF; 116C           # Lo       HANGUL LETTER OE
315B          ; NFKC_CF; 116D           # Lo       HANGUL LETTER YO
315C          ; NFKC_CF; 116E           # Lo       HANGUL LETTER U
"%string.
Definition props_text_233 := "315D          ; NFKC_CF; 116F           # Lo       HANGUL LETTER WEO
315E          ; NFKC_CF; 1170           # Lo       HANGUL LETTER WE
315F          ; NFKC_CF; 1171           # Lo       HANGUL LETTER WI
3160          ; NFKC_CF; 1172           # Lo       HANGUL LETTER YU
3161          ; NFKC_CF; 1173           # Lo       HANGUL LETTER EU
3162          ; NFKC_CF; 1174           # Lo       HANGUL LETTER YI
3163          ; NFKC_CF; 1175           # Lo       HANGUL LETTER I
3164          ; NFKC_CF;                # Lo       HANGUL FILLER
3165          ; NFKC_CF; 1114           # Lo       HANGUL LETTER SSANGNIEUN
3166          ; NFKC_CF; 1115           # Lo       HANGUL LETTER NIEUN-TIKEUT
3167          ; NFKC_CF; 11C7           # Lo       HANGUL LETTER NIEUN-SIOS
3168          ; NFKC_CF; 11C8           # Lo       HANGUL LETTER NIEUN-PANSIOS
3169          ; NFKC_CF; 11CC           # Lo       HANGUL LETTER RIEUL-KIYEOK-SIOS
316A          ; NFKC_CF; 11CE           # Lo       HANGUL LETTER RIEUL-TIKEUT
316B          ; NFKC_CF; 11D3           # Lo       HANGUL LETTER RIEUL-PIEUP-SIOS
316C          ; NFKC_CF; 11D7           # Lo       HANGUL LETTER RIEUL-PANSIOS
316D          ; NFKC_CF; 11D9           # Lo       HANGUL LETTER RIEUL-YEORINHIEUH
316E          ; NFKC_CF; 111C           # Lo       HANGUL LETTER MIEUM-PIEUP
316F          ; NFKC_CF; 11DD           # Lo       HANGUL LETTER MIEUM-SIOS
3170          ; NFKC_CF; 11DF           # Lo       HANGUL LETTER MIEUM-PANSIOS
"%string.
Definition props_text_234 := "3171          ; NFKC_CF; 111D           # Lo       HANGUL LETTER KAPYEOUNMIEUM
3172          ; NFKC_CF; 111E           # Lo       HANGUL LETTER PIEUP-KIYEOK
3173          ; NFKC_CF; 1120           # Lo       HANGUL LETTER PIEUP-TIKEUT
3174          ; NFKC_CF; 1122           # Lo       HANGUL LETTER PIEUP-SIOS-KIYEOK
3175          ; NFKC_CF; 1123           # Lo       HANGUL LETTER PIEUP-SIOS-TIKEUT
3176          ; NFKC_CF; 1127           # Lo       HANGUL LETTER PIEUP-CIEUC
3177          ; NFKC_CF; 1129           # Lo       HANGUL LETTER PIEUP-THIEUTH
3178          ; NFKC_CF; 112B           # Lo       HANGUL LETTER KAPYEOUNPIEUP
3179          ; NFKC_CF; 112C           # Lo       HANGUL LETTER KAPYEOUNSSANGPIEUP
317A          ; NFKC_CF; 112D           # Lo       HANGUL LETTER SIOS-KIYEOK
317B          ; NFKC_CF; 112E           # Lo       HANGUL LETTER SIOS-NIEUN
317C          ; NFKC_CF; 112F           # Lo       HANGUL LETTER SIOS-TIKEUT
317D          ; NFKC_CF; 1132           # Lo       HANGUL LETTER SIOS-PIEUP
317E          ; NFKC_CF; 1136           # Lo       HANGUL LETTER SIOS-CIEUC
317F          ; NFKC_CF; 1140           # Lo       HANGUL LETTER PANSIOS
3180          ; NFKC_CF; 1147           # Lo       HANGUL LETTER SSANGIEUNG
3181          ; NFKC_CF; 114C           # Lo       HANGUL LETTER YESIEUNG
3182          ; NFKC_CF; 11F1           # Lo       HANGUL LETTER YESIEUNG-SIOS
3183          ; NFKC_CF; 11F2           # Lo       HANGUL LETTER YESIEUNG-PANSIOS
3184          ; NFKC_CF; 1157           # Lo       HANGUL LETTER KAPYEOUNPHIEUPH
"%string.
Definition props_text_235 := "3185          ; NFKC_CF; 1158           # Lo       HANGUL LETTER SSANGHIEUH
3186          ; NFKC_CF; 1159           # Lo       HANGUL LETTER YEORINHIEUH
3187          ; NFKC_CF; 1184           # Lo       HANGUL LETTER YO-YA
3188          ; NFKC_CF; 1185           # Lo       HANGUL LETTER YO-YAE
3189          ; NFKC_CF; 1188           # Lo       HANGUL LETTER YO-I
318A          ; NFKC_CF; 1191           # Lo       HANGUL LETTER YU-YEO
318B          ; NFKC_CF; 1192           # Lo       HANGUL LETTER YU-YE
318C          ; NFKC_CF; 1194           # Lo       HANGUL LETTER YU-I
318D          ; NFKC_CF; 119E           # Lo       HANGUL LETTER ARAEA
318E          ; NFKC_CF; 11A1           # Lo       HANGUL LETTER ARAEAE
3192          ; NFKC_CF; 4E00           # No       IDEOGRAPHIC ANNOTATION ONE MARK
3193          ; NFKC_CF; 4E8C           # No       IDEOGRAPHIC ANNOTATION TWO MARK
3194          ; NFKC_CF; 4E09           # No       IDEOGRAPHIC ANNOTATION THREE MARK
3195          ; NFKC_CF; 56DB           # No       IDEOGRAPHIC ANNOTATION FOUR MARK
3196          ; NFKC_CF; 4E0A           # So       IDEOGRAPHIC ANNOTATION TOP MARK
3197          ; NFKC_CF; 4E2D           # So       IDEOGRAPHIC ANNOTATION MIDDLE MARK
3198          ; NFKC_CF; 4E0B           # So       IDEOGRAPHIC ANNOTATION BOTTOM MARK
3199          ; NFKC_CF; 7532           # So       IDEOGRAPHIC ANNOTATION FIRST MARK
319A          ; NFKC_CF; 4E59           # So       IDEOGRAPHIC ANNOTATION SECOND MARK
319B          ; NFKC_CF; 4E19           # So       IDEOGRAPHIC ANNOTATION THIRD MARK
"%string.
Definition props_text_236 := "319C          ; NFKC_CF; 4E01           # So       IDEOGRAPHIC ANNOTATION FOURTH MARK
319D          ; NFKC_CF; 5929           # So       IDEOGRAPHIC ANNOTATION HEAVEN MARK
319E          ; NFKC_CF; 5730           # So       IDEOGRAPHIC ANNOTATION EARTH MARK
319F          ; NFKC_CF; 4EBA           # So       IDEOGRAPHIC ANNOTATION MAN MARK
3200          ; NFKC_CF; 0028 1100 0029 # So       PARENTHESIZED HANGUL KIYEOK
3201          ; NFKC_CF; 0028 1102 0029 # So       PARENTHESIZED HANGUL NIEUN
3202          ; NFKC_CF; 0028 1103 0029 # So       PARENTHESIZED HANGUL TIKEUT
3203          ; NFKC_CF; 0028 1105 0029 # So       PARENTHESIZED HANGUL RIEUL
3204          ; NFKC_CF; 0028 1106 0029 # So       PARENTHESIZED HANGUL MIEUM
3205          ; NFKC_CF; 0028 1107 0029 # So       PARENTHESIZED HANGUL PIEUP
3206          ; NFKC_CF; 0028 1109 0029 # So       PARENTHESIZED HANGUL SIOS
3207          ; NFKC_CF; 0028 110B 0029 # So       PARENTHESIZED HANGUL IEUNG
3208          ; NFKC_CF; 0028 110C 0029 # So       PARENTHESIZED HANGUL CIEUC
3209          ; NFKC_CF; 0028 110E 0029 # So       PARENTHESIZED HANGUL CHIEUCH
320A          ; NFKC_CF; 0028 110F 0029 # So       PARENTHESIZED HANGUL KHIEUKH
320B          ; NFKC_CF; 0028 1110 0029 # So       PARENTHESIZED HANGUL THIEUTH
320C          ; NFKC_CF; 0028 1111 0029 # So       PARENTHESIZED HANGUL PHIEUPH
320D          ; NFKC_CF; 0028 1112 0029 # So       PARENTHESIZED HANGUL HIEUH
320E          ; NFKC_CF; 0028 AC00 0029 # So       PARENTHESIZED HANGUL KIYEOK A
320F          ; NFKC_CF; 0028 B098 0029 # So       PARENTHESIZED HANGUL NIEUN A
"%string.
Definition props_text_237 := "3210          ; NFKC_CF; 0028 B2E4 0029 # So       PARENTHESIZED HANGUL TIKEUT A
3211          ; NFKC_CF; 0028 B77C 0029 # So       PARENTHESIZED HANGUL RIEUL A
3212          ; NFKC_CF; 0028 B9C8 0029 # So       PARENTHESIZED HANGUL MIEUM A
3213          ; NFKC_CF; 0028 BC14 0029 # So       PARENTHESIZED HANGUL PIEUP A
3214          ; NFKC_CF; 0028 C0AC 0029 # So       PARENTHESIZED HANGUL SIOS A
3215          ; NFKC_CF; 0028 C544 0029 # So       PARENTHESIZED HANGUL IEUNG A
3216          ; NFKC_CF; 0028 C790 0029 # So       PARENTHESIZED HANGUL CIEUC A
3217          ; NFKC_CF; 0028 CC28 0029 # So       PARENTHESIZED HANGUL CHIEUCH A
3218          ; NFKC_CF; 0028 CE74 0029 # So       PARENTHESIZED HANGUL KHIEUKH A
3219          ; NFKC_CF; 0028 D0C0 0029 # So       PARENTHESIZED HANGUL THIEUTH A
321A          ; NFKC_CF; 0028 D30C 0029 # So       PARENTHESIZED HANGUL PHIEUPH A
321B          ; NFKC_CF; 0028 D558 0029 # So       PARENTHESIZED HANGUL HIEUH A
321C          ; NFKC_CF; 0028 C8FC 0029 # So       PARENTHESIZED HANGUL CIEUC U
321D          ; NFKC_CF; 0028 C624 C804 0029 #So   PARENTHESIZED KOREAN CHARACTER OJEON
321E          ; NFKC_CF; 0028 C624 D6C4 0029 #So   PARENTHESIZED KOREAN CHARACTER O HU
3220          ; NFKC_CF; 0028 4E00 0029 # No       PARENTHESIZED IDEOGRAPH ONE
3221          ; NFKC_CF; 0028 4E8C 0029 # No       PARENTHESIZED IDEOGRAPH TWO
3222          ; NFKC_CF; 0028 4E09 0029 # No       PARENTHESIZED IDEOGRAPH THREE
3223          ; NFKC_CF; 0028 56DB 0029 # No       PARENTHESIZED IDEOGRAPH FOUR
3224          ; NFKC_CF; 0028 4E94 0029 # No       PARENTHESIZED IDEOGRAPH FIVE
"%string.
Definition props_text_238 := "3225          ; NFKC_CF; 0028 516D 0029 # No       PARENTHESIZED IDEOGRAPH SIX
3226          ; NFKC_CF; 0028 4E03 0029 # No       PARENTHESIZED IDEOGRAPH SEVEN
3227          ; NFKC_CF; 0028 516B 0029 # No       PARENTHESIZED IDEOGRAPH EIGHT
3228          ; NFKC_CF; 0028 4E5D 0029 # No       PARENTHESIZED IDEOGRAPH NINE
3229          ; NFKC_CF; 0028 5341 0029 # No       PARENTHESIZED IDEOGRAPH TEN
322A          ; NFKC_CF; 0028 6708 0029 # So       PARENTHESIZED IDEOGRAPH MOON
322B          ; NFKC_CF; 0028 706B 0029 # So       PARENTHESIZED IDEOGRAPH FIRE
322C          ; NFKC_CF; 0028 6C34 0029 # So       PARENTHESIZED IDEOGRAPH WATER
322D          ; NFKC_CF; 0028 6728 0029 # So       PARENTHESIZED IDEOGRAPH WOOD
322E          ; NFKC_CF; 0028 91D1 0029 # So       PARENTHESIZED IDEOGRAPH METAL
322F          ; NFKC_CF; 0028 571F 0029 # So       PARENTHESIZED IDEOGRAPH EARTH
3230          ; NFKC_CF; 0028 65E5 0029 # So       PARENTHESIZED IDEOGRAPH SUN
3231          ; NFKC_CF; 0028 682A 0029 # So       PARENTHESIZED IDEOGRAPH STOCK
3232          ; NFKC_CF; 0028 6709 0029 # So       PARENTHESIZED IDEOGRAPH HAVE
3233          ; NFKC_CF; 0028 793E 0029 # So       PARENTHESIZED IDEOGRAPH SOCIETY
3234          ; NFKC_CF; 0028 540D 0029 # So       PARENTHESIZED IDEOGRAPH NAME
3235          ; NFKC_CF; 0028 7279 0029 # So       PARENTHESIZED IDEOGRAPH SPECIAL
3236          ; NFKC_CF; 0028 8CA1 0029 # So       PARENTHESIZED IDEOGRAPH FINANCIAL
3237          ; NFKC_CF; 0028 795D 0029 # So       PARENTHESIZED IDEOGRAPH CONGRATULATION
3238          ; NFKC_CF; 0028 52B4 0029 # So       PARENTHESIZED IDEOGRAPH LABOR
"%string.
Definition props_text_239 := "3239          ; NFKC_CF; 0028 4EE3 0029 # So       PARENTHESIZED IDEOGRAPH REPRESENT
323A          ; NFKC_CF; 0028 547C 0029 # So       PARENTHESIZED IDEOGRAPH CALL
323B          ; NFKC_CF; 0028 5B66 0029 # So       PARENTHESIZED IDEOGRAPH STUDY
323C          ; NFKC_CF; 0028 76E3 0029 # So       PARENTHESIZED IDEOGRAPH SUPERVISE
323D          ; NFKC_CF; 0028 4F01 0029 # So       PARENTHESIZED IDEOGRAPH ENTERPRISE
323E          ; NFKC_CF; 0028 8CC7 0029 # So       PARENTHESIZED IDEOGRAPH RESOURCE
323F          ; NFKC_CF; 0028 5354 0029 # So       PARENTHESIZED IDEOGRAPH ALLIANCE
3240          ; NFKC_CF; 0028 796D 0029 # So       PARENTHESIZED IDEOGRAPH FESTIVAL
3241          ; NFKC_CF; 0028 4F11 0029 # So       PARENTHESIZED IDEOGRAPH REST
3242          ; NFKC_CF; 0028 81EA 0029 # So       PARENTHESIZED IDEOGRAPH SELF
3243          ; NFKC_CF; 0028 81F3 0029 # So       PARENTHESIZED IDEOGRAPH REACH
3244          ; NFKC_CF; 554F           # So       CIRCLED IDEOGRAPH QUESTION
3245          ; NFKC_CF; 5E7C           # So       CIRCLED IDEOGRAPH KINDERGARTEN
3246          ; NFKC_CF; 6587           # So       CIRCLED IDEOGRAPH SCHOOL
3247          ; NFKC_CF; 7B8F           # So       CIRCLED IDEOGRAPH KOTO
3250          ; NFKC_CF; 0070 0074 0065 # So       PARTNERSHIP SIGN
3251          ; NFKC_CF; 0032 0031      # No       CIRCLED NUMBER TWENTY ONE
3252          ; NFKC_CF; 0032 0032      # No       CIRCLED NUMBER TWENTY TWO
3253          ; NFKC_CF; 0032 0033      # No       CIRCLED NUMBER TWENTY THREE
3254          ; NFKC_CF; 0032 0034      # No       CIRCLED NUMBER TWENTY FOUR
"%string.
Definition props_text_240 := "3255          ; NFKC_CF; 0032 0035      # No       CIRCLED NUMBER TWENTY FIVE
3256          ; NFKC_CF; 0032 0036      # No       CIRCLED NUMBER TWENTY SIX
3257          ; NFKC_CF; 0032 0037      # No       CIRCLED NUMBER TWENTY SEVEN
3258          ; NFKC_CF; 0032 0038      # No       CIRCLED NUMBER TWENTY EIGHT
3259          ; NFKC_CF; 0032 0039      # No       CIRCLED NUMBER TWENTY NINE
325A          ; NFKC_CF; 0033 0030      # No       CIRCLED NUMBER THIRTY
325B          ; NFKC_CF; 0033 0031      # No       CIRCLED NUMBER THIRTY ONE
325C          ; NFKC_CF; 0033 0032      # No       CIRCLED NUMBER THIRTY TWO
325D          ; NFKC_CF; 0033 0033      # No       CIRCLED NUMBER THIRTY THREE
325E          ; NFKC_CF; 0033 0034      # No       CIRCLED NUMBER THIRTY FOUR
325F          ; NFKC_CF; 0033 0035      # No       CIRCLED NUMBER THIRTY FIVE
3260          ; NFKC_CF; 1100           # So       CIRCLED HANGUL KIYEOK
3261          ; NFKC_CF; 1102           # So       CIRCLED HANGUL NIEUN
3262          ; NFKC_CF; 1103           # So       CIRCLED HANGUL TIKEUT
3263          ; NFKC_CF; 1105           # So       CIRCLED HANGUL RIEUL
3264          ; NFKC_CF; 1106           # So       CIRCLED HANGUL MIEUM
3265          ; NFKC_CF; 1107           # So       CIRCLED HANGUL PIEUP
3266          ; NFKC_CF; 1109           # So       CIRCLED HANGUL SIOS
3267          ; NFKC_CF; 110B           # So       CIRCLED HANGUL IEUNG
3268          ; NFKC_CF; 110C           # So       CIRCLED HANGUL CIEUC
"%string.
Definition props_text_241 := "3269          ; NFKC_CF; 110E           # So       CIRCLED HANGUL CHIEUCH
326A          ; NFKC_CF; 110F           # So       CIRCLED HANGUL KHIEUKH
326B          ; NFKC_CF; 1110           # So       CIRCLED HANGUL THIEUTH
326C          ; NFKC_CF; 1111           # So       CIRCLED HANGUL PHIEUPH
326D          ; NFKC_CF; 1112           # So       CIRCLED HANGUL HIEUH
326E          ; NFKC_CF; AC00           # So       CIRCLED HANGUL KIYEOK A
326F          ; NFKC_CF; B098           # So       CIRCLED HANGUL NIEUN A
3270          ; NFKC_CF; B2E4           # So       CIRCLED HANGUL TIKEUT A
3271          ; NFKC_CF; B77C           # So       CIRCLED HANGUL RIEUL A
3272          ; NFKC_CF; B9C8           # So       CIRCLED HANGUL MIEUM A
3273          ; NFKC_CF; BC14           # So       CIRCLED HANGUL PIEUP A
3274          ; NFKC_CF; C0AC           # So       CIRCLED HANGUL SIOS A
3275          ; NFKC_CF; C544           # So       CIRCLED HANGUL IEUNG A
3276          ; NFKC_CF; C790           # So       CIRCLED HANGUL CIEUC A
3277          ; NFKC_CF; CC28           # So       CIRCLED HANGUL CHIEUCH A
3278          ; NFKC_CF; CE74           # So       CIRCLED HANGUL KHIEUKH A
3279          ; NFKC_CF; D0C0           # So       CIRCLED HANGUL THIEUTH A
327A          ; NFKC_CF; D30C           # So       CIRCLED HANGUL PHIEUPH A
327B          ; NFKC_CF; D558           # So       CIRCLED HANGUL HIEUH A
327C          ; NFKC_CF; CC38 ACE0      # So       CIRCLED KOREAN CHARACTER CHAMKO
"%string.
Definition props_text_242 := "327D          ; NFKC_CF; C8FC C758      # So       CIRCLED KOREAN CHARACTER JUEUI
327E          ; NFKC_CF; C6B0           # So       CIRCLED HANGUL IEUNG U
3280          ; NFKC_CF; 4E00           # No       CIRCLED IDEOGRAPH ONE
3281          ; NFKC_CF; 4E8C           # No       CIRCLED IDEOGRAPH TWO
3282          ; NFKC_CF; 4E09           # No       CIRCLED IDEOGRAPH THREE
3283          ; NFKC_CF; 56DB           # No       CIRCLED IDEOGRAPH FOUR
3284          ; NFKC_CF; 4E94           # No       CIRCLED IDEOGRAPH FIVE
3285          ; NFKC_CF; 516D           # No       CIRCLED IDEOGRAPH SIX
3286          ; NFKC_CF; 4E03           # No       CIRCLED IDEOGRAPH SEVEN
3287          ; NFKC_CF; 516B           # No       CIRCLED IDEOGRAPH EIGHT
3288          ; NFKC_CF; 4E5D           # No       CIRCLED IDEOGRAPH NINE
3289          ; NFKC_CF; 5341           # No       CIRCLED IDEOGRAPH TEN
328A          ; NFKC_CF; 6708           # So       CIRCLED IDEOGRAPH MOON
328B          ; NFKC_CF; 706B           # So       CIRCLED IDEOGRAPH FIRE
328C          ; NFKC_CF; 6C34           # So       CIRCLED IDEOGRAPH WATER
328D          ; NFKC_CF; 6728           # So       CIRCLED IDEOGRAPH WOOD
328E          ; NFKC_CF; 91D1           # So       CIRCLED IDEOGRAPH METAL
328F          ; NFKC_CF; 571F           # So       CIRCLED IDEOGRAPH EARTH
3290          ; NFKC_CF; 65E5           # So       CIRCLED IDEOGRAPH SUN
3291          ; NFKC_CF; 682A           # So       CIRCLED IDEOGRAPH STOCK
"%string.
Definition props_text_243 := "3292          ; NFKC_CF; 6709           # So       CIRCLED IDEOGRAPH HAVE
3293          ; NFKC_CF; 793E           # So       CIRCLED IDEOGRAPH SOCIETY
3294          ; NFKC_CF; 540D           # So       CIRCLED IDEOGRAPH NAME
3295          ; NFKC_CF; 7279           # So       CIRCLED IDEOGRAPH SPECIAL
3296          ; NFKC_CF; 8CA1           # So       CIRCLED IDEOGRAPH FINANCIAL
3297          ; NFKC_CF; 795D           # So       CIRCLED IDEOGRAPH CONGRATULATION
3298          ; NFKC_CF; 52B4           # So       CIRCLED IDEOGRAPH LABOR
3299          ; NFKC_CF; 79D8           # So       CIRCLED IDEOGRAPH SECRET
329A          ; NFKC_CF; 7537           # So       CIRCLED IDEOGRAPH MALE
329B          ; NFKC_CF; 5973           # So       CIRCLED IDEOGRAPH FEMALE
329C          ; NFKC_CF; 9069           # So       CIRCLED IDEOGRAPH SUITABLE
329D          ; NFKC_CF; 512A           # So       CIRCLED IDEOGRAPH EXCELLENT
329E          ; NFKC_CF; 5370           # So       CIRCLED IDEOGRAPH PRINT
329F          ; NFKC_CF; 6CE8           # So       CIRCLED IDEOGRAPH ATTENTION
32A0          ; NFKC_CF; 9805           # So       CIRCLED IDEOGRAPH ITEM
32A1          ; NFKC_CF; 4F11           # So       CIRCLED IDEOGRAPH REST
32A2          ; NFKC_CF; 5199           # So       CIRCLED IDEOGRAPH COPY
32A3          ; NFKC_CF; 6B63           # So       CIRCLED IDEOGRAPH CORRECT
32A4          ; NFKC_CF; 4E0A           # So       CIRCLED IDEOGRAPH HIGH
32A5          ; NFKC_CF; 4E2D           # So       CIRCLED IDEOGRAPH CENTRE
"%string.
Definition props_text_244 := "32A6          ; NFKC_CF; 4E0B           # So       CIRCLED IDEOGRAPH LOW
32A7          ; NFKC_CF; 5DE6           # So       CIRCLED IDEOGRAPH LEFT
32A8          ; NFKC_CF; 53F3           # So       CIRCLED IDEOGRAPH RIGHT
32A9          ; NFKC_CF; 533B           # So       CIRCLED IDEOGRAPH MEDICINE
32AA          ; NFKC_CF; 5B97           # So       CIRCLED IDEOGRAPH RELIGION
32AB          ; NFKC_CF; 5B66           # So       CIRCLED IDEOGRAPH STUDY
32AC          ; NFKC_CF; 76E3           # So       CIRCLED IDEOGRAPH SUPERVISE
32AD          ; NFKC_CF; 4F01           # So       CIRCLED IDEOGRAPH ENTERPRISE
32AE          ; NFKC_CF; 8CC7           # So       CIRCLED IDEOGRAPH RESOURCE
32AF          ; NFKC_CF; 5354           # So       CIRCLED IDEOGRAPH ALLIANCE
32B0          ; NFKC_CF; 591C           # So       CIRCLED IDEOGRAPH NIGHT
32B1          ; NFKC_CF; 0033 0036      # No       CIRCLED NUMBER THIRTY SIX
32B2          ; NFKC_CF; 0033 0037      # No       CIRCLED NUMBER THIRTY SEVEN
32B3          ; NFKC_CF; 0033 0038      # No       CIRCLED NUMBER THIRTY EIGHT
32B4          ; NFKC_CF; 0033 0039      # No       CIRCLED NUMBER THIRTY NINE
32B5          ; NFKC_CF; 0034 0030      # No       CIRCLED NUMBER FORTY
32B6          ; NFKC_CF; 0034 0031      # No       CIRCLED NUMBER FORTY ONE
32B7          ; NFKC_CF; 0034 0032      # No       CIRCLED NUMBER FORTY TWO
32B8          ; NFKC_CF; 0034 0033      # No       CIRCLED NUMBER FORTY THREE
32B9          ; NFKC_CF; 0034 0034      # No       CIRCLED NUMBER FORTY FOUR
"%string.
Definition props_text_245 := "32BA          ; NFKC_CF; 0034 0035      # No       CIRCLED NUMBER FORTY FIVE
32BB          ; NFKC_CF; 0034 0036      # No       CIRCLED NUMBER FORTY SIX
32BC          ; NFKC_CF; 0034 0037      # No       CIRCLED NUMBER FORTY SEVEN
32BD          ; NFKC_CF; 0034 0038      # No       CIRCLED NUMBER FORTY EIGHT
32BE          ; NFKC_CF; 0034 0039      # No       CIRCLED NUMBER FORTY NINE
32BF          ; NFKC_CF; 0035 0030      # No       CIRCLED NUMBER FIFTY
32C0          ; NFKC_CF; 0031 6708      # So       IDEOGRAPHIC TELEGRAPH SYMBOL FOR JANUARY
32C1          ; NFKC_CF; 0032 6708      # So       IDEOGRAPHIC TELEGRAPH SYMBOL FOR FEBRUARY
32C2          ; NFKC_CF; 0033 6708      # So       IDEOGRAPHIC TELEGRAPH SYMBOL FOR MARCH
32C3          ; NFKC_CF; 0034 6708      # So       IDEOGRAPHIC TELEGRAPH SYMBOL FOR APRIL
32C4          ; NFKC_CF; 0035 6708      # So       IDEOGRAPHIC TELEGRAPH SYMBOL FOR MAY
32C5          ; NFKC_CF; 0036 6708      # So       IDEOGRAPHIC TELEGRAPH SYMBOL FOR JUNE
32C6          ; NFKC_CF; 0037 6708      # So       IDEOGRAPHIC TELEGRAPH SYMBOL FOR JULY
32C7          ; NFKC_CF; 0038 6708      # So       IDEOGRAPHIC TELEGRAPH SYMBOL FOR AUGUST
32C8          ; NFKC_CF; 0039 6708      # So       IDEOGRAPHIC TELEGRAPH SYMBOL FOR SEPTEMBER
32C9          ; NFKC_CF; 0031 0030 6708 # So       IDEOGRAPHIC TELEGRAPH SYMBOL FOR OCTOBER
32CA          ; NFKC_CF; 0031 0031 6708 # So       IDEOGRAPHIC TELEGRAPH SYMBOL FOR NOVEMBER
32CB          ; NFKC_CF; 0031 0032 6708 # So       IDEOGRAPHIC TELEGRAPH SYMBOL FOR DECEMBER
32CC          ; NFKC_CF; 0068 0067      # So       SQUARE HG
32CD          ; NFKC_CF; 0065 0072 0067 # So       SQUARE ERG
"%string.
Definition props_text_246 := "32CE          ; NFKC_CF; 0065 0076      # So       SQUARE EV
32CF          ; NFKC_CF; 006C 0074 0064 # So       LIMITED LIABILITY SIGN
32D0          ; NFKC_CF; 30A2           # So       CIRCLED KATAKANA A
32D1          ; NFKC_CF; 30A4           # So       CIRCLED KATAKANA I
32D2          ; NFKC_CF; 30A6           # So       CIRCLED KATAKANA U
32D3          ; NFKC_CF; 30A8           # So       CIRCLED KATAKANA E
32D4          ; NFKC_CF; 30AA           # So       CIRCLED KATAKANA O
32D5          ; NFKC_CF; 30AB           # So       CIRCLED KATAKANA KA
32D6          ; NFKC_CF; 30AD           # So       CIRCLED KATAKANA KI
32D7          ; NFKC_CF; 30AF           # So       CIRCLED KATAKANA KU
32D8          ; NFKC_CF; 30B1           # So       CIRCLED KATAKANA KE
32D9          ; NFKC_CF; 30B3           # So       CIRCLED KATAKANA KO
32DA          ; NFKC_CF; 30B5           # So       CIRCLED KATAKANA SA
32DB          ; NFKC_CF; 30B7           # So       CIRCLED KATAKANA SI
32DC          ; NFKC_CF; 30B9           # So       CIRCLED KATAKANA SU
32DD          ; NFKC_CF; 30BB           # So       CIRCLED KATAKANA SE
32DE          ; NFKC_CF; 30BD           # So       CIRCLED KATAKANA SO
32DF          ; NFKC_CF; 30BF           # So       CIRCLED KATAKANA TA
32E0          ; NFKC_CF; 30C1           # So       CIRCLED KATAKANA TI
32E1          ; NFKC_CF; 30C4           # So       CIRCLED KATAKANA TU
"%string.
Definition props_text_247 := "32E2          ; NFKC_CF; 30C6           # So       CIRCLED KATAKANA TE
32E3          ; NFKC_CF; 30C8           # So       CIRCLED KATAKANA TO
32E4          ; NFKC_CF; 30CA           # So       CIRCLED KATAKANA NA
32E5          ; NFKC_CF; 30CB           # So       CIRCLED KATAKANA NI
32E6          ; NFKC_CF; 30CC           # So       CIRCLED KATAKANA NU
32E7          ; NFKC_CF; 30CD           # So       CIRCLED KATAKANA NE
32E8          ; NFKC_CF; 30CE           # So       CIRCLED KATAKANA NO
32E9          ; NFKC_CF; 30CF           # So       CIRCLED KATAKANA HA
32EA          ; NFKC_CF; 30D2           # So       CIRCLED KATAKANA HI
32EB          ; NFKC_CF; 30D5           # So       CIRCLED KATAKANA HU
32EC          ; NFKC_CF; 30D8           # So       CIRCLED KATAKANA HE
32ED          ; NFKC_CF; 30DB           # So       CIRCLED KATAKANA HO
32EE          ; NFKC_CF; 30DE           # So       CIRCLED KATAKANA MA
32EF          ; NFKC_CF; 30DF           # So       CIRCLED KATAKANA MI
32F0          ; NFKC_CF; 30E0           # So       CIRCLED KATAKANA MU
32F1          ; NFKC_CF; 30E1           # So       CIRCLED KATAKANA ME
32F2          ; NFKC_CF; 30E2           # So       CIRCLED KATAKANA MO
32F3          ; NFKC_CF; 30E4           # So       CIRCLED KATAKANA YA
32F4          ; NFKC_CF; 30E6           # So       CIRCLED KATAKANA YU
32F5          ; NFKC_CF; 30E8           # So       CIRCLED KATAKANA YO
"%string.
Definition props_text_248 := "32F6          ; NFKC_CF; 30E9           # So       CIRCLED KATAKANA RA
32F7          ; NFKC_CF; 30EA           # So       CIRCLED KATAKANA RI
32F8          ; NFKC_CF; 30EB           # So       CIRCLED KATAKANA RU
32F9          ; NFKC_CF; 30EC           # So       CIRCLED KATAKANA RE
32FA          ; NFKC_CF; 30ED           # So       CIRCLED KATAKANA RO
32FB          ; NFKC_CF; 30EF           # So       CIRCLED KATAKANA WA
32FC          ; NFKC_CF; 30F0           # So       CIRCLED KATAKANA WI
32FD          ; NFKC_CF; 30F1           # So       CIRCLED KATAKANA WE
32FE          ; NFKC_CF; 30F2           # So       CIRCLED KATAKANA WO
32FF          ; NFKC_CF; 4EE4 548C      # So       SQUARE ERA NAME REIWA
3300          ; NFKC_CF; 30A2 30D1 30FC 30C8 #So   SQUARE APAATO
3301          ; NFKC_CF; 30A2 30EB 30D5 30A1 #So   SQUARE ARUHUA
3302          ; NFKC_CF; 30A2 30F3 30DA 30A2 #So   SQUARE ANPEA
3303          ; NFKC_CF; 30A2 30FC 30EB # So       SQUARE AARU
3304          ; NFKC_CF; 30A4 30CB 30F3 30B0 #So   SQUARE ININGU
3305          ; NFKC_CF; 30A4 30F3 30C1 # So       SQUARE INTI
3306          ; NFKC_CF; 30A6 30A9 30F3 # So       SQUARE UON
3307          ; NFKC_CF; 30A8 30B9 30AF 30FC 30C9 #So SQUARE ESUKUUDO
3308          ; NFKC_CF; 30A8 30FC 30AB 30FC #So   SQUARE EEKAA
3309          ; NFKC_CF; 30AA 30F3 30B9 # So       SQUARE ONSU
"%string.
Definition props_text_249 := "330A          ; NFKC_CF; 30AA 30FC 30E0 # So       SQUARE OOMU
330B          ; NFKC_CF; 30AB 30A4 30EA # So       SQUARE KAIRI
330C          ; NFKC_CF; 30AB 30E9 30C3 30C8 #So   SQUARE KARATTO
330D          ; NFKC_CF; 30AB 30ED 30EA 30FC #So   SQUARE KARORII
330E          ; NFKC_CF; 30AC 30ED 30F3 # So       SQUARE GARON
330F          ; NFKC_CF; 30AC 30F3 30DE # So       SQUARE GANMA
3310          ; NFKC_CF; 30AE 30AC      # So       SQUARE GIGA
3311          ; NFKC_CF; 30AE 30CB 30FC # So       SQUARE GINII
3312          ; NFKC_CF; 30AD 30E5 30EA 30FC #So   SQUARE KYURII
3313          ; NFKC_CF; 30AE 30EB 30C0 30FC #So   SQUARE GIRUDAA
3314          ; NFKC_CF; 30AD 30ED      # So       SQUARE KIRO
3315          ; NFKC_CF; 30AD 30ED 30B0 30E9 30E0 #So SQUARE KIROGURAMU
3316          ; NFKC_CF; 30AD 30ED 30E1 30FC 30C8 30EB #So SQUARE KIROMEETORU
3317          ; NFKC_CF; 30AD 30ED 30EF 30C3 30C8 #So SQUARE KIROWATTO
3318          ; NFKC_CF; 30B0 30E9 30E0 # So       SQUARE GURAMU
3319          ; NFKC_CF; 30B0 30E9 30E0 30C8 30F3 #So SQUARE GURAMUTON
331A          ; NFKC_CF; 30AF 30EB 30BC 30A4 30ED #So SQUARE KURUZEIRO
331B          ; NFKC_CF; 30AF 30ED 30FC 30CD #So   SQUARE KUROONE
331C          ; NFKC_CF; 30B1 30FC 30B9 # So       SQUARE KEESU
331D          ; NFKC_CF; 30B3 30EB 30CA # So       SQUARE KORUNA
"%string.
Definition props_text_250 := "331E          ; NFKC_CF; 30B3 30FC 30DD # So       SQUARE KOOPO
331F          ; NFKC_CF; 30B5 30A4 30AF 30EB #So   SQUARE SAIKURU
3320          ; NFKC_CF; 30B5 30F3 30C1 30FC 30E0 #So SQUARE SANTIIMU
3321          ; NFKC_CF; 30B7 30EA 30F3 30B0 #So   SQUARE SIRINGU
3322          ; NFKC_CF; 30BB 30F3 30C1 # So       SQUARE SENTI
3323          ; NFKC_CF; 30BB 30F3 30C8 # So       SQUARE SENTO
3324          ; NFKC_CF; 30C0 30FC 30B9 # So       SQUARE DAASU
3325          ; NFKC_CF; 30C7 30B7      # So       SQUARE DESI
3326          ; NFKC_CF; 30C9 30EB      # So       SQUARE DORU
3327          ; NFKC_CF; 30C8 30F3      # So       SQUARE TON
3328          ; NFKC_CF; 30CA 30CE      # So       SQUARE NANO
3329          ; NFKC_CF; 30CE 30C3 30C8 # So       SQUARE NOTTO
332A          ; NFKC_CF; 30CF 30A4 30C4 # So       SQUARE HAITU
332B          ; NFKC_CF; 30D1 30FC 30BB 30F3 30C8 #So SQUARE PAASENTO
332C          ; NFKC_CF; 30D1 30FC 30C4 # So       SQUARE PAATU
332D          ; NFKC_CF; 30D0 30FC 30EC 30EB #So   SQUARE BAARERU
332E          ; NFKC_CF; 30D4 30A2 30B9 30C8 30EB #So SQUARE PIASUTORU
332F          ; NFKC_CF; 30D4 30AF 30EB # So       SQUARE PIKURU
3330          ; NFKC_CF; 30D4 30B3      # So       SQUARE PIKO
3331          ; NFKC_CF; 30D3 30EB      # So       SQUARE BIRU
"%string.
Definition props_text_251 := "3332          ; NFKC_CF; 30D5 30A1 30E9 30C3 30C9 #So SQUARE HUARADDO
3333          ; NFKC_CF; 30D5 30A3 30FC 30C8 #So   SQUARE HUIITO
3334          ; NFKC_CF; 30D6 30C3 30B7 30A7 30EB #So SQUARE BUSSYERU
3335          ; NFKC_CF; 30D5 30E9 30F3 # So       SQUARE HURAN
3336          ; NFKC_CF; 30D8 30AF 30BF 30FC 30EB #So SQUARE HEKUTAARU
3337          ; NFKC_CF; 30DA 30BD      # So       SQUARE PESO
3338          ; NFKC_CF; 30DA 30CB 30D2 # So       SQUARE PENIHI
3339          ; NFKC_CF; 30D8 30EB 30C4 # So       SQUARE HERUTU
333A          ; NFKC_CF; 30DA 30F3 30B9 # So       SQUARE PENSU
333B          ; NFKC_CF; 30DA 30FC 30B8 # So       SQUARE PEEZI
333C          ; NFKC_CF; 30D9 30FC 30BF # So       SQUARE BEETA
333D          ; NFKC_CF; 30DD 30A4 30F3 30C8 #So   SQUARE POINTO
333E          ; NFKC_CF; 30DC 30EB 30C8 # So       SQUARE BORUTO
333F          ; NFKC_CF; 30DB 30F3      # So       SQUARE HON
3340          ; NFKC_CF; 30DD 30F3 30C9 # So       SQUARE PONDO
3341          ; NFKC_CF; 30DB 30FC 30EB # So       SQUARE HOORU
3342          ; NFKC_CF; 30DB 30FC 30F3 # So       SQUARE HOON
3343          ; NFKC_CF; 30DE 30A4 30AF 30ED #So   SQUARE MAIKURO
3344          ; NFKC_CF; 30DE 30A4 30EB # So       SQUARE MAIRU
3345          ; NFKC_CF; 30DE 30C3 30CF # So       SQUARE MAHHA
"%string.
Definition props_text_252 := "3346          ; NFKC_CF; 30DE 30EB 30AF # So       SQUARE MARUKU
3347          ; NFKC_CF; 30DE 30F3 30B7 30E7 30F3 #So SQUARE MANSYON
3348          ; NFKC_CF; 30DF 30AF 30ED 30F3 #So   SQUARE MIKURON
3349          ; NFKC_CF; 30DF 30EA      # So       SQUARE MIRI
334A          ; NFKC_CF; 30DF 30EA 30D0 30FC 30EB #So SQUARE MIRIBAARU
334B          ; NFKC_CF; 30E1 30AC      # So       SQUARE MEGA
334C          ; NFKC_CF; 30E1 30AC 30C8 30F3 #So   SQUARE MEGATON
334D          ; NFKC_CF; 30E1 30FC 30C8 30EB #So   SQUARE MEETORU
334E          ; NFKC_CF; 30E4 30FC 30C9 # So       SQUARE YAADO
334F          ; NFKC_CF; 30E4 30FC 30EB # So       SQUARE YAARU
3350          ; NFKC_CF; 30E6 30A2 30F3 # So       SQUARE YUAN
3351          ; NFKC_CF; 30EA 30C3 30C8 30EB #So   SQUARE RITTORU
3352          ; NFKC_CF; 30EA 30E9      # So       SQUARE RIRA
3353          ; NFKC_CF; 30EB 30D4 30FC # So       SQUARE RUPII
3354          ; NFKC_CF; 30EB 30FC 30D6 30EB #So   SQUARE RUUBURU
3355          ; NFKC_CF; 30EC 30E0      # So       SQUARE REMU
3356          ; NFKC_CF; 30EC 30F3 30C8 30B2 30F3 #So SQUARE RENTOGEN
3357          ; NFKC_CF; 30EF 30C3 30C8 # So       SQUARE WATTO
3358          ; NFKC_CF; 0030 70B9      # So       IDEOGRAPHIC TELEGRAPH SYMBOL FOR HOUR ZERO
3359          ; NFKC_CF; 0031 70B9      # So       IDEOGRAPHIC TELEGRAPH SYMBOL FOR HOUR ONE
"%string.
Definition props_text_253 := "335A          ; NFKC_CF; 0032 70B9      # So       IDEOGRAPHIC TELEGRAPH SYMBOL FOR HOUR TWO
335B          ; NFKC_CF; 0033 70B9      # So       IDEOGRAPHIC TELEGRAPH SYMBOL FOR HOUR THREE
335C          ; NFKC_CF; 0034 70B9      # So       IDEOGRAPHIC TELEGRAPH SYMBOL FOR HOUR FOUR
335D          ; NFKC_CF; 0035 70B9      # So       IDEOGRAPHIC TELEGRAPH SYMBOL FOR HOUR FIVE
335E          ; NFKC_CF; 0036 70B9      # So       IDEOGRAPHIC TELEGRAPH SYMBOL FOR HOUR SIX
335F          ; NFKC_CF; 0037 70B9      # So       IDEOGRAPHIC TELEGRAPH SYMBOL FOR HOUR SEVEN
3360          ; NFKC_CF; 0038 70B9      # So       IDEOGRAPHIC TELEGRAPH SYMBOL FOR HOUR EIGHT
3361          ; NFKC_CF; 0039 70B9      # So       IDEOGRAPHIC TELEGRAPH SYMBOL FOR HOUR NINE
3362          ; NFKC_CF; 0031 0030 70B9 # So       IDEOGRAPHIC TELEGRAPH SYMBOL FOR HOUR TEN
3363          ; NFKC_CF; 0031 0031 70B9 # So       IDEOGRAPHIC TELEGRAPH SYMBOL FOR HOUR ELEVEN
3364          ; NFKC_CF; 0031 0032 70B9 # So       IDEOGRAPHIC TELEGRAPH SYMBOL FOR HOUR TWELVE
3365          ; NFKC_CF; 0031 0033 70B9 # So       IDEOGRAPHIC TELEGRAPH SYMBOL FOR HOUR THIRTEEN
3366          ; NFKC_CF; 0031 0034 70B9 # So       IDEOGRAPHIC TELEGRAPH SYMBOL FOR HOUR FOURTEEN
3367          ; NFKC_CF; 0031 0035 70B9 # So       IDEOGRAPHIC TELEGRAPH SYMBOL FOR HOUR FIFTEEN
3368          ; NFKC_CF; 0031 0036 70B9 # So       IDEOGRAPHIC TELEGRAPH SYMBOL FOR HOUR SIXTEEN
3369          ; NFKC_CF; 0031 0037 70B9 # So       IDEOGRAPHIC TELEGRAPH SYMBOL FOR HOUR SEVENTEEN
336A          ; NFKC_CF; 0031 0038 70B9 # So       IDEOGRAPHIC TELEGRAPH SYMBOL FOR HOUR EIGHTEEN
336B          ; NFKC_CF; 0031 0039 70B9 # So       IDEOGRAPHIC TELEGRAPH SYMBOL FOR HOUR NINETEEN
336C          ; NFKC_CF; 0032 0030 70B9 # So       IDEOGRAPHIC TELEGRAPH SYMBOL FOR HOUR TWENTY
336D          ; NFKC_CF; 0032 0031 70B9 # So       IDEOGRAPHIC TELEGRAPH SYMBOL FOR HOUR TWENTY-ONE
"%string.
Definition props_text_254 := "336E          ; NFKC_CF; 0032 0032 70B9 # So       IDEOGRAPHIC TELEGRAPH SYMBOL FOR HOUR TWENTY-TWO
336F          ; NFKC_CF; 0032 0033 70B9 # So       IDEOGRAPHIC TELEGRAPH SYMBOL FOR HOUR TWENTY-THREE
3370          ; NFKC_CF; 0032 0034 70B9 # So       IDEOGRAPHIC TELEGRAPH SYMBOL FOR HOUR TWENTY-FOUR
3371          ; NFKC_CF; 0068 0070 0061 # So       SQUARE HPA
3372          ; NFKC_CF; 0064 0061      # So       SQUARE DA
3373          ; NFKC_CF; 0061 0075      # So       SQUARE AU
3374          ; NFKC_CF; 0062 0061 0072 # So       SQUARE BAR
3375          ; NFKC_CF; 006F 0076      # So       SQUARE OV
3376          ; NFKC_CF; 0070 0063      # So       SQUARE PC
3377          ; NFKC_CF; 0064 006D      # So       SQUARE DM
3378          ; NFKC_CF; 0064 006D 0032 # So       SQUARE DM SQUARED
3379          ; NFKC_CF; 0064 006D 0033 # So       SQUARE DM CUBED
337A          ; NFKC_CF; 0069 0075      # So       SQUARE IU
337B          ; NFKC_CF; 5E73 6210      # So       SQUARE ERA NAME HEISEI
337C          ; NFKC_CF; 662D 548C      # So       SQUARE ERA NAME SYOUWA
337D          ; NFKC_CF; 5927 6B63      # So       SQUARE ERA NAME TAISYOU
337E          ; NFKC_CF; 660E 6CBB      # So       SQUARE ERA NAME MEIZI
337F          ; NFKC_CF; 682A 5F0F 4F1A 793E #So   SQUARE CORPORATION
3380          ; NFKC_CF; 0070 0061      # So       SQUARE PA AMPS
3381          ; NFKC_CF; 006E 0061      # So       SQUARE NA
"%string.
Definition props_text_255 := "3382          ; NFKC_CF; 03BC 0061      # So       SQUARE MU A
3383          ; NFKC_CF; 006D 0061      # So       SQUARE MA
3384          ; NFKC_CF; 006B 0061      # So       SQUARE KA
3385          ; NFKC_CF; 006B 0062      # So       SQUARE KB
3386          ; NFKC_CF; 006D 0062      # So       SQUARE MB
3387          ; NFKC_CF; 0067 0062      # So       SQUARE GB
3388          ; NFKC_CF; 0063 0061 006C # So       SQUARE CAL
3389          ; NFKC_CF; 006B 0063 0061 006C #So   SQUARE KCAL
338A          ; NFKC_CF; 0070 0066      # So       SQUARE PF
338B          ; NFKC_CF; 006E 0066      # So       SQUARE NF
338C          ; NFKC_CF; 03BC 0066      # So       SQUARE MU F
338D          ; NFKC_CF; 03BC 0067      # So       SQUARE MU G
338E          ; NFKC_CF; 006D 0067      # So       SQUARE MG
338F          ; NFKC_CF; 006B 0067      # So       SQUARE KG
3390          ; NFKC_CF; 0068 007A      # So       SQUARE HZ
3391          ; NFKC_CF; 006B 0068 007A # So       SQUARE KHZ
3392          ; NFKC_CF; 006D 0068 007A # So       SQUARE MHZ
3393          ; NFKC_CF; 0067 0068 007A # So       SQUARE GHZ
3394          ; NFKC_CF; 0074 0068 007A # So       SQUARE THZ
3395          ; NFKC_CF; 03BC 006C      # So       SQUARE MU L
"%string.
Definition props_text_256 := "3396          ; NFKC_CF; 006D 006C      # So       SQUARE ML
3397          ; NFKC_CF; 0064 006C      # So       SQUARE DL
3398          ; NFKC_CF; 006B 006C      # So       SQUARE KL
3399          ; NFKC_CF; 0066 006D      # So       SQUARE FM
339A          ; NFKC_CF; 006E 006D      # So       SQUARE NM
339B          ; NFKC_CF; 03BC 006D      # So       SQUARE MU M
339C          ; NFKC_CF; 006D 006D      # So       SQUARE MM
339D          ; NFKC_CF; 0063 006D      # So       SQUARE CM
339E          ; NFKC_CF; 006B 006D      # So       SQUARE KM
339F          ; NFKC_CF; 006D 006D 0032 # So       SQUARE MM SQUARED
33A0          ; NFKC_CF; 0063 006D 0032 # So       SQUARE CM SQUARED
33A1          ; NFKC_CF; 006D 0032      # So       SQUARE M SQUARED
33A2          ; NFKC_CF; 006B 006D 0032 # So       SQUARE KM SQUARED
33A3          ; NFKC_CF; 006D 006D 0033 # So       SQUARE MM CUBED
33A4          ; NFKC_CF; 0063 006D 0033 # So       SQUARE CM CUBED
33A5          ; NFKC_CF; 006D 0033      # So       SQUARE M CUBED
33A6          ; NFKC_CF; 006B 006D 0033 # So       SQUARE KM CUBED
33A7          ; NFKC_CF; 006D 2215 0073 # So       SQUARE M OVER S
33A8          ; NFKC_CF; 006D 2215 0073 0032 #So   SQUARE M OVER S SQUARED
33A9          ; NFKC_CF; 0070 0061      # So       SQUARE PA
"%string.
Definition props_text_257 := "33AA          ; NFKC_CF; 006B 0070 0061 # So       SQUARE KPA
33AB          ; NFKC_CF; 006D 0070 0061 # So       SQUARE MPA
33AC          ; NFKC_CF; 0067 0070 0061 # So       SQUARE GPA
33AD          ; NFKC_CF; 0072 0061 0064 # So       SQUARE RAD
33AE          ; NFKC_CF; 0072 0061 0064 2215 0073 #So SQUARE RAD OVER S
33AF          ; NFKC_CF; 0072 0061 0064 2215 0073 0032 #So SQUARE RAD OVER S SQUARED
33B0          ; NFKC_CF; 0070 0073      # So       SQUARE PS
33B1          ; NFKC_CF; 006E 0073      # So       SQUARE NS
33B2          ; NFKC_CF; 03BC 0073      # So       SQUARE MU S
33B3          ; NFKC_CF; 006D 0073      # So       SQUARE MS
33B4          ; NFKC_CF; 0070 0076      # So       SQUARE PV
33B5          ; NFKC_CF; 006E 0076      # So       SQUARE NV
33B6          ; NFKC_CF; 03BC 0076      # So       SQUARE MU V
33B7          ; NFKC_CF; 006D 0076      # So       SQUARE MV
33B8          ; NFKC_CF; 006B 0076      # So       SQUARE KV
33B9          ; NFKC_CF; 006D 0076      # So       SQUARE MV MEGA
33BA          ; NFKC_CF; 0070 0077      # So       SQUARE PW
33BB          ; NFKC_CF; 006E 0077      # So       SQUARE NW
33BC          ; NFKC_CF; 03BC 0077      # So       SQUARE MU W
33BD          ; NFKC_CF; 006D 0077      # So       SQUARE MW
"%string.
Definition props_text_258 := "33BE          ; NFKC_CF; 006B 0077      # So       SQUARE KW
33BF          ; NFKC_CF; 006D 0077      # So       SQUARE MW MEGA
33C0          ; NFKC_CF; 006B 03C9      # So       SQUARE K OHM
33C1          ; NFKC_CF; 006D 03C9      # So       SQUARE M OHM
33C2          ; NFKC_CF; 0061 002E 006D 002E #So   SQUARE AM
33C3          ; NFKC_CF; 0062 0071      # So       SQUARE BQ
33C4          ; NFKC_CF; 0063 0063      # So       SQUARE CC
33C5          ; NFKC_CF; 0063 0064      # So       SQUARE CD
33C6          ; NFKC_CF; 0063 2215 006B 0067 #So   SQUARE C OVER KG
33C7          ; NFKC_CF; 0063 006F 002E # So       SQUARE CO
33C8          ; NFKC_CF; 0064 0062      # So       SQUARE DB
33C9          ; NFKC_CF; 0067 0079      # So       SQUARE GY
33CA          ; NFKC_CF; 0068 0061      # So       SQUARE HA
33CB          ; NFKC_CF; 0068 0070      # So       SQUARE HP
33CC          ; NFKC_CF; 0069 006E      # So       SQUARE IN
33CD          ; NFKC_CF; 006B 006B      # So       SQUARE KK
33CE          ; NFKC_CF; 006B 006D      # So       SQUARE KM CAPITAL
33CF          ; NFKC_CF; 006B 0074      # So       SQUARE KT
33D0          ; NFKC_CF; 006C 006D      # So       SQUARE LM
33D1          ; NFKC_CF; 006C 006E      # So       SQUARE LN
"%string.
Definition props_text_259 := "33D2          ; NFKC_CF; 006C 006F 0067 # So       SQUARE LOG
33D3          ; NFKC_CF; 006C 0078      # So       SQUARE LX
33D4          ; NFKC_CF; 006D 0062      # So       SQUARE MB SMALL
33D5          ; NFKC_CF; 006D 0069 006C # So       SQUARE MIL
33D6          ; NFKC_CF; 006D 006F 006C # So       SQUARE MOL
33D7          ; NFKC_CF; 0070 0068      # So       SQUARE PH
33D8          ; NFKC_CF; 0070 002E 006D 002E #So   SQUARE PM
33D9          ; NFKC_CF; 0070 0070 006D # So       SQUARE PPM
33DA          ; NFKC_CF; 0070 0072      # So       SQUARE PR
33DB          ; NFKC_CF; 0073 0072      # So       SQUARE SR
33DC          ; NFKC_CF; 0073 0076      # So       SQUARE SV
33DD          ; NFKC_CF; 0077 0062      # So       SQUARE WB
33DE          ; NFKC_CF; 0076 2215 006D # So       SQUARE V OVER M
33DF          ; NFKC_CF; 0061 2215 006D # So       SQUARE A OVER M
33E0          ; NFKC_CF; 0031 65E5      # So       IDEOGRAPHIC TELEGRAPH SYMBOL FOR DAY ONE
33E1          ; NFKC_CF; 0032 65E5      # So       IDEOGRAPHIC TELEGRAPH SYMBOL FOR DAY TWO
33E2          ; NFKC_CF; 0033 65E5      # So       IDEOGRAPHIC TELEGRAPH SYMBOL FOR DAY THREE
33E3          ; NFKC_CF; 0034 65E5      # So       IDEOGRAPHIC TELEGRAPH SYMBOL FOR DAY FOUR
33E4          ; NFKC_CF; 0035 65E5      # So       IDEOGRAPHIC TELEGRAPH SYMBOL FOR DAY FIVE
33E5          ; NFKC_CF; 0036 65E5      # So       IDEOGRAPHIC TELEGRAPH SYMBOL FOR DAY SIX
"%string.
Definition props_text_260 := "33E6          ; NFKC_CF; 0037 65E5      # So       IDEOGRAPHIC TELEGRAPH SYMBOL FOR DAY SEVEN
33E7          ; NFKC_CF; 0038 65E5      # So       IDEOGRAPHIC TELEGRAPH SYMBOL FOR DAY EIGHT
33E8          ; NFKC_CF; 0039 65E5      # So       IDEOGRAPHIC TELEGRAPH SYMBOL FOR DAY NINE
33E9          ; NFKC_CF; 0031 0030 65E5 # So       IDEOGRAPHIC TELEGRAPH SYMBOL FOR DAY TEN
33EA          ; NFKC_CF; 0031 0031 65E5 # So       IDEOGRAPHIC TELEGRAPH SYMBOL FOR DAY ELEVEN
33EB          ; NFKC_CF; 0031 0032 65E5 # So       IDEOGRAPHIC TELEGRAPH SYMBOL FOR DAY TWELVE
33EC          ; NFKC_CF; 0031 0033 65E5 # So       IDEOGRAPHIC TELEGRAPH SYMBOL FOR DAY THIRTEEN
33ED          ; NFKC_CF; 0031 0034 65E5 # So       IDEOGRAPHIC TELEGRAPH SYMBOL FOR DAY FOURTEEN
33EE          ; NFKC_CF; 0031 0035 65E5 # So       IDEOGRAPHIC TELEGRAPH SYMBOL FOR DAY FIFTEEN
33EF          ; NFKC_CF; 0031 0036 65E5 # So       IDEOGRAPHIC TELEGRAPH SYMBOL FOR DAY SIXTEEN
33F0          ; NFKC_CF; 0031 0037 65E5 # So       IDEOGRAPHIC TELEGRAPH SYMBOL FOR DAY SEVENTEEN
33F1          ; NFKC_CF; 0031 0038 65E5 # So       IDEOGRAPHIC TELEGRAPH SYMBOL FOR DAY EIGHTEEN
33F2          ; NFKC_CF; 0031 0039 65E5 # So       IDEOGRAPHIC TELEGRAPH SYMBOL FOR DAY NINETEEN
33F3          ; NFKC_CF; 0032 0030 65E5 # So       IDEOGRAPHIC TELEGRAPH SYMBOL FOR DAY TWENTY
33F4          ; NFKC_CF; 0032 0031 65E5 # So       IDEOGRAPHIC TELEGRAPH SYMBOL FOR DAY TWENTY-ONE
33F5          ; NFKC_CF; 0032 0032 65E5 # So       IDEOGRAPHIC TELEGRAPH SYMBOL FOR DAY TWENTY-TWO
33F6          ; NFKC_CF; 0032 0033 65E5 # So       IDEOGRAPHIC TELEGRAPH SYMBOL FOR DAY TWENTY-THREE
33F7          ; NFKC_CF; 0032 0034 65E5 # So       IDEOGRAPHIC TELEGRAPH SYMBOL FOR DAY TWENTY-FOUR
33F8          ; NFKC_CF; 0032 0035 65E5 # So       IDEOGRAPHIC TELEGRAPH SYMBOL FOR DAY TWENTY-FIVE
33F9          ; NFKC_CF; 0032 0036 65E5 # So       IDEOGRAPHIC TELEGRAPH SYMBOL FOR DAY TWENTY-SIX
"%string.
Definition props_text_261 := "33FA          ; NFKC_CF; 0032 0037 65E5 # So       IDEOGRAPHIC TELEGRAPH SYMBOL FOR DAY TWENTY-SEVEN
33FB          ; NFKC_CF; 0032 0038 65E5 # So       IDEOGRAPHIC TELEGRAPH SYMBOL FOR DAY TWENTY-EIGHT
33FC          ; NFKC_CF; 0032 0039 65E5 # So       IDEOGRAPHIC TELEGRAPH SYMBOL FOR DAY TWENTY-NINE
33FD          ; NFKC_CF; 0033 0030 65E5 # So       IDEOGRAPHIC TELEGRAPH SYMBOL FOR DAY THIRTY
33FE          ; NFKC_CF; 0033 0031 65E5 # So       IDEOGRAPHIC TELEGRAPH SYMBOL FOR DAY THIRTY-ONE
33FF          ; NFKC_CF; 0067 0061 006C # So       SQUARE GAL
A640          ; NFKC_CF; A641           # L&       CYRILLIC CAPITAL LETTER ZEMLYA
A642          ; NFKC_CF; A643           # L&       CYRILLIC CAPITAL LETTER DZELO
A644          ; NFKC_CF; A645           # L&       CYRILLIC CAPITAL LETTER REVERSED DZE
A646          ; NFKC_CF; A647           # L&       CYRILLIC CAPITAL LETTER IOTA
A648          ; NFKC_CF; A649           # L&       CYRILLIC CAPITAL LETTER DJERV
A64A          ; NFKC_CF; A64B           # L&       CYRILLIC CAPITAL LETTER MONOGRAPH UK
A64C          ; NFKC_CF; A64D           # L&       CYRILLIC CAPITAL LETTER BROAD OMEGA
A64E          ; NFKC_CF; A64F           # L&       CYRILLIC CAPITAL LETTER NEUTRAL YER
A650          ; NFKC_CF; A651           # L&       CYRILLIC CAPITAL LETTER YERU WITH BACK YER
A652          ; NFKC_CF; A653           # L&       CYRILLIC CAPITAL LETTER IOTIFIED YAT
A654          ; NFKC_CF; A655           # L&       CYRILLIC CAPITAL LETTER REVERSED YU
A656          ; NFKC_CF; A657           # L&       CYRILLIC CAPITAL LETTER IOTIFIED A
A658          ; NFKC_CF; A659           # L&       CYRILLIC CAPITAL LETTER CLOSED LITTLE YUS
A65A          ; NFKC_CF; A65B           # L&       CYRILLIC CAPITAL LETTER BLENDED YUS
"%string.
Definition props_text_262 := "A65C          ; NFKC_CF; A65D           # L&       CYRILLIC CAPITAL LETTER IOTIFIED CLOSED LITTLE YUS
A65E          ; NFKC_CF; A65F           # L&       CYRILLIC CAPITAL LETTER YN
A660          ; NFKC_CF; A661           # L&       CYRILLIC CAPITAL LETTER REVERSED TSE
A662          ; NFKC_CF; A663           # L&       CYRILLIC CAPITAL LETTER SOFT DE
A664          ; NFKC_CF; A665           # L&       CYRILLIC CAPITAL LETTER SOFT EL
A666          ; NFKC_CF; A667           # L&       CYRILLIC CAPITAL LETTER SOFT EM
A668          ; NFKC_CF; A669           # L&       CYRILLIC CAPITAL LETTER MONOCULAR O
A66A          ; NFKC_CF; A66B           # L&       CYRILLIC CAPITAL LETTER BINOCULAR O
A66C          ; NFKC_CF; A66D           # L&       CYRILLIC CAPITAL LETTER DOUBLE MONOCULAR O
A680          ; NFKC_CF; A681           # L&       CYRILLIC CAPITAL LETTER DWE
A682          ; NFKC_CF; A683           # L&       CYRILLIC CAPITAL LETTER DZWE
A684          ; NFKC_CF; A685           # L&       CYRILLIC CAPITAL LETTER ZHWE
A686          ; NFKC_CF; A687           # L&       CYRILLIC CAPITAL LETTER CCHE
A688          ; NFKC_CF; A689           # L&       CYRILLIC CAPITAL LETTER DZZE
A68A          ; NFKC_CF; A68B           # L&       CYRILLIC CAPITAL LETTER TE WITH MIDDLE HOOK
A68C          ; NFKC_CF; A68D           # L&       CYRILLIC CAPITAL LETTER TWE
A68E          ; NFKC_CF; A68F           # L&       CYRILLIC CAPITAL LETTER TSWE
A690          ; NFKC_CF; A691           # L&       CYRILLIC CAPITAL LETTER TSSE
A692          ; NFKC_CF; A693           # L&       CYRILLIC CAPITAL LETTER TCHE
A694          ; NFKC_CF; A695           # L&       CYRILLIC CAPITAL LETTER HWE
"%string.
Definition props_text_263 := "A696          ; NFKC_CF; A697           # L&       CYRILLIC CAPITAL LETTER SHWE
A698          ; NFKC_CF; A699           # L&       CYRILLIC CAPITAL LETTER DOUBLE O
A69A          ; NFKC_CF; A69B           # L&       CYRILLIC CAPITAL LETTER CROSSED O
A69C          ; NFKC_CF; 044A           # Lm       MODIFIER LETTER CYRILLIC HARD SIGN
A69D          ; NFKC_CF; 044C           # Lm       MODIFIER LETTER CYRILLIC SOFT SIGN
A722          ; NFKC_CF; A723           # L&       LATIN CAPITAL LETTER EGYPTOLOGICAL ALEF
A724          ; NFKC_CF; A725           # L&       LATIN CAPITAL LETTER EGYPTOLOGICAL AIN
A726          ; NFKC_CF; A727           # L&       LATIN CAPITAL LETTER HENG
A728          ; NFKC_CF; A729           # L&       LATIN CAPITAL LETTER TZ
A72A          ; NFKC_CF; A72B           # L&       LATIN CAPITAL LETTER TRESILLO
A72C          ; NFKC_CF; A72D           # L&       LATIN CAPITAL LETTER CUATRILLO
A72E          ; NFKC_CF; A72F           # L&       LATIN CAPITAL LETTER CUATRILLO WITH COMMA
A732          ; NFKC_CF; A733           # L&       LATIN CAPITAL LETTER AA
A734          ; NFKC_CF; A735           # L&       LATIN CAPITAL LETTER AO
A736          ; NFKC_CF; A737           # L&       LATIN CAPITAL LETTER AU
A738          ; NFKC_CF; A739           # L&       LATIN CAPITAL LETTER AV
A73A          ; NFKC_CF; A73B           # L&       LATIN CAPITAL LETTER AV WITH HORIZONTAL BAR
A73C          ; NFKC_CF; A73D           # L&       LATIN CAPITAL LETTER AY
A73E          ; NFKC_CF; A73F           # L&       LATIN CAPITAL LETTER REVERSED C WITH DOT
A740          ; NFKC_CF; A741           # L&       LATIN CAPITAL LETTER K WITH STROKE
"%string.
Definition props_text_264 := "A742          ; NFKC_CF; A743           # L&       LATIN CAPITAL LETTER K WITH DIAGONAL STROKE
A744          ; NFKC_CF; A745           # L&       LATIN CAPITAL LETTER K WITH STROKE AND DIAGONAL STROKE
A746          ; NFKC_CF; A747           # L&       LATIN CAPITAL LETTER BROKEN L
A748          ; NFKC_CF; A749           # L&       LATIN CAPITAL LETTER L WITH HIGH STROKE
A74A          ; NFKC_CF; A74B           # L&       LATIN CAPITAL LETTER O WITH LONG STROKE OVERLAY
A74C          ; NFKC_CF; A74D           # L&       LATIN CAPITAL LETTER O WITH LOOP
A74E          ; NFKC_CF; A74F           # L&       LATIN CAPITAL LETTER OO
A750          ; NFKC_CF; A751           # L&       LATIN CAPITAL LETTER P WITH STROKE THROUGH DESCENDER
A752          ; NFKC_CF; A753           # L&       LATIN CAPITAL LETTER P WITH FLOURISH
A754          ; NFKC_CF; A755           # L&       LATIN CAPITAL LETTER P WITH SQUIRREL TAIL
A756          ; NFKC_CF; A757           # L&       LATIN CAPITAL LETTER Q WITH STROKE THROUGH DESCENDER
A758          ; NFKC_CF; A759           # L&       LATIN CAPITAL LETTER Q WITH DIAGONAL STROKE
A75A          ; NFKC_CF; A75B           # L&       LATIN CAPITAL LETTER R ROTUNDA
A75C          ; NFKC_CF; A75D           # L&       LATIN CAPITAL LETTER RUM ROTUNDA
A75E          ; NFKC_CF; A75F           # L&       LATIN CAPITAL LETTER V WITH DIAGONAL STROKE
A760          ; NFKC_CF; A761           # L&       LATIN CAPITAL LETTER VY
A762          ; NFKC_CF; A763           # L&       LATIN CAPITAL LETTER VISIGOTHIC Z
A764          ; NFKC_CF; A765           # L&       LATIN CAPITAL LETTER THORN WITH STROKE
A766          ; NFKC_CF; A767           # L&       LATIN CAPITAL LETTER THORN WITH STROKE THROUGH DESCENDER
A768          ; NFKC_CF; A769           # L&       LATIN CAPITAL LETTER VEND
"%string.
Definition props_text_265 := "A76A          ; NFKC_CF; A76B           # L&       LATIN CAPITAL LETTER ET
A76C          ; NFKC_CF; A76D           # L&       LATIN CAPITAL LETTER IS
A76E          ; NFKC_CF; A76F           # L&       LATIN CAPITAL LETTER CON
A770          ; NFKC_CF; A76F           # Lm       MODIFIER LETTER US
A779          ; NFKC_CF; A77A           # L&       LATIN CAPITAL LETTER INSULAR D
A77B          ; NFKC_CF; A77C           # L&       LATIN CAPITAL LETTER INSULAR F
A77D          ; NFKC_CF; 1D79           # L&       LATIN CAPITAL LETTER INSULAR G
A77E          ; NFKC_CF; A77F           # L&       LATIN CAPITAL LETTER TURNED INSULAR G
A780          ; NFKC_CF; A781           # L&       LATIN CAPITAL LETTER TURNED L
A782          ; NFKC_CF; A783           # L&       LATIN CAPITAL LETTER INSULAR R
A784          ; NFKC_CF; A785           # L&       LATIN CAPITAL LETTER INSULAR S
A786          ; NFKC_CF; A787           # L&       LATIN CAPITAL LETTER INSULAR T
A78B          ; NFKC_CF; A78C           # L&       LATIN CAPITAL LETTER SALTILLO
A78D          ; NFKC_CF; 0265           # L&       LATIN CAPITAL LETTER TURNED H
A790          ; NFKC_CF; A791           # L&       LATIN CAPITAL LETTER N WITH DESCENDER
A792          ; NFKC_CF; A793           # L&       LATIN CAPITAL LETTER C WITH BAR
A796          ; NFKC_CF; A797           # L&       LATIN CAPITAL LETTER B WITH FLOURISH
A798          ; NFKC_CF; A799           # L&       LATIN CAPITAL LETTER F WITH STROKE
A79A          ; NFKC_CF; A79B           # L&       LATIN CAPITAL LETTER VOLAPUK AE
A79C          ; NFKC_CF; A79D           # L&       LATIN CAPITAL LETTER VOLAPUK OE
"%string.
Definition props_text_266 := "A79E          ; NFKC_CF; A79F           # L&       LATIN CAPITAL LETTER VOLAPUK UE
A7A0          ; NFKC_CF; A7A1           # L&       LATIN CAPITAL LETTER G WITH OBLIQUE STROKE
A7A2          ; NFKC_CF; A7A3           # L&       LATIN CAPITAL LETTER K WITH OBLIQUE STROKE
A7A4          ; NFKC_CF; A7A5           # L&       LATIN CAPITAL LETTER N WITH OBLIQUE STROKE
A7A6          ; NFKC_CF; A7A7           # L&       LATIN CAPITAL LETTER R WITH OBLIQUE STROKE
A7A8          ; NFKC_CF; A7A9           # L&       LATIN CAPITAL LETTER S WITH OBLIQUE STROKE
A7AA          ; NFKC_CF; 0266           # L&       LATIN CAPITAL LETTER H WITH HOOK
A7AB          ; NFKC_CF; 025C           # L&       LATIN CAPITAL LETTER REVERSED OPEN E
A7AC          ; NFKC_CF; 0261           # L&       LATIN CAPITAL LETTER SCRIPT G
A7AD          ; NFKC_CF; 026C           # L&       LATIN CAPITAL LETTER L WITH BELT
A7AE          ; NFKC_CF; 026A           # L&       LATIN CAPITAL LETTER SMALL CAPITAL I
A7B0          ; NFKC_CF; 029E           # L&       LATIN CAPITAL LETTER TURNED K
A7B1          ; NFKC_CF; 0287           # L&       LATIN CAPITAL LETTER TURNED T
A7B2          ; NFKC_CF; 029D           # L&       LATIN CAPITAL LETTER J WITH CROSSED-TAIL
A7B3          ; NFKC_CF; AB53           # L&       LATIN CAPITAL LETTER CHI
A7B4          ; NFKC_CF; A7B5           # L&       LATIN CAPITAL LETTER BETA
A7B6          ; NFKC_CF; A7B7           # L&       LATIN CAPITAL LETTER OMEGA
A7B8          ; NFKC_CF; A7B9           # L&       LATIN CAPITAL LETTER U WITH STROKE
A7BA          ; NFKC_CF; A7BB           # L&       LATIN CAPITAL LETTER GLOTTAL A
A7BC          ; NFKC_CF; A7BD           # L&       LATIN CAPITAL LETTER GLOTTAL I
"%string.
Definition props_text_267 := "A7BE          ; NFKC_CF; A7BF           # L&       LATIN CAPITAL LETTER GLOTTAL U
A7C2          ; NFKC_CF; A7C3           # L&       LATIN CAPITAL LETTER ANGLICANA W
A7C4          ; NFKC_CF; A794           # L&       LATIN CAPITAL LETTER C WITH PALATAL HOOK
A7C5          ; NFKC_CF; 0282           # L&       LATIN CAPITAL LETTER S WITH HOOK
A7C6          ; NFKC_CF; 1D8E           # L&       LATIN CAPITAL LETTER Z WITH PALATAL HOOK
A7C7          ; NFKC_CF; A7C8           # L&       LATIN CAPITAL LETTER D WITH SHORT STROKE OVERLAY
A7C9          ; NFKC_CF; A7CA           # L&       LATIN CAPITAL LETTER S WITH SHORT STROKE OVERLAY
A7F5          ; NFKC_CF; A7F6           # L&       LATIN CAPITAL LETTER REVERSED HALF H
A7F8          ; NFKC_CF; 0127           # Lm       MODIFIER LETTER CAPITAL H WITH STROKE
A7F9          ; NFKC_CF; 0153           # Lm       MODIFIER LETTER SMALL LIGATURE OE
AB5C          ; NFKC_CF; A727           # Lm       MODIFIER LETTER SMALL HENG
AB5D          ; NFKC_CF; AB37           # Lm       MODIFIER LETTER SMALL L WITH INVERTED LAZY S
AB5E          ; NFKC_CF; 026B           # Lm       MODIFIER LETTER SMALL L WITH MIDDLE TILDE
AB5F          ; NFKC_CF; AB52           # Lm       MODIFIER LETTER SMALL U WITH LEFT HOOK
AB69          ; NFKC_CF; 028D           # Lm       MODIFIER LETTER SMALL TURNED W
AB70          ; NFKC_CF; 13A0           # L&       CHEROKEE SMALL LETTER A
AB71          ; NFKC_CF; 13A1           # L&       CHEROKEE SMALL LETTER E
AB72          ; NFKC_CF; 13A2           # L&       CHEROKEE SMALL LETTER I
AB73          ; NFKC_CF; 13A3           # L&       CHEROKEE SMALL LETTER O
AB74          ; NFKC_CF; 13A4           # L&       CHEROKEE SMALL LETTER U
"%string.
Definition props_text_268 := "AB75          ; NFKC_CF; 13A5           # L&       CHEROKEE SMALL LETTER V
AB76          ; NFKC_CF; 13A6           # L&       CHEROKEE SMALL LETTER GA
AB77          ; NFKC_CF; 13A7           # L&       CHEROKEE SMALL LETTER KA
AB78          ; NFKC_CF; 13A8           # L&       CHEROKEE SMALL LETTER GE
AB79          ; NFKC_CF; 13A9           # L&       CHEROKEE SMALL LETTER GI
AB7A          ; NFKC_CF; 13AA           # L&       CHEROKEE SMALL LETTER GO
AB7B          ; NFKC_CF; 13AB           # L&       CHEROKEE SMALL LETTER GU
AB7C          ; NFKC_CF; 13AC           # L&       CHEROKEE SMALL LETTER GV
AB7D          ; NFKC_CF; 13AD           # L&       CHEROKEE SMALL LETTER HA
AB7E          ; NFKC_CF; 13AE           # L&       CHEROKEE SMALL LETTER HE
AB7F          ; NFKC_CF; 13AF           # L&       CHEROKEE SMALL LETTER HI
AB80          ; NFKC_CF; 13B0           # L&       CHEROKEE SMALL LETTER HO
AB81          ; NFKC_CF; 13B1           # L&       CHEROKEE SMALL LETTER HU
AB82          ; NFKC_CF; 13B2           # L&       CHEROKEE SMALL LETTER HV
AB83          ; NFKC_CF; 13B3           # L&       CHEROKEE SMALL LETTER LA
AB84          ; NFKC_CF; 13B4           # L&       CHEROKEE SMALL LETTER LE
AB85          ; NFKC_CF; 13B5           # L&       CHEROKEE SMALL LETTER LI
AB86          ; NFKC_CF; 13B6           # L&       CHEROKEE SMALL LETTER LO
AB87          ; NFKC_CF; 13B7           # L&       CHEROKEE SMALL LETTER LU
AB88          ; NFKC_CF; 13B8           # L&       CHEROKEE SMALL LETTER LV
"%string.
Definition props_text_269 := "AB89          ; NFKC_CF; 13B9           # L&       CHEROKEE SMALL LETTER MA
AB8A          ; NFKC_CF; 13BA           # L&       CHEROKEE SMALL LETTER ME
AB8B          ; NFKC_CF; 13BB           # L&       CHEROKEE SMALL LETTER MI
AB8C          ; NFKC_CF; 13BC           # L&       CHEROKEE SMALL LETTER MO
AB8D          ; NFKC_CF; 13BD           # L&       CHEROKEE SMALL LETTER MU
AB8E          ; NFKC_CF; 13BE           # L&       CHEROKEE SMALL LETTER NA
AB8F          ; NFKC_CF; 13BF           # L&       CHEROKEE SMALL LETTER HNA
AB90          ; NFKC_CF; 13C0           # L&       CHEROKEE SMALL LETTER NAH
AB91          ; NFKC_CF; 13C1           # L&       CHEROKEE SMALL LETTER NE
AB92          ; NFKC_CF; 13C2           # L&       CHEROKEE SMALL LETTER NI
AB93          ; NFKC_CF; 13C3           # L&       CHEROKEE SMALL LETTER NO
AB94          ; NFKC_CF; 13C4           # L&       CHEROKEE SMALL LETTER NU
AB95          ; NFKC_CF; 13C5           # L&       CHEROKEE SMALL LETTER NV
AB96          ; NFKC_CF; 13C6           # L&       CHEROKEE SMALL LETTER QUA
AB97          ; NFKC_CF; 13C7           # L&       CHEROKEE SMALL LETTER QUE
AB98          ; NFKC_CF; 13C8           # L&       CHEROKEE SMALL LETTER QUI
AB99          ; NFKC_CF; 13C9           # L&       CHEROKEE SMALL LETTER QUO
AB9A          ; NFKC_CF; 13CA           # L&       CHEROKEE SMALL LETTER QUU
AB9B          ; NFKC_CF; 13CB           # L&       CHEROKEE SMALL LETTER QUV
AB9C          ; NFKC_CF; 13CC           # L&       CHEROKEE SMALL LETTER SA
"%string.
Definition props_text_270 := "AB9D          ; NFKC_CF; 13CD           # L&       CHEROKEE SMALL LETTER S
AB9E          ; NFKC_CF; 13CE           # L&       CHEROKEE SMALL LETTER SE
AB9F          ; NFKC_CF; 13CF           # L&       CHEROKEE SMALL LETTER SI
ABA0          ; NFKC_CF; 13D0           # L&       CHEROKEE SMALL LETTER SO
ABA1          ; NFKC_CF; 13D1           # L&       CHEROKEE SMALL LETTER SU
ABA2          ; NFKC_CF; 13D2           # L&       CHEROKEE SMALL LETTER SV
ABA3          ; NFKC_CF; 13D3           # L&       CHEROKEE SMALL LETTER DA
ABA4          ; NFKC_CF; 13D4           # L&       CHEROKEE SMALL LETTER TA
ABA5          ; NFKC_CF; 13D5           # L&       CHEROKEE SMALL LETTER DE
ABA6          ; NFKC_CF; 13D6           # L&       CHEROKEE SMALL LETTER TE
ABA7          ; NFKC_CF; 13D7           # L&       CHEROKEE SMALL LETTER DI
ABA8          ; NFKC_CF; 13D8           # L&       CHEROKEE SMALL LETTER TI
ABA9          ; NFKC_CF; 13D9           # L&       CHEROKEE SMALL LETTER DO
ABAA          ; NFKC_CF; 13DA           # L&       CHEROKEE SMALL LETTER DU
ABAB          ; NFKC_CF; 13DB           # L&       CHEROKEE SMALL LETTER DV
ABAC          ; NFKC_CF; 13DC           # L&       CHEROKEE SMALL LETTER DLA
ABAD          ; NFKC_CF; 13DD           # L&       CHEROKEE SMALL LETTER TLA
ABAE          ; NFKC_CF; 13DE           # L&       CHEROKEE SMALL LETTER TLE
ABAF          ; NFKC_CF; 13DF           # L&       CHEROKEE SMALL LETTER TLI
ABB0          ; NFKC_CF; 13E0           # L&       CHEROKEE SMALL LETTER TLO
"%string.
Definition props_text_271 := "ABB1          ; NFKC_CF; 13E1           # L&       CHEROKEE SMALL LETTER TLU
ABB2          ; NFKC_CF; 13E2           # L&       CHEROKEE SMALL LETTER TLV
ABB3          ; NFKC_CF; 13E3           # L&       CHEROKEE SMALL LETTER TSA
ABB4          ; NFKC_CF; 13E4           # L&       CHEROKEE SMALL LETTER TSE
ABB5          ; NFKC_CF; 13E5           # L&       CHEROKEE SMALL LETTER TSI
ABB6          ; NFKC_CF; 13E6           # L&       CHEROKEE SMALL LETTER TSO
ABB7          ; NFKC_CF; 13E7           # L&       CHEROKEE SMALL LETTER TSU
ABB8          ; NFKC_CF; 13E8           # L&       CHEROKEE SMALL LETTER TSV
ABB9          ; NFKC_CF; 13E9           # L&       CHEROKEE SMALL LETTER WA
ABBA          ; NFKC_CF; 13EA           # L&       CHEROKEE SMALL LETTER WE
ABBB          ; NFKC_CF; 13EB           # L&       CHEROKEE SMALL LETTER WI
ABBC          ; NFKC_CF; 13EC           # L&       CHEROKEE SMALL LETTER WO
ABBD          ; NFKC_CF; 13ED           # L&       CHEROKEE SMALL LETTER WU
ABBE          ; NFKC_CF; 13EE           # L&       CHEROKEE SMALL LETTER WV
ABBF          ; NFKC_CF; 13EF           # L&       CHEROKEE SMALL LETTER YA
F900          ; NFKC_CF; 8C48           # Lo       CJK COMPATIBILITY IDEOGRAPH-F900
F901          ; NFKC_CF; 66F4           # Lo       CJK COMPATIBILITY IDEOGRAPH-F901
F902          ; NFKC_CF; 8ECA           # Lo       CJK COMPATIBILITY IDEOGRAPH-F902
F903          ; NFKC_CF; 8CC8           # Lo       CJK COMPATIBILITY IDEOGRAPH-F903
F904          ; NFKC_CF; 6ED1           # Lo       CJK COMPATIBILITY IDEOGRAPH-F904
"%string.
Definition props_text_272 := "F905          ; NFKC_CF; 4E32           # Lo       CJK COMPATIBILITY IDEOGRAPH-F905
F906          ; NFKC_CF; 53E5           # Lo       CJK COMPATIBILITY IDEOGRAPH-F906
F907..F908    ; NFKC_CF; 9F9C           # Lo   [2] CJK COMPATIBILITY IDEOGRAPH-F907..CJK COMPATIBILITY IDEOGRAPH-F908
F909          ; NFKC_CF; 5951           # Lo       CJK COMPATIBILITY IDEOGRAPH-F909
F90A          ; NFKC_CF; 91D1           # Lo       CJK COMPATIBILITY IDEOGRAPH-F90A
F90B          ; NFKC_CF; 5587           # Lo       CJK COMPATIBILITY IDEOGRAPH-F90B
F90C          ; NFKC_CF; 5948           # Lo       CJK COMPATIBILITY IDEOGRAPH-F90C
F90D          ; NFKC_CF; 61F6           # Lo       CJK COMPATIBILITY IDEOGRAPH-F90D
F90E          ; NFKC_CF; 7669           # Lo       CJK COMPATIBILITY IDEOGRAPH-F90E
F90F          ; NFKC_CF; 7F85           # Lo       CJK COMPATIBILITY IDEOGRAPH-F90F
F910          ; NFKC_CF; 863F           # Lo       CJK COMPATIBILITY IDEOGRAPH-F910
F911          ; NFKC_CF; 87BA           # Lo       CJK COMPATIBILITY IDEOGRAPH-F911
F912          ; NFKC_CF; 88F8           # Lo       CJK COMPATIBILITY IDEOGRAPH-F912
F913          ; NFKC_CF; 908F           # Lo       CJK COMPATIBILITY IDEOGRAPH-F913
F914          ; NFKC_CF; 6A02           # Lo       CJK COMPATIBILITY IDEOGRAPH-F914
F915          ; NFKC_CF; 6D1B           # Lo       CJK COMPATIBILITY IDEOGRAPH-F915
F916          ; NFKC_CF; 70D9           # Lo       CJK COMPATIBILITY IDEOGRAPH-F916
F917          ; NFKC_CF; 73DE           # Lo       CJK COMPATIBILITY IDEOGRAPH-F917
F918          ; NFKC_CF; 843D           # Lo       CJK COMPATIBILITY IDEOGRAPH-F918
F919          ; NFKC_CF; 916A           # Lo       CJK COMPATIBILITY IDEOGRAPH-F919
"%string.
Definition props_text_273 := "F91A          ; NFKC_CF; 99F1           # Lo       CJK COMPATIBILITY IDEOGRAPH-F91A
F91B          ; NFKC_CF; 4E82           # Lo       CJK COMPATIBILITY IDEOGRAPH-F91B
F91C          ; NFKC_CF; 5375           # Lo       CJK COMPATIBILITY IDEOGRAPH-F91C
F91D          ; NFKC_CF; 6B04           # Lo       CJK COMPATIBILITY IDEOGRAPH-F91D
F91E          ; NFKC_CF; 721B           # Lo       CJK COMPATIBILITY IDEOGRAPH-F91E
F91F          ; NFKC_CF; 862D           # Lo       CJK COMPATIBILITY IDEOGRAPH-F91F
F920          ; NFKC_CF; 9E1E           # Lo       CJK COMPATIBILITY IDEOGRAPH-F920
F921          ; NFKC_CF; 5D50           # Lo       CJK COMPATIBILITY IDEOGRAPH-F921
F922          ; NFKC_CF; 6FEB           # Lo       CJK COMPATIBILITY IDEOGRAPH-F922
F923          ; NFKC_CF; 85CD           # Lo       CJK COMPATIBILITY IDEOGRAPH-F923
F924          ; NFKC_CF; 8964           # Lo       CJK COMPATIBILITY IDEOGRAPH-F924
F925          ; NFKC_CF; 62C9           # Lo       CJK COMPATIBILITY IDEOGRAPH-F925
F926          ; NFKC_CF; 81D8           # Lo       CJK COMPATIBILITY IDEOGRAPH-F926
F927          ; NFKC_CF; 881F           # Lo       CJK COMPATIBILITY IDEOGRAPH-F927
F928          ; NFKC_CF; 5ECA           # Lo       CJK COMPATIBILITY IDEOGRAPH-F928
F929          ; NFKC_CF; 6717           # Lo       CJK COMPATIBILITY IDEOGRAPH-F929
F92A          ; NFKC_CF; 6D6A           # Lo       CJK COMPATIBILITY IDEOGRAPH-F92A
F92B          ; NFKC_CF; 72FC           # Lo       CJK COMPATIBILITY IDEOGRAPH-F92B
F92C          ; NFKC_CF; 90CE           # Lo       CJK COMPATIBILITY IDEOGRAPH-F92C
F92D          ; NFKC_CF; 4F86           # Lo       CJK COMPATIBILITY IDEOGRAPH-F92D
"%string.
Definition props_text_274 := "F92E          ; NFKC_CF; 51B7           # Lo       CJK COMPATIBILITY IDEOGRAPH-F92E
F92F          ; NFKC_CF; 52DE           # Lo       CJK COMPATIBILITY IDEOGRAPH-F92F
F930          ; NFKC_CF; 64C4           # Lo       CJK COMPATIBILITY IDEOGRAPH-F930
F931          ; NFKC_CF; 6AD3           # Lo       CJK COMPATIBILITY IDEOGRAPH-F931
F932          ; NFKC_CF; 7210           # Lo       CJK COMPATIBILITY IDEOGRAPH-F932
F933          ; NFKC_CF; 76E7           # Lo       CJK COMPATIBILITY IDEOGRAPH-F933
F934          ; NFKC_CF; 8001           # Lo       CJK COMPATIBILITY IDEOGRAPH-F934
F935          ; NFKC_CF; 8606           # Lo       CJK COMPATIBILITY IDEOGRAPH-F935
F936          ; NFKC_CF; 865C           # Lo       CJK COMPATIBILITY IDEOGRAPH-F936
F937          ; NFKC_CF; 8DEF           # Lo       CJK COMPATIBILITY IDEOGRAPH-F937
F938          ; NFKC_CF; 9732           # Lo       CJK COMPATIBILITY IDEOGRAPH-F938
F939          ; NFKC_CF; 9B6F           # Lo       CJK COMPATIBILITY IDEOGRAPH-F939
F93A          ; NFKC_CF; 9DFA           # Lo       CJK COMPATIBILITY IDEOGRAPH-F93A
F93B          ; NFKC_CF; 788C           # Lo       CJK COMPATIBILITY IDEOGRAPH-F93B
F93C          ; NFKC_CF; 797F           # Lo       CJK COMPATIBILITY IDEOGRAPH-F93C
F93D          ; NFKC_CF; 7DA0           # Lo       CJK COMPATIBILITY IDEOGRAPH-F93D
F93E          ; NFKC_CF; 83C9           # Lo       CJK COMPATIBILITY IDEOGRAPH-F93E
F93F          ; NFKC_CF; 9304           # Lo       CJK COMPATIBILITY IDEOGRAPH-F93F
F940          ; NFKC_CF; 9E7F           # Lo       CJK COMPATIBILITY IDEOGRAPH-F940
F941          ; NFKC_CF; 8AD6           # Lo       CJK COMPATIBILITY IDEOGRAPH-F941
"%string.
Definition props_text_275 := "F942          ; NFKC_CF; 58DF           # Lo       CJK COMPATIBILITY IDEOGRAPH-F942
F943          ; NFKC_CF; 5F04           # Lo       CJK COMPATIBILITY IDEOGRAPH-F943
F944          ; NFKC_CF; 7C60           # Lo       CJK COMPATIBILITY IDEOGRAPH-F944
F945          ; NFKC_CF; 807E           # Lo       CJK COMPATIBILITY IDEOGRAPH-F945
F946          ; NFKC_CF; 7262           # Lo       CJK COMPATIBILITY IDEOGRAPH-F946
F947          ; NFKC_CF; 78CA           # Lo       CJK COMPATIBILITY IDEOGRAPH-F947
F948          ; NFKC_CF; 8CC2           # Lo       CJK COMPATIBILITY IDEOGRAPH-F948
F949          ; NFKC_CF; 96F7           # Lo       CJK COMPATIBILITY IDEOGRAPH-F949
F94A          ; NFKC_CF; 58D8           # Lo       CJK COMPATIBILITY IDEOGRAPH-F94A
F94B          ; NFKC_CF; 5C62           # Lo       CJK COMPATIBILITY IDEOGRAPH-F94B
F94C          ; NFKC_CF; 6A13           # Lo       CJK COMPATIBILITY IDEOGRAPH-F94C
F94D          ; NFKC_CF; 6DDA           # Lo       CJK COMPATIBILITY IDEOGRAPH-F94D
F94E          ; NFKC_CF; 6F0F           # Lo       CJK COMPATIBILITY IDEOGRAPH-F94E
F94F          ; NFKC_CF; 7D2F           # Lo       CJK COMPATIBILITY IDEOGRAPH-F94F
F950          ; NFKC_CF; 7E37           # Lo       CJK COMPATIBILITY IDEOGRAPH-F950
F951          ; NFKC_CF; 964B           # Lo       CJK COMPATIBILITY IDEOGRAPH-F951
F952          ; NFKC_CF; 52D2           # Lo       CJK COMPATIBILITY IDEOGRAPH-F952
F953          ; NFKC_CF; 808B           # Lo       CJK COMPATIBILITY IDEOGRAPH-F953
F954          ; NFKC_CF; 51DC           # Lo       CJK COMPATIBILITY IDEOGRAPH-F954
F955          ; NFKC_CF; 51CC           # Lo       CJK COMPATIBILITY IDEOGRAPH-F955
"%string.
Definition props_text_276 := "F956          ; NFKC_CF; 7A1C           # Lo       CJK COMPATIBILITY IDEOGRAPH-F956
F957          ; NFKC_CF; 7DBE           # Lo       CJK COMPATIBILITY IDEOGRAPH-F957
F958          ; NFKC_CF; 83F1           # Lo       CJK COMPATIBILITY IDEOGRAPH-F958
F959          ; NFKC_CF; 9675           # Lo       CJK COMPATIBILITY IDEOGRAPH-F959
F95A          ; NFKC_CF; 8B80           # Lo       CJK COMPATIBILITY IDEOGRAPH-F95A
F95B          ; NFKC_CF; 62CF           # Lo       CJK COMPATIBILITY IDEOGRAPH-F95B
F95C          ; NFKC_CF; 6A02           # Lo       CJK COMPATIBILITY IDEOGRAPH-F95C
F95D          ; NFKC_CF; 8AFE           # Lo       CJK COMPATIBILITY IDEOGRAPH-F95D
F95E          ; NFKC_CF; 4E39           # Lo       CJK COMPATIBILITY IDEOGRAPH-F95E
F95F          ; NFKC_CF; 5BE7           # Lo       CJK COMPATIBILITY IDEOGRAPH-F95F
F960          ; NFKC_CF; 6012           # Lo       CJK COMPATIBILITY IDEOGRAPH-F960
F961          ; NFKC_CF; 7387           # Lo       CJK COMPATIBILITY IDEOGRAPH-F961
F962          ; NFKC_CF; 7570           # Lo       CJK COMPATIBILITY IDEOGRAPH-F962
F963          ; NFKC_CF; 5317           # Lo       CJK COMPATIBILITY IDEOGRAPH-F963
F964          ; NFKC_CF; 78FB           # Lo       CJK COMPATIBILITY IDEOGRAPH-F964
F965          ; NFKC_CF; 4FBF           # Lo       CJK COMPATIBILITY IDEOGRAPH-F965
F966          ; NFKC_CF; 5FA9           # Lo       CJK COMPATIBILITY IDEOGRAPH-F966
F967          ; NFKC_CF; 4E0D           # Lo       CJK COMPATIBILITY IDEOGRAPH-F967
F968          ; NFKC_CF; 6CCC           # Lo       CJK COMPATIBILITY IDEOGRAPH-F968
F969          ; NFKC_CF; 6578           # Lo       CJK COMPATIBILITY IDEOGRAPH-F969
"%string.
Definition props_text_277 := "F96A          ; NFKC_CF; 7D22           # Lo       CJK COMPATIBILITY IDEOGRAPH-F96A
F96B          ; NFKC_CF; 53C3           # Lo       CJK COMPATIBILITY IDEOGRAPH-F96B
F96C          ; NFKC_CF; 585E           # Lo       CJK COMPATIBILITY IDEOGRAPH-F96C
F96D          ; NFKC_CF; 7701           # Lo       CJK COMPATIBILITY IDEOGRAPH-F96D
F96E          ; NFKC_CF; 8449           # Lo       CJK COMPATIBILITY IDEOGRAPH-F96E
F96F          ; NFKC_CF; 8AAA           # Lo       CJK COMPATIBILITY IDEOGRAPH-F96F
F970          ; NFKC_CF; 6BBA           # Lo       CJK COMPATIBILITY IDEOGRAPH-F970
F971          ; NFKC_CF; 8FB0           # Lo       CJK COMPATIBILITY IDEOGRAPH-F971
F972          ; NFKC_CF; 6C88           # Lo       CJK COMPATIBILITY IDEOGRAPH-F972
F973          ; NFKC_CF; 62FE           # Lo       CJK COMPATIBILITY IDEOGRAPH-F973
F974          ; NFKC_CF; 82E5           # Lo       CJK COMPATIBILITY IDEOGRAPH-F974
F975          ; NFKC_CF; 63A0           # Lo       CJK COMPATIBILITY IDEOGRAPH-F975
F976          ; NFKC_CF; 7565           # Lo       CJK COMPATIBILITY IDEOGRAPH-F976
F977          ; NFKC_CF; 4EAE           # Lo       CJK COMPATIBILITY IDEOGRAPH-F977
F978          ; NFKC_CF; 5169           # Lo       CJK COMPATIBILITY IDEOGRAPH-F978
F979          ; NFKC_CF; 51C9           # Lo       CJK COMPATIBILITY IDEOGRAPH-F979
F97A          ; NFKC_CF; 6881           # Lo       CJK COMPATIBILITY IDEOGRAPH-F97A
F97B          ; NFKC_CF; 7CE7           # Lo       CJK COMPATIBILITY IDEOGRAPH-F97B
F97C          ; NFKC_CF; 826F           # Lo       CJK COMPATIBILITY IDEOGRAPH-F97C
F97D          ; NFKC_CF; 8AD2           # Lo       CJK COMPATIBILITY IDEOGRAPH-F97D
"%string.
Definition props_text_278 := "F97E          ; NFKC_CF; 91CF           # Lo       CJK COMPATIBILITY IDEOGRAPH-F97E
F97F          ; NFKC_CF; 52F5           # Lo       CJK COMPATIBILITY IDEOGRAPH-F97F
F980          ; NFKC_CF; 5442           # Lo       CJK COMPATIBILITY IDEOGRAPH-F980
F981          ; NFKC_CF; 5973           # Lo       CJK COMPATIBILITY IDEOGRAPH-F981
F982          ; NFKC_CF; 5EEC           # Lo       CJK COMPATIBILITY IDEOGRAPH-F982
F983          ; NFKC_CF; 65C5           # Lo       CJK COMPATIBILITY IDEOGRAPH-F983
F984          ; NFKC_CF; 6FFE           # Lo       CJK COMPATIBILITY IDEOGRAPH-F984
F985          ; NFKC_CF; 792A           # Lo       CJK COMPATIBILITY IDEOGRAPH-F985
F986          ; NFKC_CF; 95AD           # Lo       CJK COMPATIBILITY IDEOGRAPH-F986
F987          ; NFKC_CF; 9A6A           # Lo       CJK COMPATIBILITY IDEOGRAPH-F987
F988          ; NFKC_CF; 9E97           # Lo       CJK COMPATIBILITY IDEOGRAPH-F988
F989          ; NFKC_CF; 9ECE           # Lo       CJK COMPATIBILITY IDEOGRAPH-F989
F98A          ; NFKC_CF; 529B           # Lo       CJK COMPATIBILITY IDEOGRAPH-F98A
F98B          ; NFKC_CF; 66C6           # Lo       CJK COMPATIBILITY IDEOGRAPH-F98B
F98C          ; NFKC_CF; 6B77           # Lo       CJK COMPATIBILITY IDEOGRAPH-F98C
F98D          ; NFKC_CF; 8F62           # Lo       CJK COMPATIBILITY IDEOGRAPH-F98D
F98E          ; NFKC_CF; 5E74           # Lo       CJK COMPATIBILITY IDEOGRAPH-F98E
F98F          ; NFKC_CF; 6190           # Lo       CJK COMPATIBILITY IDEOGRAPH-F98F
F990          ; NFKC_CF; 6200           # Lo       CJK COMPATIBILITY IDEOGRAPH-F990
F991          ; NFKC_CF; 649A           # Lo       CJK COMPATIBILITY IDEOGRAPH-F991
"%string.
Definition props_text_279 := "F992          ; NFKC_CF; 6F23           # Lo       CJK COMPATIBILITY IDEOGRAPH-F992
F993          ; NFKC_CF; 7149           # Lo       CJK COMPATIBILITY IDEOGRAPH-F993
F994          ; NFKC_CF; 7489           # Lo       CJK COMPATIBILITY IDEOGRAPH-F994
F995          ; NFKC_CF; 79CA           # Lo       CJK COMPATIBILITY IDEOGRAPH-F995
F996          ; NFKC_CF; 7DF4           # Lo       CJK COMPATIBILITY IDEOGRAPH-F996
F997          ; NFKC_CF; 806F           # Lo       CJK COMPATIBILITY IDEOGRAPH-F997
F998          ; NFKC_CF; 8F26           # Lo       CJK COMPATIBILITY IDEOGRAPH-F998
F999          ; NFKC_CF; 84EE           # Lo       CJK COMPATIBILITY IDEOGRAPH-F999
F99A          ; NFKC_CF; 9023           # Lo       CJK COMPATIBILITY IDEOGRAPH-F99A
F99B          ; NFKC_CF; 934A           # Lo       CJK COMPATIBILITY IDEOGRAPH-F99B
F99C          ; NFKC_CF; 5217           # Lo       CJK COMPATIBILITY IDEOGRAPH-F99C
F99D          ; NFKC_CF; 52A3           # Lo       CJK COMPATIBILITY IDEOGRAPH-F99D
F99E          ; NFKC_CF; 54BD           # Lo       CJK COMPATIBILITY IDEOGRAPH-F99E
F99F          ; NFKC_CF; 70C8           # Lo       CJK COMPATIBILITY IDEOGRAPH-F99F
F9A0          ; NFKC_CF; 88C2           # Lo       CJK COMPATIBILITY IDEOGRAPH-F9A0
F9A1          ; NFKC_CF; 8AAA           # Lo       CJK COMPATIBILITY IDEOGRAPH-F9A1
F9A2          ; NFKC_CF; 5EC9           # Lo       CJK COMPATIBILITY IDEOGRAPH-F9A2
F9A3          ; NFKC_CF; 5FF5           # Lo       CJK COMPATIBILITY IDEOGRAPH-F9A3
F9A4          ; NFKC_CF; 637B           # Lo       CJK COMPATIBILITY IDEOGRAPH-F9A4
F9A5          ; NFKC_CF; 6BAE           # Lo       CJK COMPATIBILITY IDEOGRAPH-F9A5
"%string.
Definition props_text_280 := "F9A6          ; NFKC_CF; 7C3E           # Lo       CJK COMPATIBILITY IDEOGRAPH-F9A6
F9A7          ; NFKC_CF; 7375           # Lo       CJK COMPATIBILITY IDEOGRAPH-F9A7
F9A8          ; NFKC_CF; 4EE4           # Lo       CJK COMPATIBILITY IDEOGRAPH-F9A8
F9A9          ; NFKC_CF; 56F9           # Lo       CJK COMPATIBILITY IDEOGRAPH-F9A9
F9AA          ; NFKC_CF; 5BE7           # Lo       CJK COMPATIBILITY IDEOGRAPH-F9AA
F9AB          ; NFKC_CF; 5DBA           # Lo       CJK COMPATIBILITY IDEOGRAPH-F9AB
F9AC          ; NFKC_CF; 601C           # Lo       CJK COMPATIBILITY IDEOGRAPH-F9AC
F9AD          ; NFKC_CF; 73B2           # Lo       CJK COMPATIBILITY IDEOGRAPH-F9AD
F9AE          ; NFKC_CF; 7469           # Lo       CJK COMPATIBILITY IDEOGRAPH-F9AE
F9AF          ; NFKC_CF; 7F9A           # Lo       CJK COMPATIBILITY IDEOGRAPH-F9AF
F9B0          ; NFKC_CF; 8046           # Lo       CJK COMPATIBILITY IDEOGRAPH-F9B0
F9B1          ; NFKC_CF; 9234           # Lo       CJK COMPATIBILITY IDEOGRAPH-F9B1
F9B2          ; NFKC_CF; 96F6           # Lo       CJK COMPATIBILITY IDEOGRAPH-F9B2
F9B3          ; NFKC_CF; 9748           # Lo       CJK COMPATIBILITY IDEOGRAPH-F9B3
F9B4          ; NFKC_CF; 9818           # Lo       CJK COMPATIBILITY IDEOGRAPH-F9B4
F9B5          ; NFKC_CF; 4F8B           # Lo       CJK COMPATIBILITY IDEOGRAPH-F9B5
F9B6          ; NFKC_CF; 79AE           # Lo       CJK COMPATIBILITY IDEOGRAPH-F9B6
F9B7          ; NFKC_CF; 91B4           # Lo       CJK COMPATIBILITY IDEOGRAPH-F9B7
F9B8          ; NFKC_CF; 96B8           # Lo       CJK COMPATIBILITY IDEOGRAPH-F9B8
F9B9          ; NFKC_CF; 60E1           # Lo       CJK COMPATIBILITY IDEOGRAPH-F9B9
"%string.
Definition props_text_281 := "F9BA          ; NFKC_CF; 4E86           # Lo       CJK COMPATIBILITY IDEOGRAPH-F9BA
F9BB          ; NFKC_CF; 50DA           # Lo       CJK COMPATIBILITY IDEOGRAPH-F9BB
F9BC          ; NFKC_CF; 5BEE           # Lo       CJK COMPATIBILITY IDEOGRAPH-F9BC
F9BD          ; NFKC_CF; 5C3F           # Lo       CJK COMPATIBILITY IDEOGRAPH-F9BD
F9BE          ; NFKC_CF; 6599           # Lo       CJK COMPATIBILITY IDEOGRAPH-F9BE
F9BF          ; NFKC_CF; 6A02           # Lo       CJK COMPATIBILITY IDEOGRAPH-F9BF
F9C0          ; NFKC_CF; 71CE           # Lo       CJK COMPATIBILITY IDEOGRAPH-F9C0
F9C1          ; NFKC_CF; 7642           # Lo       CJK COMPATIBILITY IDEOGRAPH-F9C1
F9C2          ; NFKC_CF; 84FC           # Lo       CJK COMPATIBILITY IDEOGRAPH-F9C2
F9C3          ; NFKC_CF; 907C           # Lo       CJK COMPATIBILITY IDEOGRAPH-F9C3
F9C4          ; NFKC_CF; 9F8D           # Lo       CJK COMPATIBILITY IDEOGRAPH-F9C4
F9C5          ; NFKC_CF; 6688           # Lo       CJK COMPATIBILITY IDEOGRAPH-F9C5
F9C6          ; NFKC_CF; 962E           # Lo       CJK COMPATIBILITY IDEOGRAPH-F9C6
F9C7          ; NFKC_CF; 5289           # Lo       CJK COMPATIBILITY IDEOGRAPH-F9C7
F9C8          ; NFKC_CF; 677B           # Lo       CJK COMPATIBILITY IDEOGRAPH-F9C8
F9C9          ; NFKC_CF; 67F3           # Lo       CJK COMPATIBILITY IDEOGRAPH-F9C9
F9CA          ; NFKC_CF; 6D41           # Lo       CJK COMPATIBILITY IDEOGRAPH-F9CA
F9CB          ; NFKC_CF; 6E9C           # Lo       CJK COMPATIBILITY IDEOGRAPH-F9CB
F9CC          ; NFKC_CF; 7409           # Lo       CJK COMPATIBILITY IDEOGRAPH-F9CC
F9CD          ; NFKC_CF; 7559           # Lo       CJK COMPATIBILITY IDEOGRAPH-F9CD
"%string.
Definition props_text_282 := "F9CE          ; NFKC_CF; 786B           # Lo       CJK COMPATIBILITY IDEOGRAPH-F9CE
F9CF          ; NFKC_CF; 7D10           # Lo       CJK COMPATIBILITY IDEOGRAPH-F9CF
F9D0          ; NFKC_CF; 985E           # Lo       CJK COMPATIBILITY IDEOGRAPH-F9D0
F9D1          ; NFKC_CF; 516D           # Lo       CJK COMPATIBILITY IDEOGRAPH-F9D1
F9D2          ; NFKC_CF; 622E           # Lo       CJK COMPATIBILITY IDEOGRAPH-F9D2
F9D3          ; NFKC_CF; 9678           # Lo       CJK COMPATIBILITY IDEOGRAPH-F9D3
F9D4          ; NFKC_CF; 502B           # Lo       CJK COMPATIBILITY IDEOGRAPH-F9D4
F9D5          ; NFKC_CF; 5D19           # Lo       CJK COMPATIBILITY IDEOGRAPH-F9D5
F9D6          ; NFKC_CF; 6DEA           # Lo       CJK COMPATIBILITY IDEOGRAPH-F9D6
F9D7          ; NFKC_CF; 8F2A           # Lo       CJK COMPATIBILITY IDEOGRAPH-F9D7
F9D8          ; NFKC_CF; 5F8B           # Lo       CJK COMPATIBILITY IDEOGRAPH-F9D8
F9D9          ; NFKC_CF; 6144           # Lo       CJK COMPATIBILITY IDEOGRAPH-F9D9
F9DA          ; NFKC_CF; 6817           # Lo       CJK COMPATIBILITY IDEOGRAPH-F9DA
F9DB          ; NFKC_CF; 7387           # Lo       CJK COMPATIBILITY IDEOGRAPH-F9DB
F9DC          ; NFKC_CF; 9686           # Lo       CJK COMPATIBILITY IDEOGRAPH-F9DC
F9DD          ; NFKC_CF; 5229           # Lo       CJK COMPATIBILITY IDEOGRAPH-F9DD
F9DE          ; NFKC_CF; 540F           # Lo       CJK COMPATIBILITY IDEOGRAPH-F9DE
F9DF          ; NFKC_CF; 5C65           # Lo       CJK COMPATIBILITY IDEOGRAPH-F9DF
F9E0          ; NFKC_CF; 6613           # Lo       CJK COMPATIBILITY IDEOGRAPH-F9E0
F9E1          ; NFKC_CF; 674E           # Lo       CJK COMPATIBILITY IDEOGRAPH-F9E1
"%string.
Definition props_text_283 := "F9E2          ; NFKC_CF; 68A8           # Lo       CJK COMPATIBILITY IDEOGRAPH-F9E2
F9E3          ; NFKC_CF; 6CE5           # Lo       CJK COMPATIBILITY IDEOGRAPH-F9E3
F9E4          ; NFKC_CF; 7406           # Lo       CJK COMPATIBILITY IDEOGRAPH-F9E4
F9E5          ; NFKC_CF; 75E2           # Lo       CJK COMPATIBILITY IDEOGRAPH-F9E5
F9E6          ; NFKC_CF; 7F79           # Lo       CJK COMPATIBILITY IDEOGRAPH-F9E6
F9E7          ; NFKC_CF; 88CF           # Lo       CJK COMPATIBILITY IDEOGRAPH-F9E7
F9E8          ; NFKC_CF; 88E1           # Lo       CJK COMPATIBILITY IDEOGRAPH-F9E8
F9E9          ; NFKC_CF; 91CC           # Lo       CJK COMPATIBILITY IDEOGRAPH-F9E9
F9EA          ; NFKC_CF; 96E2           # Lo       CJK COMPATIBILITY IDEOGRAPH-F9EA
F9EB          ; NFKC_CF; 533F           # Lo       CJK COMPATIBILITY IDEOGRAPH-F9EB
F9EC          ; NFKC_CF; 6EBA           # Lo       CJK COMPATIBILITY IDEOGRAPH-F9EC
F9ED          ; NFKC_CF; 541D           # Lo       CJK COMPATIBILITY IDEOGRAPH-F9ED
F9EE          ; NFKC_CF; 71D0           # Lo       CJK COMPATIBILITY IDEOGRAPH-F9EE
F9EF          ; NFKC_CF; 7498           # Lo       CJK COMPATIBILITY IDEOGRAPH-F9EF
F9F0          ; NFKC_CF; 85FA           # Lo       CJK COMPATIBILITY IDEOGRAPH-F9F0
F9F1          ; NFKC_CF; 96A3           # Lo       CJK COMPATIBILITY IDEOGRAPH-F9F1
F9F2          ; NFKC_CF; 9C57           # Lo       CJK COMPATIBILITY IDEOGRAPH-F9F2
F9F3          ; NFKC_CF; 9E9F           # Lo       CJK COMPATIBILITY IDEOGRAPH-F9F3
F9F4          ; NFKC_CF; 6797           # Lo       CJK COMPATIBILITY IDEOGRAPH-F9F4
F9F5          ; NFKC_CF; 6DCB           # Lo       CJK COMPATIBILITY IDEOGRAPH-F9F5
"%string.
Definition props_text_284 := "F9F6          ; NFKC_CF; 81E8           # Lo       CJK COMPATIBILITY IDEOGRAPH-F9F6
F9F7          ; NFKC_CF; 7ACB           # Lo       CJK COMPATIBILITY IDEOGRAPH-F9F7
F9F8          ; NFKC_CF; 7B20           # Lo       CJK COMPATIBILITY IDEOGRAPH-F9F8
F9F9          ; NFKC_CF; 7C92           # Lo       CJK COMPATIBILITY IDEOGRAPH-F9F9
F9FA          ; NFKC_CF; 72C0           # Lo       CJK COMPATIBILITY IDEOGRAPH-F9FA
F9FB          ; NFKC_CF; 7099           # Lo       CJK COMPATIBILITY IDEOGRAPH-F9FB
F9FC          ; NFKC_CF; 8B58           # Lo       CJK COMPATIBILITY IDEOGRAPH-F9FC
F9FD          ; NFKC_CF; 4EC0           # Lo       CJK COMPATIBILITY IDEOGRAPH-F9FD
F9FE          ; NFKC_CF; 8336           # Lo       CJK COMPATIBILITY IDEOGRAPH-F9FE
F9FF          ; NFKC_CF; 523A           # Lo       CJK COMPATIBILITY IDEOGRAPH-F9FF
FA00          ; NFKC_CF; 5207           # Lo       CJK COMPATIBILITY IDEOGRAPH-FA00
FA01          ; NFKC_CF; 5EA6           # Lo       CJK COMPATIBILITY IDEOGRAPH-FA01
FA02          ; NFKC_CF; 62D3           # Lo       CJK COMPATIBILITY IDEOGRAPH-FA02
FA03          ; NFKC_CF; 7CD6           # Lo       CJK COMPATIBILITY IDEOGRAPH-FA03
FA04          ; NFKC_CF; 5B85           # Lo       CJK COMPATIBILITY IDEOGRAPH-FA04
FA05          ; NFKC_CF; 6D1E           # Lo       CJK COMPATIBILITY IDEOGRAPH-FA05
FA06          ; NFKC_CF; 66B4           # Lo       CJK COMPATIBILITY IDEOGRAPH-FA06
FA07          ; NFKC_CF; 8F3B           # Lo       CJK COMPATIBILITY IDEOGRAPH-FA07
FA08          ; NFKC_CF; 884C           # Lo       CJK COMPATIBILITY IDEOGRAPH-FA08
FA09          ; NFKC_CF; 964D           # Lo       CJK COMPATIBILITY IDEOGRAPH-FA09
"%string.
Definition props_text_285 := "FA0A          ; NFKC_CF; 898B           # Lo       CJK COMPATIBILITY IDEOGRAPH-FA0A
FA0B          ; NFKC_CF; 5ED3           # Lo       CJK COMPATIBILITY IDEOGRAPH-FA0B
FA0C          ; NFKC_CF; 5140           # Lo       CJK COMPATIBILITY IDEOGRAPH-FA0C
FA0D          ; NFKC_CF; 55C0           # Lo       CJK COMPATIBILITY IDEOGRAPH-FA0D
FA10          ; NFKC_CF; 585A           # Lo       CJK COMPATIBILITY IDEOGRAPH-FA10
FA12          ; NFKC_CF; 6674           # Lo       CJK COMPATIBILITY IDEOGRAPH-FA12
FA15          ; NFKC_CF; 51DE           # Lo       CJK COMPATIBILITY IDEOGRAPH-FA15
FA16          ; NFKC_CF; 732A           # Lo       CJK COMPATIBILITY IDEOGRAPH-FA16
FA17          ; NFKC_CF; 76CA           # Lo       CJK COMPATIBILITY IDEOGRAPH-FA17
FA18          ; NFKC_CF; 793C           # Lo       CJK COMPATIBILITY IDEOGRAPH-FA18
FA19          ; NFKC_CF; 795E           # Lo       CJK COMPATIBILITY IDEOGRAPH-FA19
FA1A          ; NFKC_CF; 7965           # Lo       CJK COMPATIBILITY IDEOGRAPH-FA1A
FA1B          ; NFKC_CF; 798F           # Lo       CJK COMPATIBILITY IDEOGRAPH-FA1B
FA1C          ; NFKC_CF; 9756           # Lo       CJK COMPATIBILITY IDEOGRAPH-FA1C
FA1D          ; NFKC_CF; 7CBE           # Lo       CJK COMPATIBILITY IDEOGRAPH-FA1D
FA1E          ; NFKC_CF; 7FBD           # Lo       CJK COMPATIBILITY IDEOGRAPH-FA1E
FA20          ; NFKC_CF; 8612           # Lo       CJK COMPATIBILITY IDEOGRAPH-FA20
FA22          ; NFKC_CF; 8AF8           # Lo       CJK COMPATIBILITY IDEOGRAPH-FA22
FA25          ; NFKC_CF; 9038           # Lo       CJK COMPATIBILITY IDEOGRAPH-FA25
FA26          ; NFKC_CF; 90FD           # Lo       CJK COMPATIBILITY IDEOGRAPH-FA26
"%string.
Definition props_text_286 := "FA2A          ; NFKC_CF; 98EF           # Lo       CJK COMPATIBILITY IDEOGRAPH-FA2A
FA2B          ; NFKC_CF; 98FC           # Lo       CJK COMPATIBILITY IDEOGRAPH-FA2B
FA2C          ; NFKC_CF; 9928           # Lo       CJK COMPATIBILITY IDEOGRAPH-FA2C
FA2D          ; NFKC_CF; 9DB4           # Lo       CJK COMPATIBILITY IDEOGRAPH-FA2D
FA2E          ; NFKC_CF; 90DE           # Lo       CJK COMPATIBILITY IDEOGRAPH-FA2E
FA2F          ; NFKC_CF; 96B7           # Lo       CJK COMPATIBILITY IDEOGRAPH-FA2F
FA30          ; NFKC_CF; 4FAE           # Lo       CJK COMPATIBILITY IDEOGRAPH-FA30
FA31          ; NFKC_CF; 50E7           # Lo       CJK COMPATIBILITY IDEOGRAPH-FA31
FA32          ; NFKC_CF; 514D           # Lo       CJK COMPATIBILITY IDEOGRAPH-FA32
FA33          ; NFKC_CF; 52C9           # Lo       CJK COMPATIBILITY IDEOGRAPH-FA33
FA34          ; NFKC_CF; 52E4           # Lo       CJK COMPATIBILITY IDEOGRAPH-FA34
FA35          ; NFKC_CF; 5351           # Lo       CJK COMPATIBILITY IDEOGRAPH-FA35
FA36          ; NFKC_CF; 559D           # Lo       CJK COMPATIBILITY IDEOGRAPH-FA36
FA37          ; NFKC_CF; 5606           # Lo       CJK COMPATIBILITY IDEOGRAPH-FA37
FA38          ; NFKC_CF; 5668           # Lo       CJK COMPATIBILITY IDEOGRAPH-FA38
FA39          ; NFKC_CF; 5840           # Lo       CJK COMPATIBILITY IDEOGRAPH-FA39
FA3A          ; NFKC_CF; 58A8           # Lo       CJK COMPATIBILITY IDEOGRAPH-FA3A
FA3B          ; NFKC_CF; 5C64           # Lo       CJK COMPATIBILITY IDEOGRAPH-FA3B
FA3C          ; NFKC_CF; 5C6E           # Lo       CJK COMPATIBILITY IDEOGRAPH-FA3C
FA3D          ; NFKC_CF; 6094           # Lo       CJK COMPATIBILITY IDEOGRAPH-FA3D
"%string.
Definition props_text_287 := "FA3E          ; NFKC_CF; 6168           # Lo       CJK COMPATIBILITY IDEOGRAPH-FA3E
FA3F          ; NFKC_CF; 618E           # Lo       CJK COMPATIBILITY IDEOGRAPH-FA3F
FA40          ; NFKC_CF; 61F2           # Lo       CJK COMPATIBILITY IDEOGRAPH-FA40
FA41          ; NFKC_CF; 654F           # Lo       CJK COMPATIBILITY IDEOGRAPH-FA41
FA42          ; NFKC_CF; 65E2           # Lo       CJK COMPATIBILITY IDEOGRAPH-FA42
FA43          ; NFKC_CF; 6691           # Lo       CJK COMPATIBILITY IDEOGRAPH-FA43
FA44          ; NFKC_CF; 6885           # Lo       CJK COMPATIBILITY IDEOGRAPH-FA44
FA45          ; NFKC_CF; 6D77           # Lo       CJK COMPATIBILITY IDEOGRAPH-FA45
FA46          ; NFKC_CF; 6E1A           # Lo       CJK COMPATIBILITY IDEOGRAPH-FA46
FA47          ; NFKC_CF; 6F22           # Lo       CJK COMPATIBILITY IDEOGRAPH-FA47
FA48          ; NFKC_CF; 716E           # Lo       CJK COMPATIBILITY IDEOGRAPH-FA48
FA49          ; NFKC_CF; 722B           # Lo       CJK COMPATIBILITY IDEOGRAPH-FA49
FA4A          ; NFKC_CF; 7422           # Lo       CJK COMPATIBILITY IDEOGRAPH-FA4A
FA4B          ; NFKC_CF; 7891           # Lo       CJK COMPATIBILITY IDEOGRAPH-FA4B
FA4C          ; NFKC_CF; 793E           # Lo       CJK COMPATIBILITY IDEOGRAPH-FA4C
FA4D          ; NFKC_CF; 7949           # Lo       CJK COMPATIBILITY IDEOGRAPH-FA4D
FA4E          ; NFKC_CF; 7948           # Lo       CJK COMPATIBILITY IDEOGRAPH-FA4E
FA4F          ; NFKC_CF; 7950           # Lo       CJK COMPATIBILITY IDEOGRAPH-FA4F
FA50          ; NFKC_CF; 7956           # Lo       CJK COMPATIBILITY IDEOGRAPH-FA50
FA51          ; NFKC_CF; 795D           # Lo       CJK COMPATIBILITY IDEOGRAPH-FA51
"%string.
Definition props_text_288 := "FA52          ; NFKC_CF; 798D           # Lo       CJK COMPATIBILITY IDEOGRAPH-FA52
FA53          ; NFKC_CF; 798E           # Lo       CJK COMPATIBILITY IDEOGRAPH-FA53
FA54          ; NFKC_CF; 7A40           # Lo       CJK COMPATIBILITY IDEOGRAPH-FA54
FA55          ; NFKC_CF; 7A81           # Lo       CJK COMPATIBILITY IDEOGRAPH-FA55
FA56          ; NFKC_CF; 7BC0           # Lo       CJK COMPATIBILITY IDEOGRAPH-FA56
FA57          ; NFKC_CF; 7DF4           # Lo       CJK COMPATIBILITY IDEOGRAPH-FA57
FA58          ; NFKC_CF; 7E09           # Lo       CJK COMPATIBILITY IDEOGRAPH-FA58
FA59          ; NFKC_CF; 7E41           # Lo       CJK COMPATIBILITY IDEOGRAPH-FA59
FA5A          ; NFKC_CF; 7F72           # Lo       CJK COMPATIBILITY IDEOGRAPH-FA5A
FA5B          ; NFKC_CF; 8005           # Lo       CJK COMPATIBILITY IDEOGRAPH-FA5B
FA5C          ; NFKC_CF; 81ED           # Lo       CJK COMPATIBILITY IDEOGRAPH-FA5C
FA5D..FA5E    ; NFKC_CF; 8279           # Lo   [2] CJK COMPATIBILITY IDEOGRAPH-FA5D..CJK COMPATIBILITY IDEOGRAPH-FA5E
FA5F          ; NFKC_CF; 8457           # Lo       CJK COMPATIBILITY IDEOGRAPH-FA5F
FA60          ; NFKC_CF; 8910           # Lo       CJK COMPATIBILITY IDEOGRAPH-FA60
FA61          ; NFKC_CF; 8996           # Lo       CJK COMPATIBILITY IDEOGRAPH-FA61
FA62          ; NFKC_CF; 8B01           # Lo       CJK COMPATIBILITY IDEOGRAPH-FA62
FA63          ; NFKC_CF; 8B39           # Lo       CJK COMPATIBILITY IDEOGRAPH-FA63
FA64          ; NFKC_CF; 8CD3           # Lo       CJK COMPATIBILITY IDEOGRAPH-FA64
FA65          ; NFKC_CF; 8D08           # Lo       CJK COMPATIBILITY IDEOGRAPH-FA65
FA66          ; NFKC_CF; 8FB6           # Lo       CJK COMPATIBILITY IDEOGRAPH-FA66
"%string.
Definition props_text_289 := "FA67          ; NFKC_CF; 9038           # Lo       CJK COMPATIBILITY IDEOGRAPH-FA67
FA68          ; NFKC_CF; 96E3           # Lo       CJK COMPATIBILITY IDEOGRAPH-FA68
FA69          ; NFKC_CF; 97FF           # Lo       CJK COMPATIBILITY IDEOGRAPH-FA69
FA6A          ; NFKC_CF; 983B           # Lo       CJK COMPATIBILITY IDEOGRAPH-FA6A
FA6B          ; NFKC_CF; 6075           # Lo       CJK COMPATIBILITY IDEOGRAPH-FA6B
FA6C          ; NFKC_CF; 242EE          # Lo       CJK COMPATIBILITY IDEOGRAPH-FA6C
FA6D          ; NFKC_CF; 8218           # Lo       CJK COMPATIBILITY IDEOGRAPH-FA6D
FA70          ; NFKC_CF; 4E26           # Lo       CJK COMPATIBILITY IDEOGRAPH-FA70
FA71          ; NFKC_CF; 51B5           # Lo       CJK COMPATIBILITY IDEOGRAPH-FA71
FA72          ; NFKC_CF; 5168           # Lo       CJK COMPATIBILITY IDEOGRAPH-FA72
FA73          ; NFKC_CF; 4F80           # Lo       CJK COMPATIBILITY IDEOGRAPH-FA73
FA74          ; NFKC_CF; 5145           # Lo       CJK COMPATIBILITY IDEOGRAPH-FA74
FA75          ; NFKC_CF; 5180           # Lo       CJK COMPATIBILITY IDEOGRAPH-FA75
FA76          ; NFKC_CF; 52C7           # Lo       CJK COMPATIBILITY IDEOGRAPH-FA76
FA77          ; NFKC_CF; 52FA           # Lo       CJK COMPATIBILITY IDEOGRAPH-FA77
FA78          ; NFKC_CF; 559D           # Lo       CJK COMPATIBILITY IDEOGRAPH-FA78
FA79          ; NFKC_CF; 5555           # Lo       CJK COMPATIBILITY IDEOGRAPH-FA79
FA7A          ; NFKC_CF; 5599           # Lo       CJK COMPATIBILITY IDEOGRAPH-FA7A
FA7B          ; NFKC_CF; 55E2           # Lo       CJK COMPATIBILITY IDEOGRAPH-FA7B
FA7C          ; NFKC_CF; 585A           # Lo       CJK COMPATIBILITY IDEOGRAPH-FA7C
"%string.
Definition props_text_290 := "FA7D          ; NFKC_CF; 58B3           # Lo       CJK COMPATIBILITY IDEOGRAPH-FA7D
FA7E          ; NFKC_CF; 5944           # Lo       CJK COMPATIBILITY IDEOGRAPH-FA7E
FA7F          ; NFKC_CF; 5954           # Lo       CJK COMPATIBILITY IDEOGRAPH-FA7F
FA80          ; NFKC_CF; 5A62           # Lo       CJK COMPATIBILITY IDEOGRAPH-FA80
FA81          ; NFKC_CF; 5B28           # Lo       CJK COMPATIBILITY IDEOGRAPH-FA81
FA82          ; NFKC_CF; 5ED2           # Lo       CJK COMPATIBILITY IDEOGRAPH-FA82
FA83          ; NFKC_CF; 5ED9           # Lo       CJK COMPATIBILITY IDEOGRAPH-FA83
FA84          ; NFKC_CF; 5F69           # Lo       CJK COMPATIBILITY IDEOGRAPH-FA84
FA85          ; NFKC_CF; 5FAD           # Lo       CJK COMPATIBILITY IDEOGRAPH-FA85
FA86          ; NFKC_CF; 60D8           # Lo       CJK COMPATIBILITY IDEOGRAPH-FA86
FA87          ; NFKC_CF; 614E           # Lo       CJK COMPATIBILITY IDEOGRAPH-FA87
FA88          ; NFKC_CF; 6108           # Lo       CJK COMPATIBILITY IDEOGRAPH-FA88
FA89          ; NFKC_CF; 618E           # Lo       CJK COMPATIBILITY IDEOGRAPH-FA89
FA8A          ; NFKC_CF; 6160           # Lo       CJK COMPATIBILITY IDEOGRAPH-FA8A
FA8B          ; NFKC_CF; 61F2           # Lo       CJK COMPATIBILITY IDEOGRAPH-FA8B
FA8C          ; NFKC_CF; 6234           # Lo       CJK COMPATIBILITY IDEOGRAPH-FA8C
FA8D          ; NFKC_CF; 63C4           # Lo       CJK COMPATIBILITY IDEOGRAPH-FA8D
FA8E          ; NFKC_CF; 641C           # Lo       CJK COMPATIBILITY IDEOGRAPH-FA8E
FA8F          ; NFKC_CF; 6452           # Lo       CJK COMPATIBILITY IDEOGRAPH-FA8F
FA90          ; NFKC_CF; 6556           # Lo       CJK COMPATIBILITY IDEOGRAPH-FA90
"%string.
Definition props_text_291 := "FA91          ; NFKC_CF; 6674           # Lo       CJK COMPATIBILITY IDEOGRAPH-FA91
FA92          ; NFKC_CF; 6717           # Lo       CJK COMPATIBILITY IDEOGRAPH-FA92
FA93          ; NFKC_CF; 671B           # Lo       CJK COMPATIBILITY IDEOGRAPH-FA93
FA94          ; NFKC_CF; 6756           # Lo       CJK COMPATIBILITY IDEOGRAPH-FA94
FA95          ; NFKC_CF; 6B79           # Lo       CJK COMPATIBILITY IDEOGRAPH-FA95
FA96          ; NFKC_CF; 6BBA           # Lo       CJK COMPATIBILITY IDEOGRAPH-FA96
FA97          ; NFKC_CF; 6D41           # Lo       CJK COMPATIBILITY IDEOGRAPH-FA97
FA98          ; NFKC_CF; 6EDB           # Lo       CJK COMPATIBILITY IDEOGRAPH-FA98
FA99          ; NFKC_CF; 6ECB           # Lo       CJK COMPATIBILITY IDEOGRAPH-FA99
FA9A          ; NFKC_CF; 6F22           # Lo       CJK COMPATIBILITY IDEOGRAPH-FA9A
FA9B          ; NFKC_CF; 701E           # Lo       CJK COMPATIBILITY IDEOGRAPH-FA9B
FA9C          ; NFKC_CF; 716E           # Lo       CJK COMPATIBILITY IDEOGRAPH-FA9C
FA9D          ; NFKC_CF; 77A7           # Lo       CJK COMPATIBILITY IDEOGRAPH-FA9D
FA9E          ; NFKC_CF; 7235           # Lo       CJK COMPATIBILITY IDEOGRAPH-FA9E
FA9F          ; NFKC_CF; 72AF           # Lo       CJK COMPATIBILITY IDEOGRAPH-FA9F
FAA0          ; NFKC_CF; 732A           # Lo       CJK COMPATIBILITY IDEOGRAPH-FAA0
FAA1          ; NFKC_CF; 7471           # Lo       CJK COMPATIBILITY IDEOGRAPH-FAA1
FAA2          ; NFKC_CF; 7506           # Lo       CJK COMPATIBILITY IDEOGRAPH-FAA2
FAA3          ; NFKC_CF; 753B           # Lo       CJK COMPATIBILITY IDEOGRAPH-FAA3
FAA4          ; NFKC_CF; 761D           # Lo       CJK COMPATIBILITY IDEOGRAPH-FAA4
"%string.
Definition props_text_292 := "FAA5          ; NFKC_CF; 761F           # Lo       CJK COMPATIBILITY IDEOGRAPH-FAA5
FAA6          ; NFKC_CF; 76CA           # Lo       CJK COMPATIBILITY IDEOGRAPH-FAA6
FAA7          ; NFKC_CF; 76DB           # Lo       CJK COMPATIBILITY IDEOGRAPH-FAA7
FAA8          ; NFKC_CF; 76F4           # Lo       CJK COMPATIBILITY IDEOGRAPH-FAA8
FAA9          ; NFKC_CF; 774A           # Lo       CJK COMPATIBILITY IDEOGRAPH-FAA9
FAAA          ; NFKC_CF; 7740           # Lo       CJK COMPATIBILITY IDEOGRAPH-FAAA
FAAB          ; NFKC_CF; 78CC           # Lo       CJK COMPATIBILITY IDEOGRAPH-FAAB
FAAC          ; NFKC_CF; 7AB1           # Lo       CJK COMPATIBILITY IDEOGRAPH-FAAC
FAAD          ; NFKC_CF; 7BC0           # Lo       CJK COMPATIBILITY IDEOGRAPH-FAAD
FAAE          ; NFKC_CF; 7C7B           # Lo       CJK COMPATIBILITY IDEOGRAPH-FAAE
FAAF          ; NFKC_CF; 7D5B           # Lo       CJK COMPATIBILITY IDEOGRAPH-FAAF
FAB0          ; NFKC_CF; 7DF4           # Lo       CJK COMPATIBILITY IDEOGRAPH-FAB0
FAB1          ; NFKC_CF; 7F3E           # Lo       CJK COMPATIBILITY IDEOGRAPH-FAB1
FAB2          ; NFKC_CF; 8005           # Lo       CJK COMPATIBILITY IDEOGRAPH-FAB2
FAB3          ; NFKC_CF; 8352           # Lo       CJK COMPATIBILITY IDEOGRAPH-FAB3
FAB4          ; NFKC_CF; 83EF           # Lo       CJK COMPATIBILITY IDEOGRAPH-FAB4
FAB5          ; NFKC_CF; 8779           # Lo       CJK COMPATIBILITY IDEOGRAPH-FAB5
FAB6          ; NFKC_CF; 8941           # Lo       CJK COMPATIBILITY IDEOGRAPH-FAB6
FAB7          ; NFKC_CF; 8986           # Lo       CJK COMPATIBILITY IDEOGRAPH-FAB7
FAB8          ; NFKC_CF; 8996           # Lo       CJK COMPATIBILITY IDEOGRAPH-FAB8
"%string.
Definition props_text_293 := "FAB9          ; NFKC_CF; 8ABF           # Lo       CJK COMPATIBILITY IDEOGRAPH-FAB9
FABA          ; NFKC_CF; 8AF8           # Lo       CJK COMPATIBILITY IDEOGRAPH-FABA
FABB          ; NFKC_CF; 8ACB           # Lo       CJK COMPATIBILITY IDEOGRAPH-FABB
FABC          ; NFKC_CF; 8B01           # Lo       CJK COMPATIBILITY IDEOGRAPH-FABC
FABD          ; NFKC_CF; 8AFE           # Lo       CJK COMPATIBILITY IDEOGRAPH-FABD
FABE          ; NFKC_CF; 8AED           # Lo       CJK COMPATIBILITY IDEOGRAPH-FABE
FABF          ; NFKC_CF; 8B39           # Lo       CJK COMPATIBILITY IDEOGRAPH-FABF
FAC0          ; NFKC_CF; 8B8A           # Lo       CJK COMPATIBILITY IDEOGRAPH-FAC0
FAC1          ; NFKC_CF; 8D08           # Lo       CJK COMPATIBILITY IDEOGRAPH-FAC1
FAC2          ; NFKC_CF; 8F38           # Lo       CJK COMPATIBILITY IDEOGRAPH-FAC2
FAC3          ; NFKC_CF; 9072           # Lo       CJK COMPATIBILITY IDEOGRAPH-FAC3
FAC4          ; NFKC_CF; 9199           # Lo       CJK COMPATIBILITY IDEOGRAPH-FAC4
FAC5          ; NFKC_CF; 9276           # Lo       CJK COMPATIBILITY IDEOGRAPH-FAC5
FAC6          ; NFKC_CF; 967C           # Lo       CJK COMPATIBILITY IDEOGRAPH-FAC6
FAC7          ; NFKC_CF; 96E3           # Lo       CJK COMPATIBILITY IDEOGRAPH-FAC7
FAC8          ; NFKC_CF; 9756           # Lo       CJK COMPATIBILITY IDEOGRAPH-FAC8
FAC9          ; NFKC_CF; 97DB           # Lo       CJK COMPATIBILITY IDEOGRAPH-FAC9
FACA          ; NFKC_CF; 97FF           # Lo       CJK COMPATIBILITY IDEOGRAPH-FACA
FACB          ; NFKC_CF; 980B           # Lo       CJK COMPATIBILITY IDEOGRAPH-FACB
FACC          ; NFKC_CF; 983B           # Lo       CJK COMPATIBILITY IDEOGRAPH-FACC
"%string.
Definition props_text_294 := "FACD          ; NFKC_CF; 9B12           # Lo       CJK COMPATIBILITY IDEOGRAPH-FACD
FACE          ; NFKC_CF; 9F9C           # Lo       CJK COMPATIBILITY IDEOGRAPH-FACE
FACF          ; NFKC_CF; 2284A          # Lo       CJK COMPATIBILITY IDEOGRAPH-FACF
FAD0          ; NFKC_CF; 22844          # Lo       CJK COMPATIBILITY IDEOGRAPH-FAD0
FAD1          ; NFKC_CF; 233D5          # Lo       CJK COMPATIBILITY IDEOGRAPH-FAD1
FAD2          ; NFKC_CF; 3B9D           # Lo       CJK COMPATIBILITY IDEOGRAPH-FAD2
FAD3          ; NFKC_CF; 4018           # Lo       CJK COMPATIBILITY IDEOGRAPH-FAD3
FAD4          ; NFKC_CF; 4039           # Lo       CJK COMPATIBILITY IDEOGRAPH-FAD4
FAD5          ; NFKC_CF; 25249          # Lo       CJK COMPATIBILITY IDEOGRAPH-FAD5
FAD6          ; NFKC_CF; 25CD0          # Lo       CJK COMPATIBILITY IDEOGRAPH-FAD6
FAD7          ; NFKC_CF; 27ED3          # Lo       CJK COMPATIBILITY IDEOGRAPH-FAD7
FAD8          ; NFKC_CF; 9F43           # Lo       CJK COMPATIBILITY IDEOGRAPH-FAD8
FAD9          ; NFKC_CF; 9F8E           # Lo       CJK COMPATIBILITY IDEOGRAPH-FAD9
FB00          ; NFKC_CF; 0066 0066      # L&       LATIN SMALL LIGATURE FF
FB01          ; NFKC_CF; 0066 0069      # L&       LATIN SMALL LIGATURE FI
FB02          ; NFKC_CF; 0066 006C      # L&       LATIN SMALL LIGATURE FL
FB03          ; NFKC_CF; 0066 0066 0069 # L&       LATIN SMALL LIGATURE FFI
FB04          ; NFKC_CF; 0066 0066 006C # L&       LATIN SMALL LIGATURE FFL
FB05..FB06    ; NFKC_CF; 0073 0074      # L&   [2] LATIN SMALL LIGATURE LONG S T..LATIN SMALL LIGATURE ST
FB13          ; NFKC_CF; 0574 0576      # L&       ARMENIAN SMALL LIGATURE MEN NOW
"%string.
Definition props_text_295 := "FB14          ; NFKC_CF; 0574 0565      # L&       ARMENIAN SMALL LIGATURE MEN ECH
FB15          ; NFKC_CF; 0574 056B      # L&       ARMENIAN SMALL LIGATURE MEN INI
FB16          ; NFKC_CF; 057E 0576      # L&       ARMENIAN SMALL LIGATURE VEW NOW
FB17          ; NFKC_CF; 0574 056D      # L&       ARMENIAN SMALL LIGATURE MEN XEH
FB1D          ; NFKC_CF; 05D9 05B4      # Lo       HEBREW LETTER YOD WITH HIRIQ
FB1F          ; NFKC_CF; 05F2 05B7      # Lo       HEBREW LIGATURE YIDDISH YOD YOD PATAH
FB20          ; NFKC_CF; 05E2           # Lo       HEBREW LETTER ALTERNATIVE AYIN
FB21          ; NFKC_CF; 05D0           # Lo       HEBREW LETTER WIDE ALEF
FB22          ; NFKC_CF; 05D3           # Lo       HEBREW LETTER WIDE DALET
FB23          ; NFKC_CF; 05D4           # Lo       HEBREW LETTER WIDE HE
FB24          ; NFKC_CF; 05DB           # Lo       HEBREW LETTER WIDE KAF
FB25          ; NFKC_CF; 05DC           # Lo       HEBREW LETTER WIDE LAMED
FB26          ; NFKC_CF; 05DD           # Lo       HEBREW LETTER WIDE FINAL MEM
FB27          ; NFKC_CF; 05E8           # Lo       HEBREW LETTER WIDE RESH
FB28          ; NFKC_CF; 05EA           # Lo       HEBREW LETTER WIDE TAV
FB29          ; NFKC_CF; 002B           # Sm       HEBREW LETTER ALTERNATIVE PLUS SIGN
FB2A          ; NFKC_CF; 05E9 05C1      # Lo       HEBREW LETTER SHIN WITH SHIN DOT
FB2B          ; NFKC_CF; 05E9 05C2      # Lo       HEBREW LETTER SHIN WITH SIN DOT
FB2C          ; NFKC_CF; 05E9 05BC 05C1 # Lo       HEBREW LETTER SHIN WITH DAGESH AND SHIN DOT
FB2D          ; NFKC_CF; 05E9 05BC 05C2 # Lo       HEBREW LETTER SHIN WITH DAGESH AND SIN DOT
"%string.
Definition props_text_296 := "FB2E          ; NFKC_CF; 05D0 05B7      # Lo       HEBREW LETTER ALEF WITH PATAH
FB2F          ; NFKC_CF; 05D0 05B8      # Lo       HEBREW LETTER ALEF WITH QAMATS
FB30          ; NFKC_CF; 05D0 05BC      # Lo       HEBREW LETTER ALEF WITH MAPIQ
FB31          ; NFKC_CF; 05D1 05BC      # Lo       HEBREW LETTER BET WITH DAGESH
FB32          ; NFKC_CF; 05D2 05BC      # Lo       HEBREW LETTER GIMEL WITH DAGESH
FB33          ; NFKC_CF; 05D3 05BC      # Lo       HEBREW LETTER DALET WITH DAGESH
FB34          ; NFKC_CF; 05D4 05BC      # Lo       HEBREW LETTER HE WITH MAPIQ
FB35          ; NFKC_CF; 05D5 05BC      # Lo       HEBREW LETTER VAV WITH DAGESH
FB36          ; NFKC_CF; 05D6 05BC      # Lo       HEBREW LETTER ZAYIN WITH DAGESH
FB38          ; NFKC_CF; 05D8 05BC      # Lo       HEBREW LETTER TET WITH DAGESH
FB39          ; NFKC_CF; 05D9 05BC      # Lo       HEBREW LETTER YOD WITH DAGESH
FB3A          ; NFKC_CF; 05DA 05BC      # Lo       HEBREW LETTER FINAL KAF WITH DAGESH
FB3B          ; NFKC_CF; 05DB 05BC      # Lo       HEBREW LETTER KAF WITH DAGESH
FB3C          ; NFKC_CF; 05DC 05BC      # Lo       HEBREW LETTER LAMED WITH DAGESH
FB3E          ; NFKC_CF; 05DE 05BC      # Lo       HEBREW LETTER MEM WITH DAGESH
FB40          ; NFKC_CF; 05E0 05BC      # Lo       HEBREW LETTER NUN WITH DAGESH
FB41          ; NFKC_CF; 05E1 05BC      # Lo       HEBREW LETTER SAMEKH WITH DAGESH
FB43          ; NFKC_CF; 05E3 05BC      # Lo       HEBREW LETTER FINAL PE WITH DAGESH
FB44          ; NFKC_CF; 05E4 05BC      # Lo       HEBREW LETTER PE WITH DAGESH
FB46          ; NFKC_CF; 05E6 05BC      # Lo       HEBREW LETTER TSADI WITH DAGESH
"%string.
Definition props_text_297 := "FB47          ; NFKC_CF; 05E7 05BC      # Lo       HEBREW LETTER QOF WITH DAGESH
FB48          ; NFKC_CF; 05E8 05BC      # Lo       HEBREW LETTER RESH WITH DAGESH
FB49          ; NFKC_CF; 05E9 05BC      # Lo       HEBREW LETTER SHIN WITH DAGESH
FB4A          ; NFKC_CF; 05EA 05BC      # Lo       HEBREW LETTER TAV WITH DAGESH
FB4B          ; NFKC_CF; 05D5 05B9      # Lo       HEBREW LETTER VAV WITH HOLAM
FB4C          ; NFKC_CF; 05D1 05BF      # Lo       HEBREW LETTER BET WITH RAFE
FB4D          ; NFKC_CF; 05DB 05BF      # Lo       HEBREW LETTER KAF WITH RAFE
FB4E          ; NFKC_CF; 05E4 05BF      # Lo       HEBREW LETTER PE WITH RAFE
FB4F          ; NFKC_CF; 05D0 05DC      # Lo       HEBREW LIGATURE ALEF LAMED
FB50..FB51    ; NFKC_CF; 0671           # Lo   [2] ARABIC LETTER ALEF WASLA ISOLATED FORM..ARABIC LETTER ALEF WASLA FINAL FORM
FB52..FB55    ; NFKC_CF; 067B           # Lo   [4] ARABIC LETTER BEEH ISOLATED FORM..ARABIC LETTER BEEH MEDIAL FORM
FB56..FB59    ; NFKC_CF; 067E           # Lo   [4] ARABIC LETTER PEH ISOLATED FORM..ARABIC LETTER PEH MEDIAL FORM
FB5A..FB5D    ; NFKC_CF; 0680           # Lo   [4] ARABIC LETTER BEHEH ISOLATED FORM..ARABIC LETTER BEHEH MEDIAL FORM
FB5E..FB61    ; NFKC_CF; 067A           # Lo   [4] ARABIC LETTER TTEHEH ISOLATED FORM..ARABIC LETTER TTEHEH MEDIAL FORM
FB62..FB65    ; NFKC_CF; 067F           # Lo   [4] ARABIC LETTER TEHEH ISOLATED FORM..ARABIC LETTER TEHEH MEDIAL FORM
FB66..FB69    ; NFKC_CF; 0679           # Lo   [4] ARABIC LETTER TTEH ISOLATED FORM..ARABIC LETTER TTEH MEDIAL FORM
FB6A..FB6D    ; NFKC_CF; 06A4           # Lo   [4] ARABIC LETTER VEH ISOLATED FORM..ARABIC LETTER VEH MEDIAL FORM
FB6E..FB71    ; NFKC_CF; 06A6           # Lo   [4] ARABIC LETTER PEHEH ISOLATED FORM..ARABIC LETTER PEHEH MEDIAL FORM
FB72..FB75    ; NFKC_CF; 0684           # Lo   [4] ARABIC LETTER DYEH ISOLATED FORM..ARABIC LETTER DYEH MEDIAL FORM
FB76..FB79    ; NFKC_CF; 0683           # Lo   [4] ARABIC LETTER NYEH ISOLATED FORM..ARABIC LETTER NYEH MEDIAL FORM
"%string.
Definition props_text_298 := "FB7A..FB7D    ; NFKC_CF; 0686           # Lo   [4] ARABIC LETTER TCHEH ISOLATED FORM..ARABIC LETTER TCHEH MEDIAL FORM
FB7E..FB81    ; NFKC_CF; 0687           # Lo   [4] ARABIC LETTER TCHEHEH ISOLATED FORM..ARABIC LETTER TCHEHEH MEDIAL FORM
FB82..FB83    ; NFKC_CF; 068D           # Lo   [2] ARABIC LETTER DDAHAL ISOLATED FORM..ARABIC LETTER DDAHAL FINAL FORM
FB84..FB85    ; NFKC_CF; 068C           # Lo   [2] ARABIC LETTER DAHAL ISOLATED FORM..ARABIC LETTER DAHAL FINAL FORM
FB86..FB87    ; NFKC_CF; 068E           # Lo   [2] ARABIC LETTER DUL ISOLATED FORM..ARABIC LETTER DUL FINAL FORM
FB88..FB89    ; NFKC_CF; 0688           # Lo   [2] ARABIC LETTER DDAL ISOLATED FORM..ARABIC LETTER DDAL FINAL FORM
FB8A..FB8B    ; NFKC_CF; 0698           # Lo   [2] ARABIC LETTER JEH ISOLATED FORM..ARABIC LETTER JEH FINAL FORM
FB8C..FB8D    ; NFKC_CF; 0691           # Lo   [2] ARABIC LETTER RREH ISOLATED FORM..ARABIC LETTER RREH FINAL FORM
FB8E..FB91    ; NFKC_CF; 06A9           # Lo   [4] ARABIC LETTER KEHEH ISOLATED FORM..ARABIC LETTER KEHEH MEDIAL FORM
FB92..FB95    ; NFKC_CF; 06AF           # Lo   [4] ARABIC LETTER GAF ISOLATED FORM..ARABIC LETTER GAF MEDIAL FORM
FB96..FB99    ; NFKC_CF; 06B3           # Lo   [4] ARABIC LETTER GUEH ISOLATED FORM..ARABIC LETTER GUEH MEDIAL FORM
FB9A..FB9D    ; NFKC_CF; 06B1           # Lo   [4] ARABIC LETTER NGOEH ISOLATED FORM..ARABIC LETTER NGOEH MEDIAL FORM
FB9E..FB9F    ; NFKC_CF; 06BA           # Lo   [2] ARABIC LETTER NOON GHUNNA ISOLATED FORM..ARABIC LETTER NOON GHUNNA FINAL FORM
FBA0..FBA3    ; NFKC_CF; 06BB           # Lo   [4] ARABIC LETTER RNOON ISOLATED FORM..ARABIC LETTER RNOON MEDIAL FORM
FBA4..FBA5    ; NFKC_CF; 06C0           # Lo   [2] ARABIC LETTER HEH WITH YEH ABOVE ISOLATED FORM..ARABIC LETTER HEH WITH YEH ABOVE FINAL FORM
FBA6..FBA9    ; NFKC_CF; 06C1           # Lo   [4] ARABIC LETTER HEH GOAL ISOLATED FORM..ARABIC LETTER HEH GOAL MEDIAL FORM
FBAA..FBAD    ; NFKC_CF; 06BE           # Lo   [4] ARABIC LETTER HEH DOACHASHMEE ISOLATED FORM..ARABIC LETTER HEH DOACHASHMEE MEDIAL FORM
FBAE..FBAF    ; NFKC_CF; 06D2           # Lo   [2] ARABIC LETTER YEH BARREE ISOLATED FORM..ARABIC LETTER YEH BARREE FINAL FORM
FBB0..FBB1    ; NFKC_CF; 06D3           # Lo   [2] ARABIC LETTER YEH BARREE WITH HAMZA ABOVE ISOLATED FORM..ARABIC LETTER YEH BARREE WITH HAMZA ABOVE FINAL FORM
FBD3..FBD6    ; NFKC_CF; 06AD           # Lo   [4] ARABIC LETTER NG ISOLATED FORM..ARABIC LETTER NG MEDIAL FORM
"%string.
Definition props_text_299 := "FBD7..FBD8    ; NFKC_CF; 06C7           # Lo   [2] ARABIC LETTER U ISOLATED FORM..ARABIC LETTER U FINAL FORM
FBD9..FBDA    ; NFKC_CF; 06C6           # Lo   [2] ARABIC LETTER OE ISOLATED FORM..ARABIC LETTER OE FINAL FORM
FBDB..FBDC    ; NFKC_CF; 06C8           # Lo   [2] ARABIC LETTER YU ISOLATED FORM..ARABIC LETTER YU FINAL FORM
FBDD          ; NFKC_CF; 06C7 0674      # Lo       ARABIC LETTER U WITH HAMZA ABOVE ISOLATED FORM
FBDE..FBDF    ; NFKC_CF; 06CB           # Lo   [2] ARABIC LETTER VE ISOLATED FORM..ARABIC LETTER VE FINAL FORM
FBE0..FBE1    ; NFKC_CF; 06C5           # Lo   [2] ARABIC LETTER KIRGHIZ OE ISOLATED FORM..ARABIC LETTER KIRGHIZ OE FINAL FORM
FBE2..FBE3    ; NFKC_CF; 06C9           # Lo   [2] ARABIC LETTER KIRGHIZ YU ISOLATED FORM..ARABIC LETTER KIRGHIZ YU FINAL FORM
FBE4..FBE7    ; NFKC_CF; 06D0           # Lo   [4] ARABIC LETTER E ISOLATED FORM..ARABIC LETTER E MEDIAL FORM
FBE8..FBE9    ; NFKC_CF; 0649           # Lo   [2] ARABIC LETTER UIGHUR KAZAKH KIRGHIZ ALEF MAKSURA INITIAL FORM..ARABIC LETTER UIGHUR KAZAKH KIRGHIZ ALEF MAKSURA MEDIAL FORM
FBEA..FBEB    ; NFKC_CF; 0626 0627      # Lo   [2] ARABIC LIGATURE YEH WITH HAMZA ABOVE WITH ALEF ISOLATED FORM..ARABIC LIGATURE YEH WITH HAMZA ABOVE WITH ALEF FINAL FORM
FBEC..FBED    ; NFKC_CF; 0626 06D5      # Lo   [2] ARABIC LIGATURE YEH WITH HAMZA ABOVE WITH AE ISOLATED FORM..ARABIC LIGATURE YEH WITH HAMZA ABOVE WITH AE FINAL FORM
FBEE..FBEF    ; NFKC_CF; 0626 0648      # Lo   [2] ARABIC LIGATURE YEH WITH HAMZA ABOVE WITH WAW ISOLATED FORM..ARABIC LIGATURE YEH WITH HAMZA ABOVE WITH WAW FINAL FORM
FBF0..FBF1    ; NFKC_CF; 0626 06C7      # Lo   [2] ARABIC LIGATURE YEH WITH HAMZA ABOVE WITH U ISOLATED FORM..ARABIC LIGATURE YEH WITH HAMZA ABOVE WITH U FINAL FORM
FBF2..FBF3    ; NFKC_CF; 0626 06C6      # Lo   [2] ARABIC LIGATURE YEH WITH HAMZA ABOVE WITH OE ISOLATED FORM..ARABIC LIGATURE YEH WITH HAMZA ABOVE WITH OE FINAL FORM
FBF4..FBF5    ; NFKC_CF; 0626 06C8      # Lo   [2] ARABIC LIGATURE YEH WITH HAMZA ABOVE WITH YU ISOLATED FORM..ARABIC LIGATURE YEH WITH HAMZA ABOVE WITH YU FINAL FORM
FBF6..FBF8    ; NFKC_CF; 0626 06D0      # Lo   [3] ARABIC LIGATURE YEH WITH HAMZA ABOVE WITH E ISOLATED FORM..ARABIC LIGATURE YEH WITH HAMZA ABOVE WITH E INITIAL FORM
FBF9..FBFB    ; NFKC_CF; 0626 0649      # Lo   [3] ARABIC LIGATURE UIGHUR KIRGHIZ YEH WITH HAMZA ABOVE WITH ALEF MAKSURA ISOLATED FORM..ARABIC LIGATURE UIGHUR KIRGHIZ YEH WITH HAMZA ABOVE WITH ALEF MAKSURA INITIAL FORM
FBFC..FBFF    ; NFKC_CF; 06CC           # Lo   [4] ARABIC LETTER FARSI YEH ISOLATED FORM..ARABIC LETTER FARSI YEH MEDIAL FORM
FC00          ; NFKC_CF; 0626 062C      # Lo       ARABIC LIGATURE YEH WITH HAMZA ABOVE WITH JEEM ISOLATED FORM
FC01          ; NFKC_CF; 0626 062D      # Lo       ARABIC LIGATURE YEH WITH HAMZA ABOVE WITH HAH ISOLATED FORM
"%string.
Definition props_text_300 := "FC02          ; NFKC_CF; 0626 0645      # Lo       ARABIC LIGATURE YEH WITH HAMZA ABOVE WITH MEEM ISOLATED FORM
FC03          ; NFKC_CF; 0626 0649      # Lo       ARABIC LIGATURE YEH WITH HAMZA ABOVE WITH ALEF MAKSURA ISOLATED FORM
FC04          ; NFKC_CF; 0626 064A      # Lo       ARABIC LIGATURE YEH WITH HAMZA ABOVE WITH YEH ISOLATED FORM
FC05          ; NFKC_CF; 0628 062C      # Lo       ARABIC LIGATURE BEH WITH JEEM ISOLATED FORM
FC06          ; NFKC_CF; 0628 062D      # Lo       ARABIC LIGATURE BEH WITH HAH ISOLATED FORM
FC07          ; NFKC_CF; 0628 062E      # Lo       ARABIC LIGATURE BEH WITH KHAH ISOLATED FORM
FC08          ; NFKC_CF; 0628 0645      # Lo       ARABIC LIGATURE BEH WITH MEEM ISOLATED FORM
FC09          ; NFKC_CF; 0628 0649      # Lo       ARABIC LIGATURE BEH WITH ALEF MAKSURA ISOLATED FORM
FC0A          ; NFKC_CF; 0628 064A      # Lo       ARABIC LIGATURE BEH WITH YEH ISOLATED FORM
FC0B          ; NFKC_CF; 062A 062C      # Lo       ARABIC LIGATURE TEH WITH JEEM ISOLATED FORM
FC0C          ; NFKC_CF; 062A 062D      # Lo       ARABIC LIGATURE TEH WITH HAH ISOLATED FORM
FC0D          ; NFKC_CF; 062A 062E      # Lo       ARABIC LIGATURE TEH WITH KHAH ISOLATED FORM
FC0E          ; NFKC_CF; 062A 0645      # Lo       ARABIC LIGATURE TEH WITH MEEM ISOLATED FORM
FC0F          ; NFKC_CF; 062A 0649      # Lo       ARABIC LIGATURE TEH WITH ALEF MAKSURA ISOLATED FORM
FC10          ; NFKC_CF; 062A 064A      # Lo       ARABIC LIGATURE TEH WITH YEH ISOLATED FORM
FC11          ; NFKC_CF; 062B 062C      # Lo       ARABIC LIGATURE THEH WITH JEEM ISOLATED FORM
FC12          ; NFKC_CF; 062B 0645      # Lo       ARABIC LIGATURE THEH WITH MEEM ISOLATED FORM
FC13          ; NFKC_CF; 062B 0649      # Lo       ARABIC LIGATURE THEH WITH ALEF MAKSURA ISOLATED FORM
FC14          ; NFKC_CF; 062B 064A      # Lo       ARABIC LIGATURE THEH WITH YEH ISOLATED FORM
FC15          ; NFKC_CF; 062C 062D      # Lo       ARABIC LIGATURE JEEM WITH HAH ISOLATED FORM
"%string.
Definition props_text_301 := "FC16          ; NFKC_CF; 062C 0645      # Lo       ARABIC LIGATURE JEEM WITH MEEM ISOLATED FORM
FC17          ; NFKC_CF; 062D 062C      # Lo       ARABIC LIGATURE HAH WITH JEEM ISOLATED FORM
FC18          ; NFKC_CF; 062D 0645      # Lo       ARABIC LIGATURE HAH WITH MEEM ISOLATED FORM
FC19          ; NFKC_CF; 062E 062C      # Lo       ARABIC LIGATURE KHAH WITH JEEM ISOLATED FORM
FC1A          ; NFKC_CF; 062E 062D      # Lo       ARABIC LIGATURE KHAH WITH HAH ISOLATED FORM
FC1B          ; NFKC_CF; 062E 0645      # Lo       ARABIC LIGATURE KHAH WITH MEEM ISOLATED FORM
FC1C          ; NFKC_CF; 0633 062C      # Lo       ARABIC LIGATURE SEEN WITH JEEM ISOLATED FORM
FC1D          ; NFKC_CF; 0633 062D      # Lo       ARABIC LIGATURE SEEN WITH HAH ISOLATED FORM
FC1E          ; NFKC_CF; 0633 062E      # Lo       ARABIC LIGATURE SEEN WITH KHAH ISOLATED FORM
FC1F          ; NFKC_CF; 0633 0645      # Lo       ARABIC LIGATURE SEEN WITH MEEM ISOLATED FORM
FC20          ; NFKC_CF; 0635 062D      # Lo       ARABIC LIGATURE SAD WITH HAH ISOLATED FORM
FC21          ; NFKC_CF; 0635 0645      # Lo       ARABIC LIGATURE SAD WITH MEEM ISOLATED FORM
FC22          ; NFKC_CF; 0636 062C      # Lo       ARABIC LIGATURE DAD WITH JEEM ISOLATED FORM
FC23          ; NFKC_CF; 0636 062D      # Lo       ARABIC LIGATURE DAD WITH HAH ISOLATED FORM
FC24          ; NFKC_CF; 0636 062E      # Lo       ARABIC LIGATURE DAD WITH KHAH ISOLATED FORM
FC25          ; NFKC_CF; 0636 0645      # Lo       ARABIC LIGATURE DAD WITH MEEM ISOLATED FORM
FC26          ; NFKC_CF; 0637 062D      # Lo       ARABIC LIGATURE TAH WITH HAH ISOLATED FORM
FC27          ; NFKC_CF; 0637 0645      # Lo       ARABIC LIGATURE TAH WITH MEEM ISOLATED FORM
FC28          ; NFKC_CF; 0638 0645      # Lo       ARABIC LIGATURE ZAH WITH MEEM ISOLATED FORM
FC29          ; NFKC_CF; 0639 062C      # Lo       ARABIC LIGATURE AIN WITH JEEM ISOLATED FORM
"%string.
Definition props_text_302 := "FC2A          ; NFKC_CF; 0639 0645      # Lo       ARABIC LIGATURE AIN WITH MEEM ISOLATED FORM
FC2B          ; NFKC_CF; 063A 062C      # Lo       ARABIC LIGATURE GHAIN WITH JEEM ISOLATED FORM
FC2C          ; NFKC_CF; 063A 0645      # Lo       ARABIC LIGATURE GHAIN WITH MEEM ISOLATED FORM
FC2D          ; NFKC_CF; 0641 062C      # Lo       ARABIC LIGATURE FEH WITH JEEM ISOLATED FORM
FC2E          ; NFKC_CF; 0641 062D      # Lo       ARABIC LIGATURE FEH WITH HAH ISOLATED FORM
FC2F          ; NFKC_CF; 0641 062E      # Lo       ARABIC LIGATURE FEH WITH KHAH ISOLATED FORM
FC30          ; NFKC_CF; 0641 0645      # Lo       ARABIC LIGATURE FEH WITH MEEM ISOLATED FORM
FC31          ; NFKC_CF; 0641 0649      # Lo       ARABIC LIGATURE FEH WITH ALEF MAKSURA ISOLATED FORM
FC32          ; NFKC_CF; 0641 064A      # Lo       ARABIC LIGATURE FEH WITH YEH ISOLATED FORM
FC33          ; NFKC_CF; 0642 062D      # Lo       ARABIC LIGATURE QAF WITH HAH ISOLATED FORM
FC34          ; NFKC_CF; 0642 0645      # Lo       ARABIC LIGATURE QAF WITH MEEM ISOLATED FORM
FC35          ; NFKC_CF; 0642 0649      # Lo       ARABIC LIGATURE QAF WITH ALEF MAKSURA ISOLATED FORM
FC36          ; NFKC_CF; 0642 064A      # Lo       ARABIC LIGATURE QAF WITH YEH ISOLATED FORM
FC37          ; NFKC_CF; 0643 0627      # Lo       ARABIC LIGATURE KAF WITH ALEF ISOLATED FORM
FC38          ; NFKC_CF; 0643 062C      # Lo       ARABIC LIGATURE KAF WITH JEEM ISOLATED FORM
FC39          ; NFKC_CF; 0643 062D      # Lo       ARABIC LIGATURE KAF WITH HAH ISOLATED FORM
FC3A          ; NFKC_CF; 0643 062E      # Lo       ARABIC LIGATURE KAF WITH KHAH ISOLATED FORM
FC3B          ; NFKC_CF; 0643 0644      # Lo       ARABIC LIGATURE KAF WITH LAM ISOLATED FORM
FC3C          ; NFKC_CF; 0643 0645      # Lo       ARABIC LIGATURE KAF WITH MEEM ISOLATED FORM
FC3D          ; NFKC_CF; 0643 0649      # Lo       ARABIC LIGATURE KAF WITH ALEF MAKSURA ISOLATED FORM
"%string.
Definition props_text_303 := "FC3E          ; NFKC_CF; 0643 064A      # Lo       ARABIC LIGATURE KAF WITH YEH ISOLATED FORM
FC3F          ; NFKC_CF; 0644 062C      # Lo       ARABIC LIGATURE LAM WITH JEEM ISOLATED FORM
FC40          ; NFKC_CF; 0644 062D      # Lo       ARABIC LIGATURE LAM WITH HAH ISOLATED FORM
FC41          ; NFKC_CF; 0644 062E      # Lo       ARABIC LIGATURE LAM WITH KHAH ISOLATED FORM
FC42          ; NFKC_CF; 0644 0645      # Lo       ARABIC LIGATURE LAM WITH MEEM ISOLATED FORM
FC43          ; NFKC_CF; 0644 0649      # Lo       ARABIC LIGATURE LAM WITH ALEF MAKSURA ISOLATED FORM
FC44          ; NFKC_CF; 0644 064A      # Lo       ARABIC LIGATURE LAM WITH YEH ISOLATED FORM
FC45          ; NFKC_CF; 0645 062C      # Lo       ARABIC LIGATURE MEEM WITH JEEM ISOLATED FORM
FC46          ; NFKC_CF; 0645 062D      # Lo       ARABIC LIGATURE MEEM WITH HAH ISOLATED FORM
FC47          ; NFKC_CF; 0645 062E      # Lo       ARABIC LIGATURE MEEM WITH KHAH ISOLATED FORM
FC48          ; NFKC_CF; 0645 0645      # Lo       ARABIC LIGATURE MEEM WITH MEEM ISOLATED FORM
FC49          ; NFKC_CF; 0645 0649      # Lo       ARABIC LIGATURE MEEM WITH ALEF MAKSURA ISOLATED FORM
FC4A          ; NFKC_CF; 0645 064A      # Lo       ARABIC LIGATURE MEEM WITH YEH ISOLATED FORM
FC4B          ; NFKC_CF; 0646 062C      # Lo       ARABIC LIGATURE NOON WITH JEEM ISOLATED FORM
FC4C          ; NFKC_CF; 0646 062D      # Lo       ARABIC LIGATURE NOON WITH HAH ISOLATED FORM
FC4D          ; NFKC_CF; 0646 062E      # Lo       ARABIC LIGATURE NOON WITH KHAH ISOLATED FORM
FC4E          ; NFKC_CF; 0646 0645      # Lo       ARABIC LIGATURE NOON WITH MEEM ISOLATED FORM
FC4F          ; NFKC_CF; 0646 0649      # Lo       ARABIC LIGATURE NOON WITH ALEF MAKSURA ISOLATED FORM
FC50          ; NFKC_CF; 0646 064A      # Lo       ARABIC LIGATURE NOON WITH YEH ISOLATED FORM
FC51          ; NFKC_CF; 0647 062C      # Lo       ARABIC LIGATURE HEH WITH JEEM ISOLATED FORM
"%string.
Definition props_text_304 := "FC52          ; NFKC_CF; 0647 0645      # Lo       ARABIC LIGATURE HEH WITH MEEM ISOLATED FORM
FC53          ; NFKC_CF; 0647 0649      # Lo       ARABIC LIGATURE HEH WITH ALEF MAKSURA ISOLATED FORM
FC54          ; NFKC_CF; 0647 064A      # Lo       ARABIC LIGATURE HEH WITH YEH ISOLATED FORM
FC55          ; NFKC_CF; 064A 062C      # Lo       ARABIC LIGATURE YEH WITH JEEM ISOLATED FORM
FC56          ; NFKC_CF; 064A 062D      # Lo       ARABIC LIGATURE YEH WITH HAH ISOLATED FORM
FC57          ; NFKC_CF; 064A 062E      # Lo       ARABIC LIGATURE YEH WITH KHAH ISOLATED FORM
FC58          ; NFKC_CF; 064A 0645      # Lo       ARABIC LIGATURE YEH WITH MEEM ISOLATED FORM
FC59          ; NFKC_CF; 064A 0649      # Lo       ARABIC LIGATURE YEH WITH ALEF MAKSURA ISOLATED FORM
FC5A          ; NFKC_CF; 064A 064A      # Lo       ARABIC LIGATURE YEH WITH YEH ISOLATED FORM
FC5B          ; NFKC_CF; 0630 0670      # Lo       ARABIC LIGATURE THAL WITH SUPERSCRIPT ALEF ISOLATED FORM
FC5C          ; NFKC_CF; 0631 0670      # Lo       ARABIC LIGATURE REH WITH SUPERSCRIPT ALEF ISOLATED FORM
FC5D          ; NFKC_CF; 0649 0670      # Lo       ARABIC LIGATURE ALEF MAKSURA WITH SUPERSCRIPT ALEF ISOLATED FORM
FC5E          ; NFKC_CF; 0020 064C 0651 # Lo       ARABIC LIGATURE SHADDA WITH DAMMATAN ISOLATED FORM
FC5F          ; NFKC_CF; 0020 064D 0651 # Lo       ARABIC LIGATURE SHADDA WITH KASRATAN ISOLATED FORM
FC60          ; NFKC_CF; 0020 064E 0651 # Lo       ARABIC LIGATURE SHADDA WITH FATHA ISOLATED FORM
FC61          ; NFKC_CF; 0020 064F 0651 # Lo       ARABIC LIGATURE SHADDA WITH DAMMA ISOLATED FORM
FC62          ; NFKC_CF; 0020 0650 0651 # Lo       ARABIC LIGATURE SHADDA WITH KASRA ISOLATED FORM
FC63          ; NFKC_CF; 0020 0651 0670 # Lo       ARABIC LIGATURE SHADDA WITH SUPERSCRIPT ALEF ISOLATED FORM
FC64          ; NFKC_CF; 0626 0631      # Lo       ARABIC LIGATURE YEH WITH HAMZA ABOVE WITH REH FINAL FORM
FC65          ; NFKC_CF; 0626 0632      # Lo       ARABIC LIGATURE YEH WITH HAMZA ABOVE WITH ZAIN FINAL FORM
"%string.
Definition props_text_305 := "FC66          ; NFKC_CF; 0626 0645      # Lo       ARABIC LIGATURE YEH WITH HAMZA ABOVE WITH MEEM FINAL FORM
FC67          ; NFKC_CF; 0626 0646      # Lo       ARABIC LIGATURE YEH WITH HAMZA ABOVE WITH NOON FINAL FORM
FC68          ; NFKC_CF; 0626 0649      # Lo       ARABIC LIGATURE YEH WITH HAMZA ABOVE WITH ALEF MAKSURA FINAL FORM
FC69          ; NFKC_CF; 0626 064A      # Lo       ARABIC LIGATURE YEH WITH HAMZA ABOVE WITH YEH FINAL FORM
FC6A          ; NFKC_CF; 0628 0631      # Lo       ARABIC LIGATURE BEH WITH REH FINAL FORM
FC6B          ; NFKC_CF; 0628 0632      # Lo       ARABIC LIGATURE BEH WITH ZAIN FINAL FORM
FC6C          ; NFKC_CF; 0628 0645      # Lo       ARABIC LIGATURE BEH WITH MEEM FINAL FORM
FC6D          ; NFKC_CF; 0628 0646      # Lo       ARABIC LIGATURE BEH WITH NOON FINAL FORM
FC6E          ; NFKC_CF; 0628 0649      # Lo       ARABIC LIGATURE BEH WITH ALEF MAKSURA FINAL FORM
FC6F          ; NFKC_CF; 0628 064A      # Lo       ARABIC LIGATURE BEH WITH YEH FINAL FORM
FC70          ; NFKC_CF; 062A 0631      # Lo       ARABIC LIGATURE TEH WITH REH FINAL FORM
FC71          ; NFKC_CF; 062A 0632      # Lo       ARABIC LIGATURE TEH WITH ZAIN FINAL FORM
FC72          ; NFKC_CF; 062A 0645      # Lo       ARABIC LIGATURE TEH WITH MEEM FINAL FORM
FC73          ; NFKC_CF; 062A 0646      # Lo       ARABIC LIGATURE TEH WITH NOON FINAL FORM
FC74          ; NFKC_CF; 062A 0649      # Lo       ARABIC LIGATURE TEH WITH ALEF MAKSURA FINAL FORM
FC75          ; NFKC_CF; 062A 064A      # Lo       ARABIC LIGATURE TEH WITH YEH FINAL FORM
FC76          ; NFKC_CF; 062B 0631      # Lo       ARABIC LIGATURE THEH WITH REH FINAL FORM
FC77          ; NFKC_CF; 062B 0632      # Lo       ARABIC LIGATURE THEH WITH ZAIN FINAL FORM
FC78          ; NFKC_CF; 062B 0645      # Lo       ARABIC LIGATURE THEH WITH MEEM FINAL FORM
FC79          ; NFKC_CF; 062B 0646      # Lo       ARABIC LIGATURE THEH WITH NOON FINAL FORM
"%string.
Definition props_text_306 := "FC7A          ; NFKC_CF; 062B 0649      # Lo       ARABIC LIGATURE THEH WITH ALEF MAKSURA FINAL FORM
FC7B          ; NFKC_CF; 062B 064A      # Lo       ARABIC LIGATURE THEH WITH YEH FINAL FORM
FC7C          ; NFKC_CF; 0641 0649      # Lo       ARABIC LIGATURE FEH WITH ALEF MAKSURA FINAL FORM
FC7D          ; NFKC_CF; 0641 064A      # Lo       ARABIC LIGATURE FEH WITH YEH FINAL FORM
FC7E          ; NFKC_CF; 0642 0649      # Lo       ARABIC LIGATURE QAF WITH ALEF MAKSURA FINAL FORM
FC7F          ; NFKC_CF; 0642 064A      # Lo       ARABIC LIGATURE QAF WITH YEH FINAL FORM
FC80          ; NFKC_CF; 0643 0627      # Lo       ARABIC LIGATURE KAF WITH ALEF FINAL FORM
FC81          ; NFKC_CF; 0643 0644      # Lo       ARABIC LIGATURE KAF WITH LAM FINAL FORM
FC82          ; NFKC_CF; 0643 0645      # Lo       ARABIC LIGATURE KAF WITH MEEM FINAL FORM
FC83          ; NFKC_CF; 0643 0649      # Lo       ARABIC LIGATURE KAF WITH ALEF MAKSURA FINAL FORM
FC84          ; NFKC_CF; 0643 064A      # Lo       ARABIC LIGATURE KAF WITH YEH FINAL FORM
FC85          ; NFKC_CF; 0644 0645      # Lo       ARABIC LIGATURE LAM WITH MEEM FINAL FORM
FC86          ; NFKC_CF; 0644 0649      # Lo       ARABIC LIGATURE LAM WITH ALEF MAKSURA FINAL FORM
FC87          ; NFKC_CF; 0644 064A      # Lo       ARABIC LIGATURE LAM WITH YEH FINAL FORM
FC88          ; NFKC_CF; 0645 0627      # Lo       ARABIC LIGATURE MEEM WITH ALEF FINAL FORM
FC89          ; NFKC_CF; 0645 0645      # Lo       ARABIC LIGATURE MEEM WITH MEEM FINAL FORM
FC8A          ; NFKC_CF; 0646 0631      # Lo       ARABIC LIGATURE NOON WITH REH FINAL FORM
FC8B          ; NFKC_CF; 0646 0632      # Lo       ARABIC LIGATURE NOON WITH ZAIN FINAL FORM
FC8C          ; NFKC_CF; 0646 0645      # Lo       ARABIC LIGATURE NOON WITH MEEM FINAL FORM
FC8D          ; NFKC_CF; 0646 0646      # Lo       ARABIC LIGATURE NOON WITH NOON FINAL FORM
"%string.
Definition props_text_307 := "FC8E          ; NFKC_CF; 0646 0649      # Lo       ARABIC LIGATURE NOON WITH ALEF MAKSURA FINAL FORM
FC8F          ; NFKC_CF; 0646 064A      # Lo       ARABIC LIGATURE NOON WITH YEH FINAL FORM
FC90          ; NFKC_CF; 0649 0670      # Lo       ARABIC LIGATURE ALEF MAKSURA WITH SUPERSCRIPT ALEF FINAL FORM
FC91          ; NFKC_CF; 064A 0631      # Lo       ARABIC LIGATURE YEH WITH REH FINAL FORM
FC92          ; NFKC_CF; 064A 0632      # Lo       ARABIC LIGATURE YEH WITH ZAIN FINAL FORM
FC93          ; NFKC_CF; 064A 0645      # Lo       ARABIC LIGATURE YEH WITH MEEM FINAL FORM
FC94          ; NFKC_CF; 064A 0646      # Lo       ARABIC LIGATURE YEH WITH NOON FINAL FORM
FC95          ; NFKC_CF; 064A 0649      # Lo       ARABIC LIGATURE YEH WITH ALEF MAKSURA FINAL FORM
FC96          ; NFKC_CF; 064A 064A      # Lo       ARABIC LIGATURE YEH WITH YEH FINAL FORM
FC97          ; NFKC_CF; 0626 062C      # Lo       ARABIC LIGATURE YEH WITH HAMZA ABOVE WITH JEEM INITIAL FORM
FC98          ; NFKC_CF; 0626 062D      # Lo       ARABIC LIGATURE YEH WITH HAMZA ABOVE WITH HAH INITIAL FORM
FC99          ; NFKC_CF; 0626 062E      # Lo       ARABIC LIGATURE YEH WITH HAMZA ABOVE WITH KHAH INITIAL FORM
FC9A          ; NFKC_CF; 0626 0645      # Lo       ARABIC LIGATURE YEH WITH HAMZA ABOVE WITH MEEM INITIAL FORM
FC9B          ; NFKC_CF; 0626 0647      # Lo       ARABIC LIGATURE YEH WITH HAMZA ABOVE WITH HEH INITIAL FORM
FC9C          ; NFKC_CF; 0628 062C      # Lo       ARABIC LIGATURE BEH WITH JEEM INITIAL FORM
FC9D          ; NFKC_CF; 0628 062D      # Lo       ARABIC LIGATURE BEH WITH HAH INITIAL FORM
FC9E          ; NFKC_CF; 0628 062E      # Lo       ARABIC LIGATURE BEH WITH KHAH INITIAL FORM
FC9F          ; NFKC_CF; 0628 0645      # Lo       ARABIC LIGATURE BEH WITH MEEM INITIAL FORM
FCA0          ; NFKC_CF; 0628 0647      # Lo       ARABIC LIGATURE BEH WITH HEH INITIAL FORM
FCA1          ; NFKC_CF; 062A 062C      # Lo       ARABIC LIGATURE TEH WITH JEEM INITIAL FORM
"%string.
Definition props_text_308 := "FCA2          ; NFKC_CF; 062A 062D      # Lo       ARABIC LIGATURE TEH WITH HAH INITIAL FORM
FCA3          ; NFKC_CF; 062A 062E      # Lo       ARABIC LIGATURE TEH WITH KHAH INITIAL FORM
FCA4          ; NFKC_CF; 062A 0645      # Lo       ARABIC LIGATURE TEH WITH MEEM INITIAL FORM
FCA5          ; NFKC_CF; 062A 0647      # Lo       ARABIC LIGATURE TEH WITH HEH INITIAL FORM
FCA6          ; NFKC_CF; 062B 0645      # Lo       ARABIC LIGATURE THEH WITH MEEM INITIAL FORM
FCA7          ; NFKC_CF; 062C 062D      # Lo       ARABIC LIGATURE JEEM WITH HAH INITIAL FORM
FCA8          ; NFKC_CF; 062C 0645      # Lo       ARABIC LIGATURE JEEM WITH MEEM INITIAL FORM
FCA9          ; NFKC_CF; 062D 062C      # Lo       ARABIC LIGATURE HAH WITH JEEM INITIAL FORM
FCAA          ; NFKC_CF; 062D 0645      # Lo       ARABIC LIGATURE HAH WITH MEEM INITIAL FORM
FCAB          ; NFKC_CF; 062E 062C      # Lo       ARABIC LIGATURE KHAH WITH JEEM INITIAL FORM
FCAC          ; NFKC_CF; 062E 0645      # Lo       ARABIC LIGATURE KHAH WITH MEEM INITIAL FORM
FCAD          ; NFKC_CF; 0633 062C      # Lo       ARABIC LIGATURE SEEN WITH JEEM INITIAL FORM
FCAE          ; NFKC_CF; 0633 062D      # Lo       ARABIC LIGATURE SEEN WITH HAH INITIAL FORM
FCAF          ; NFKC_CF; 0633 062E      # Lo       ARABIC LIGATURE SEEN WITH KHAH INITIAL FORM
FCB0          ; NFKC_CF; 0633 0645      # Lo       ARABIC LIGATURE SEEN WITH MEEM INITIAL FORM
FCB1          ; NFKC_CF; 0635 062D      # Lo       ARABIC LIGATURE SAD WITH HAH INITIAL FORM
FCB2          ; NFKC_CF; 0635 062E      # Lo       ARABIC LIGATURE SAD WITH KHAH INITIAL FORM
FCB3          ; NFKC_CF; 0635 0645      # Lo       ARABIC LIGATURE SAD WITH MEEM INITIAL FORM
FCB4          ; NFKC_CF; 0636 062C      # Lo       ARABIC LIGATURE DAD WITH JEEM INITIAL FORM
FCB5          ; NFKC_CF; 0636 062D      # Lo       ARABIC LIGATURE DAD WITH HAH INITIAL FORM
"%string.
Definition props_text_309 := "FCB6          ; NFKC_CF; 0636 062E      # Lo       ARABIC LIGATURE DAD WITH KHAH INITIAL FORM
FCB7          ; NFKC_CF; 0636 0645      # Lo       ARABIC LIGATURE DAD WITH MEEM INITIAL FORM
FCB8          ; NFKC_CF; 0637 062D      # Lo       ARABIC LIGATURE TAH WITH HAH INITIAL FORM
FCB9          ; NFKC_CF; 0638 0645      # Lo       ARABIC LIGATURE ZAH WITH MEEM INITIAL FORM
FCBA          ; NFKC_CF; 0639 062C      # Lo       ARABIC LIGATURE AIN WITH JEEM INITIAL FORM
FCBB          ; NFKC_CF; 0639 0645      # Lo       ARABIC LIGATURE AIN WITH MEEM INITIAL FORM
FCBC          ; NFKC_CF; 063A 062C      # Lo       ARABIC LIGATURE GHAIN WITH JEEM INITIAL FORM
FCBD          ; NFKC_CF; 063A 0645      # Lo       ARABIC LIGATURE GHAIN WITH MEEM INITIAL FORM
FCBE          ; NFKC_CF; 0641 062C      # Lo       ARABIC LIGATURE FEH WITH JEEM INITIAL FORM
FCBF          ; NFKC_CF; 0641 062D      # Lo       ARABIC LIGATURE FEH WITH HAH INITIAL FORM
FCC0          ; NFKC_CF; 0641 062E      # Lo       ARABIC LIGATURE FEH WITH KHAH INITIAL FORM
FCC1          ; NFKC_CF; 0641 0645      # Lo       ARABIC LIGATURE FEH WITH MEEM INITIAL FORM
FCC2          ; NFKC_CF; 0642 062D      # Lo       ARABIC LIGATURE QAF WITH HAH INITIAL FORM
FCC3          ; NFKC_CF; 0642 0645      # Lo       ARABIC LIGATURE QAF WITH MEEM INITIAL FORM
FCC4          ; NFKC_CF; 0643 062C      # Lo       ARABIC LIGATURE KAF WITH JEEM INITIAL FORM
FCC5          ; NFKC_CF; 0643 062D      # Lo       ARABIC LIGATURE KAF WITH HAH INITIAL FORM
FCC6          ; NFKC_CF; 0643 062E      # Lo       ARABIC LIGATURE KAF WITH KHAH INITIAL FORM
FCC7          ; NFKC_CF; 0643 0644      # Lo       ARABIC LIGATURE KAF WITH LAM INITIAL FORM
FCC8          ; NFKC_CF; 0643 0645      # Lo       ARABIC LIGATURE KAF WITH MEEM INITIAL FORM
FCC9          ; NFKC_CF; 0644 062C      # Lo       ARABIC LIGATURE LAM WITH JEEM INITIAL FORM
"%string.
Definition props_text_310 := "FCCA          ; NFKC_CF; 0644 062D      # Lo       ARABIC LIGATURE LAM WITH HAH INITIAL FORM
FCCB          ; NFKC_CF; 0644 062E      # Lo       ARABIC LIGATURE LAM WITH KHAH INITIAL FORM
FCCC          ; NFKC_CF; 0644 0645      # Lo       ARABIC LIGATURE LAM WITH MEEM INITIAL FORM
FCCD          ; NFKC_CF; 0644 0647      # Lo       ARABIC LIGATURE LAM WITH HEH INITIAL FORM
FCCE          ; NFKC_CF; 0645 062C      # Lo       ARABIC LIGATURE MEEM WITH JEEM INITIAL FORM
FCCF          ; NFKC_CF; 0645 062D      # Lo       ARABIC LIGATURE MEEM WITH HAH INITIAL FORM
FCD0          ; NFKC_CF; 0645 062E      # Lo       ARABIC LIGATURE MEEM WITH KHAH INITIAL FORM
FCD1          ; NFKC_CF; 0645 0645      # Lo       ARABIC LIGATURE MEEM WITH MEEM INITIAL FORM
FCD2          ; NFKC_CF; 0646 062C      # Lo       ARABIC LIGATURE NOON WITH JEEM INITIAL FORM
FCD3          ; NFKC_CF; 0646 062D      # Lo       ARABIC LIGATURE NOON WITH HAH INITIAL FORM
FCD4          ; NFKC_CF; 0646 062E      # Lo       ARABIC LIGATURE NOON WITH KHAH INITIAL FORM
FCD5          ; NFKC_CF; 0646 0645      # Lo       ARABIC LIGATURE NOON WITH MEEM INITIAL FORM
FCD6          ; NFKC_CF; 0646 0647      # Lo       ARABIC LIGATURE NOON WITH HEH INITIAL FORM
FCD7          ; NFKC_CF; 0647 062C      # Lo       ARABIC LIGATURE HEH WITH JEEM INITIAL FORM
FCD8          ; NFKC_CF; 0647 0645      # Lo       ARABIC LIGATURE HEH WITH MEEM INITIAL FORM
FCD9          ; NFKC_CF; 0647 0670      # Lo       ARABIC LIGATURE HEH WITH SUPERSCRIPT ALEF INITIAL FORM
FCDA          ; NFKC_CF; 064A 062C      # Lo       ARABIC LIGATURE YEH WITH JEEM INITIAL FORM
FCDB          ; NFKC_CF; 064A 062D      # Lo       ARABIC LIGATURE YEH WITH HAH INITIAL FORM
FCDC          ; NFKC_CF; 064A 062E      # Lo       ARABIC LIGATURE YEH WITH KHAH INITIAL FORM
FCDD          ; NFKC_CF; 064A 0645      # Lo       ARABIC LIGATURE YEH WITH MEEM INITIAL FORM
"%string.
Definition props_text_311 := "FCDE          ; NFKC_CF; 064A 0647      # Lo       ARABIC LIGATURE YEH WITH HEH INITIAL FORM
FCDF          ; NFKC_CF; 0626 0645      # Lo       ARABIC LIGATURE YEH WITH HAMZA ABOVE WITH MEEM MEDIAL FORM
FCE0          ; NFKC_CF; 0626 0647      # Lo       ARABIC LIGATURE YEH WITH HAMZA ABOVE WITH HEH MEDIAL FORM
FCE1          ; NFKC_CF; 0628 0645      # Lo       ARABIC LIGATURE BEH WITH MEEM MEDIAL FORM
FCE2          ; NFKC_CF; 0628 0647      # Lo       ARABIC LIGATURE BEH WITH HEH MEDIAL FORM
FCE3          ; NFKC_CF; 062A 0645      # Lo       ARABIC LIGATURE TEH WITH MEEM MEDIAL FORM
FCE4          ; NFKC_CF; 062A 0647      # Lo       ARABIC LIGATURE TEH WITH HEH MEDIAL FORM
FCE5          ; NFKC_CF; 062B 0645      # Lo       ARABIC LIGATURE THEH WITH MEEM MEDIAL FORM
FCE6          ; NFKC_CF; 062B 0647      # Lo       ARABIC LIGATURE THEH WITH HEH MEDIAL FORM
FCE7          ; NFKC_CF; 0633 0645      # Lo       ARABIC LIGATURE SEEN WITH MEEM MEDIAL FORM
FCE8          ; NFKC_CF; 0633 0647      # Lo       ARABIC LIGATURE SEEN WITH HEH MEDIAL FORM
FCE9          ; NFKC_CF; 0634 0645      # Lo       ARABIC LIGATURE SHEEN WITH MEEM MEDIAL FORM
FCEA          ; NFKC_CF; 0634 0647      # Lo       ARABIC LIGATURE SHEEN WITH HEH MEDIAL FORM
FCEB          ; NFKC_CF; 0643 0644      # Lo       ARABIC LIGATURE KAF WITH LAM MEDIAL FORM
FCEC          ; NFKC_CF; 0643 0645      # Lo       ARABIC LIGATURE KAF WITH MEEM MEDIAL FORM
FCED          ; NFKC_CF; 0644 0645      # Lo       ARABIC LIGATURE LAM WITH MEEM MEDIAL FORM
FCEE          ; NFKC_CF; 0646 0645      # Lo       ARABIC LIGATURE NOON WITH MEEM MEDIAL FORM
FCEF          ; NFKC_CF; 0646 0647      # Lo       ARABIC LIGATURE NOON WITH HEH MEDIAL FORM
FCF0          ; NFKC_CF; 064A 0645      # Lo       ARABIC LIGATURE YEH WITH MEEM MEDIAL FORM
FCF1          ; NFKC_CF; 064A 0647      # Lo       ARABIC LIGATURE YEH WITH HEH MEDIAL FORM
"%string.
Definition props_text_312 := "FCF2          ; NFKC_CF; 0640 064E 0651 # Lo       ARABIC LIGATURE SHADDA WITH FATHA MEDIAL FORM
FCF3          ; NFKC_CF; 0640 064F 0651 # Lo       ARABIC LIGATURE SHADDA WITH DAMMA MEDIAL FORM
FCF4          ; NFKC_CF; 0640 0650 0651 # Lo       ARABIC LIGATURE SHADDA WITH KASRA MEDIAL FORM
FCF5          ; NFKC_CF; 0637 0649      # Lo       ARABIC LIGATURE TAH WITH ALEF MAKSURA ISOLATED FORM
FCF6          ; NFKC_CF; 0637 064A      # Lo       ARABIC LIGATURE TAH WITH YEH ISOLATED FORM
FCF7          ; NFKC_CF; 0639 0649      # Lo       ARABIC LIGATURE AIN WITH ALEF MAKSURA ISOLATED FORM
FCF8          ; NFKC_CF; 0639 064A      # Lo       ARABIC LIGATURE AIN WITH YEH ISOLATED FORM
FCF9          ; NFKC_CF; 063A 0649      # Lo       ARABIC LIGATURE GHAIN WITH ALEF MAKSURA ISOLATED FORM
FCFA          ; NFKC_CF; 063A 064A      # Lo       ARABIC LIGATURE GHAIN WITH YEH ISOLATED FORM
FCFB          ; NFKC_CF; 0633 0649      # Lo       ARABIC LIGATURE SEEN WITH ALEF MAKSURA ISOLATED FORM
FCFC          ; NFKC_CF; 0633 064A      # Lo       ARABIC LIGATURE SEEN WITH YEH ISOLATED FORM
FCFD          ; NFKC_CF; 0634 0649      # Lo       ARABIC LIGATURE SHEEN WITH ALEF MAKSURA ISOLATED FORM
FCFE          ; NFKC_CF; 0634 064A      # Lo       ARABIC LIGATURE SHEEN WITH YEH ISOLATED FORM
FCFF          ; NFKC_CF; 062D 0649      # Lo       ARABIC LIGATURE HAH WITH ALEF MAKSURA ISOLATED FORM
FD00          ; NFKC_CF; 062D 064A      # Lo       ARABIC LIGATURE HAH WITH YEH ISOLATED FORM
FD01          ; NFKC_CF; 062C 0649      # Lo       ARABIC LIGATURE JEEM WITH ALEF MAKSURA ISOLATED FORM
FD02          ; NFKC_CF; 062C 064A      # Lo       ARABIC LIGATURE JEEM WITH YEH ISOLATED FORM
FD03          ; NFKC_CF; 062E 0649      # Lo       ARABIC LIGATURE KHAH WITH ALEF MAKSURA ISOLATED FORM
FD04          ; NFKC_CF; 062E 064A      # Lo       ARABIC LIGATURE KHAH WITH YEH ISOLATED FORM
FD05          ; NFKC_CF; 0635 0649      # Lo       ARABIC LIGATURE SAD WITH ALEF MAKSURA ISOLATED FORM
"%string.
Definition props_text_313 := "FD06          ; NFKC_CF; 0635 064A      # Lo       ARABIC LIGATURE SAD WITH YEH ISOLATED FORM
FD07          ; NFKC_CF; 0636 0649      # Lo       ARABIC LIGATURE DAD WITH ALEF MAKSURA ISOLATED FORM
FD08          ; NFKC_CF; 0636 064A      # Lo       ARABIC LIGATURE DAD WITH YEH ISOLATED FORM
FD09          ; NFKC_CF; 0634 062C      # Lo       ARABIC LIGATURE SHEEN WITH JEEM ISOLATED FORM
FD0A          ; NFKC_CF; 0634 062D      # Lo       ARABIC LIGATURE SHEEN WITH HAH ISOLATED FORM
FD0B          ; NFKC_CF; 0634 062E      # Lo       ARABIC LIGATURE SHEEN WITH KHAH ISOLATED FORM
FD0C          ; NFKC_CF; 0634 0645      # Lo       ARABIC LIGATURE SHEEN WITH MEEM ISOLATED FORM
FD0D          ; NFKC_CF; 0634 0631      # Lo       ARABIC LIGATURE SHEEN WITH REH ISOLATED FORM
FD0E          ; NFKC_CF; 0633 0631      # Lo       ARABIC LIGATURE SEEN WITH REH ISOLATED FORM
FD0F          ; NFKC_CF; 0635 0631      # Lo       ARABIC LIGATURE SAD WITH REH ISOLATED FORM
FD10          ; NFKC_CF; 0636 0631      # Lo       ARABIC LIGATURE DAD WITH REH ISOLATED FORM
FD11          ; NFKC_CF; 0637 0649      # Lo       ARABIC LIGATURE TAH WITH ALEF MAKSURA FINAL FORM
FD12          ; NFKC_CF; 0637 064A      # Lo       ARABIC LIGATURE TAH WITH YEH FINAL FORM
FD13          ; NFKC_CF; 0639 0649      # Lo       ARABIC LIGATURE AIN WITH ALEF MAKSURA FINAL FORM
FD14          ; NFKC_CF; 0639 064A      # Lo       ARABIC LIGATURE AIN WITH YEH FINAL FORM
FD15          ; NFKC_CF; 063A 0649      # Lo       ARABIC LIGATURE GHAIN WITH ALEF MAKSURA FINAL FORM
FD16          ; NFKC_CF; 063A 064A      # Lo       ARABIC LIGATURE GHAIN WITH YEH FINAL FORM
FD17          ; NFKC_CF; 0633 0649      # Lo       ARABIC LIGATURE SEEN WITH ALEF MAKSURA FINAL FORM
FD18          ; NFKC_CF; 0633 064A      # Lo       ARABIC LIGATURE SEEN WITH YEH FINAL FORM
FD19          ; NFKC_CF; 0634 0649      # Lo       ARABIC LIGATURE SHEEN WITH ALEF MAKSURA FINAL FORM
"%string.
Definition props_text_314 := "FD1A          ; NFKC_CF; 0634 064A      # Lo       ARABIC LIGATURE SHEEN WITH YEH FINAL FORM
FD1B          ; NFKC_CF; 062D 0649      # Lo       ARABIC LIGATURE HAH WITH ALEF MAKSURA FINAL FORM
FD1C          ; NFKC_CF; 062D 064A      # Lo       ARABIC LIGATURE HAH WITH YEH FINAL FORM
FD1D          ; NFKC_CF; 062C 0649      # Lo       ARABIC LIGATURE JEEM WITH ALEF MAKSURA FINAL FORM
FD1E          ; NFKC_CF; 062C 064A      # Lo       ARABIC LIGATURE JEEM WITH YEH FINAL FORM
FD1F          ; NFKC_CF; 062E 0649      # Lo       ARABIC LIGATURE KHAH WITH ALEF MAKSURA FINAL FORM
FD20          ; NFKC_CF; 062E 064A      # Lo       ARABIC LIGATURE KHAH WITH YEH FINAL FORM
FD21          ; NFKC_CF; 0635 0649      # Lo       ARABIC LIGATURE SAD WITH ALEF MAKSURA FINAL FORM
FD22          ; NFKC_CF; 0635 064A      # Lo       ARABIC LIGATURE SAD WITH YEH FINAL FORM
FD23          ; NFKC_CF; 0636 0649      # Lo       ARABIC LIGATURE DAD WITH ALEF MAKSURA FINAL FORM
FD24          ; NFKC_CF; 0636 064A      # Lo       ARABIC LIGATURE DAD WITH YEH FINAL FORM
FD25          ; NFKC_CF; 0634 062C      # Lo       ARABIC LIGATURE SHEEN WITH JEEM FINAL FORM
FD26          ; NFKC_CF; 0634 062D      # Lo       ARABIC LIGATURE SHEEN WITH HAH FINAL FORM
FD27          ; NFKC_CF; 0634 062E      # Lo       ARABIC LIGATURE SHEEN WITH KHAH FINAL FORM
FD28          ; NFKC_CF; 0634 0645      # Lo       ARABIC LIGATURE SHEEN WITH MEEM FINAL FORM
FD29          ; NFKC_CF; 0634 0631      # Lo       ARABIC LIGATURE SHEEN WITH REH FINAL FORM
FD2A          ; NFKC_CF; 0633 0631      # Lo       ARABIC LIGATURE SEEN WITH REH FINAL FORM
FD2B          ; NFKC_CF; 0635 0631      # Lo       ARABIC LIGATURE SAD WITH REH FINAL FORM
FD2C          ; NFKC_CF; 0636 0631      # Lo       ARABIC LIGATURE DAD WITH REH FINAL FORM
FD2D          ; NFKC_CF; 0634 062C      # Lo       ARABIC LIGATURE SHEEN WITH JEEM INITIAL FORM
"%string.
Definition props_text_315 := "FD2E          ; NFKC_CF; 0634 062D      # Lo       ARABIC LIGATURE SHEEN WITH HAH INITIAL FORM
FD2F          ; NFKC_CF; 0634 062E      # Lo       ARABIC LIGATURE SHEEN WITH KHAH INITIAL FORM
FD30          ; NFKC_CF; 0634 0645      # Lo       ARABIC LIGATURE SHEEN WITH MEEM INITIAL FORM
FD31          ; NFKC_CF; 0633 0647      # Lo       ARABIC LIGATURE SEEN WITH HEH INITIAL FORM
FD32          ; NFKC_CF; 0634 0647      # Lo       ARABIC LIGATURE SHEEN WITH HEH INITIAL FORM
FD33          ; NFKC_CF; 0637 0645      # Lo       ARABIC LIGATURE TAH WITH MEEM INITIAL FORM
FD34          ; NFKC_CF; 0633 062C      # Lo       ARABIC LIGATURE SEEN WITH JEEM MEDIAL FORM
FD35          ; NFKC_CF; 0633 062D      # Lo       ARABIC LIGATURE SEEN WITH HAH MEDIAL FORM
FD36          ; NFKC_CF; 0633 062E      # Lo       ARABIC LIGATURE SEEN WITH KHAH MEDIAL FORM
FD37          ; NFKC_CF; 0634 062C      # Lo       ARABIC LIGATURE SHEEN WITH JEEM MEDIAL FORM
FD38          ; NFKC_CF; 0634 062D      # Lo       ARABIC LIGATURE SHEEN WITH HAH MEDIAL FORM
FD39          ; NFKC_CF; 0634 062E      # Lo       ARABIC LIGATURE SHEEN WITH KHAH MEDIAL FORM
FD3A          ; NFKC_CF; 0637 0645      # Lo       ARABIC LIGATURE TAH WITH MEEM MEDIAL FORM
FD3B          ; NFKC_CF; 0638 0645      # Lo       ARABIC LIGATURE ZAH WITH MEEM MEDIAL FORM
FD3C..FD3D    ; NFKC_CF; 0627 064B      # Lo   [2] ARABIC LIGATURE ALEF WITH FATHATAN FINAL FORM..ARABIC LIGATURE ALEF WITH FATHATAN ISOLATED FORM
FD50          ; NFKC_CF; 062A 062C 0645 # Lo       ARABIC LIGATURE TEH WITH JEEM WITH MEEM INITIAL FORM
FD51..FD52    ; NFKC_CF; 062A 062D 062C # Lo   [2] ARABIC LIGATURE TEH WITH HAH WITH JEEM FINAL FORM..ARABIC LIGATURE TEH WITH HAH WITH JEEM INITIAL FORM
FD53          ; NFKC_CF; 062A 062D 0645 # Lo       ARABIC LIGATURE TEH WITH HAH WITH MEEM INITIAL FORM
FD54          ; NFKC_CF; 062A 062E 0645 # Lo       ARABIC LIGATURE TEH WITH KHAH WITH MEEM INITIAL FORM
FD55          ; NFKC_CF; 062A 0645 062C # Lo       ARABIC LIGATURE TEH WITH MEEM WITH JEEM INITIAL FORM
"%string.
Definition props_text_316 := "FD56          ; NFKC_CF; 062A 0645 062D # Lo       ARABIC LIGATURE TEH WITH MEEM WITH HAH INITIAL FORM
FD57          ; NFKC_CF; 062A 0645 062E # Lo       ARABIC LIGATURE TEH WITH MEEM WITH KHAH INITIAL FORM
FD58..FD59    ; NFKC_CF; 062C 0645 062D # Lo   [2] ARABIC LIGATURE JEEM WITH MEEM WITH HAH FINAL FORM..ARABIC LIGATURE JEEM WITH MEEM WITH HAH INITIAL FORM
FD5A          ; NFKC_CF; 062D 0645 064A # Lo       ARABIC LIGATURE HAH WITH MEEM WITH YEH FINAL FORM
FD5B          ; NFKC_CF; 062D 0645 0649 # Lo       ARABIC LIGATURE HAH WITH MEEM WITH ALEF MAKSURA FINAL FORM
FD5C          ; NFKC_CF; 0633 062D 062C # Lo       ARABIC LIGATURE SEEN WITH HAH WITH JEEM INITIAL FORM
FD5D          ; NFKC_CF; 0633 062C 062D # Lo       ARABIC LIGATURE SEEN WITH JEEM WITH HAH INITIAL FORM
FD5E          ; NFKC_CF; 0633 062C 0649 # Lo       ARABIC LIGATURE SEEN WITH JEEM WITH ALEF MAKSURA FINAL FORM
FD5F..FD60    ; NFKC_CF; 0633 0645 062D # Lo   [2] ARABIC LIGATURE SEEN WITH MEEM WITH HAH FINAL FORM..ARABIC LIGATURE SEEN WITH MEEM WITH HAH INITIAL FORM
FD61          ; NFKC_CF; 0633 0645 062C # Lo       ARABIC LIGATURE SEEN WITH MEEM WITH JEEM INITIAL FORM
FD62..FD63    ; NFKC_CF; 0633 0645 0645 # Lo   [2] ARABIC LIGATURE SEEN WITH MEEM WITH MEEM FINAL FORM..ARABIC LIGATURE SEEN WITH MEEM WITH MEEM INITIAL FORM
FD64..FD65    ; NFKC_CF; 0635 062D 062D # Lo   [2] ARABIC LIGATURE SAD WITH HAH WITH HAH FINAL FORM..ARABIC LIGATURE SAD WITH HAH WITH HAH INITIAL FORM
FD66          ; NFKC_CF; 0635 0645 0645 # Lo       ARABIC LIGATURE SAD WITH MEEM WITH MEEM FINAL FORM
FD67..FD68    ; NFKC_CF; 0634 062D 0645 # Lo   [2] ARABIC LIGATURE SHEEN WITH HAH WITH MEEM FINAL FORM..ARABIC LIGATURE SHEEN WITH HAH WITH MEEM INITIAL FORM
FD69          ; NFKC_CF; 0634 062C 064A # Lo       ARABIC LIGATURE SHEEN WITH JEEM WITH YEH FINAL FORM
FD6A..FD6B    ; NFKC_CF; 0634 0645 062E # Lo   [2] ARABIC LIGATURE SHEEN WITH MEEM WITH KHAH FINAL FORM..ARABIC LIGATURE SHEEN WITH MEEM WITH KHAH INITIAL FORM
FD6C..FD6D    ; NFKC_CF; 0634 0645 0645 # Lo   [2] ARABIC LIGATURE SHEEN WITH MEEM WITH MEEM FINAL FORM..ARABIC LIGATURE SHEEN WITH MEEM WITH MEEM INITIAL FORM
FD6E          ; NFKC_CF; 0636 062D 0649 # Lo       ARABIC LIGATURE DAD WITH HAH WITH ALEF MAKSURA FINAL FORM
FD6F..FD70    ; NFKC_CF; 0636 062E 0645 # Lo   [2] ARABIC LIGATURE DAD WITH KHAH WITH MEEM FINAL FORM..ARABIC LIGATURE DAD WITH KHAH WITH MEEM INITIAL FORM
FD71..FD72    ; NFKC_CF; 0637 0645 062D # Lo   [2] ARABIC LIGATURE TAH WITH MEEM WITH HAH FINAL FORM..ARABIC LIGATURE TAH WITH MEEM WITH HAH INITIAL FORM
"%string.
Definition props_text_317 := "FD73          ; NFKC_CF; 0637 0645 0645 # Lo       ARABIC LIGATURE TAH WITH MEEM WITH MEEM INITIAL FORM
FD74          ; NFKC_CF; 0637 0645 064A # Lo       ARABIC LIGATURE TAH WITH MEEM WITH YEH FINAL FORM
FD75          ; NFKC_CF; 0639 062C 0645 # Lo       ARABIC LIGATURE AIN WITH JEEM WITH MEEM FINAL FORM
FD76..FD77    ; NFKC_CF; 0639 0645 0645 # Lo   [2] ARABIC LIGATURE AIN WITH MEEM WITH MEEM FINAL FORM..ARABIC LIGATURE AIN WITH MEEM WITH MEEM INITIAL FORM
FD78          ; NFKC_CF; 0639 0645 0649 # Lo       ARABIC LIGATURE AIN WITH MEEM WITH ALEF MAKSURA FINAL FORM
FD79          ; NFKC_CF; 063A 0645 0645 # Lo       ARABIC LIGATURE GHAIN WITH MEEM WITH MEEM FINAL FORM
FD7A          ; NFKC_CF; 063A 0645 064A # Lo       ARABIC LIGATURE GHAIN WITH MEEM WITH YEH FINAL FORM
FD7B          ; NFKC_CF; 063A 0645 0649 # Lo       ARABIC LIGATURE GHAIN WITH MEEM WITH ALEF MAKSURA FINAL FORM
FD7C..FD7D    ; NFKC_CF; 0641 062E 0645 # Lo   [2] ARABIC LIGATURE FEH WITH KHAH WITH MEEM FINAL FORM..ARABIC LIGATURE FEH WITH KHAH WITH MEEM INITIAL FORM
FD7E          ; NFKC_CF; 0642 0645 062D # Lo       ARABIC LIGATURE QAF WITH MEEM WITH HAH FINAL FORM
FD7F          ; NFKC_CF; 0642 0645 0645 # Lo       ARABIC LIGATURE QAF WITH MEEM WITH MEEM FINAL FORM
FD80          ; NFKC_CF; 0644 062D 0645 # Lo       ARABIC LIGATURE LAM WITH HAH WITH MEEM FINAL FORM
FD81          ; NFKC_CF; 0644 062D 064A # Lo       ARABIC LIGATURE LAM WITH HAH WITH YEH FINAL FORM
FD82          ; NFKC_CF; 0644 062D 0649 # Lo       ARABIC LIGATURE LAM WITH HAH WITH ALEF MAKSURA FINAL FORM
FD83..FD84    ; NFKC_CF; 0644 062C 062C # Lo   [2] ARABIC LIGATURE LAM WITH JEEM WITH JEEM INITIAL FORM..ARABIC LIGATURE LAM WITH JEEM WITH JEEM FINAL FORM
FD85..FD86    ; NFKC_CF; 0644 062E 0645 # Lo   [2] ARABIC LIGATURE LAM WITH KHAH WITH MEEM FINAL FORM..ARABIC LIGATURE LAM WITH KHAH WITH MEEM INITIAL FORM
FD87..FD88    ; NFKC_CF; 0644 0645 062D # Lo   [2] ARABIC LIGATURE LAM WITH MEEM WITH HAH FINAL FORM..ARABIC LIGATURE LAM WITH MEEM WITH HAH INITIAL FORM
FD89          ; NFKC_CF; 0645 062D 062C # Lo       ARABIC LIGATURE MEEM WITH HAH WITH JEEM INITIAL FORM
FD8A          ; NFKC_CF; 0645 062D 0645 # Lo       ARABIC LIGATURE MEEM WITH HAH WITH MEEM INITIAL FORM
FD8B          ; NFKC_CF; 0645 062D 064A # Lo       ARABIC LIGATURE MEEM WITH HAH WITH YEH FINAL FORM
"%string.
Definition props_text_318 := "FD8C          ; NFKC_CF; 0645 062C 062D # Lo       ARABIC LIGATURE MEEM WITH JEEM WITH HAH INITIAL FORM
FD8D          ; NFKC_CF; 0645 062C 0645 # Lo       ARABIC LIGATURE MEEM WITH JEEM WITH MEEM INITIAL FORM
FD8E          ; NFKC_CF; 0645 062E 062C # Lo       ARABIC LIGATURE MEEM WITH KHAH WITH JEEM INITIAL FORM
FD8F          ; NFKC_CF; 0645 062E 0645 # Lo       ARABIC LIGATURE MEEM WITH KHAH WITH MEEM INITIAL FORM
FD92          ; NFKC_CF; 0645 062C 062E # Lo       ARABIC LIGATURE MEEM WITH JEEM WITH KHAH INITIAL FORM
FD93          ; NFKC_CF; 0647 0645 062C # Lo       ARABIC LIGATURE HEH WITH MEEM WITH JEEM INITIAL FORM
FD94          ; NFKC_CF; 0647 0645 0645 # Lo       ARABIC LIGATURE HEH WITH MEEM WITH MEEM INITIAL FORM
FD95          ; NFKC_CF; 0646 062D 0645 # Lo       ARABIC LIGATURE NOON WITH HAH WITH MEEM INITIAL FORM
FD96          ; NFKC_CF; 0646 062D 0649 # Lo       ARABIC LIGATURE NOON WITH HAH WITH ALEF MAKSURA FINAL FORM
FD97..FD98    ; NFKC_CF; 0646 062C 0645 # Lo   [2] ARABIC LIGATURE NOON WITH JEEM WITH MEEM FINAL FORM..ARABIC LIGATURE NOON WITH JEEM WITH MEEM INITIAL FORM
FD99          ; NFKC_CF; 0646 062C 0649 # Lo       ARABIC LIGATURE NOON WITH JEEM WITH ALEF MAKSURA FINAL FORM
FD9A          ; NFKC_CF; 0646 0645 064A # Lo       ARABIC LIGATURE NOON WITH MEEM WITH YEH FINAL FORM
FD9B          ; NFKC_CF; 0646 0645 0649 # Lo       ARABIC LIGATURE NOON WITH MEEM WITH ALEF MAKSURA FINAL FORM
FD9C..FD9D    ; NFKC_CF; 064A 0645 0645 # Lo   [2] ARABIC LIGATURE YEH WITH MEEM WITH MEEM FINAL FORM..ARABIC LIGATURE YEH WITH MEEM WITH MEEM INITIAL FORM
FD9E          ; NFKC_CF; 0628 062E 064A # Lo       ARABIC LIGATURE BEH WITH KHAH WITH YEH FINAL FORM
FD9F          ; NFKC_CF; 062A 062C 064A # Lo       ARABIC LIGATURE TEH WITH JEEM WITH YEH FINAL FORM
FDA0          ; NFKC_CF; 062A 062C 0649 # Lo       ARABIC LIGATURE TEH WITH JEEM WITH ALEF MAKSURA FINAL FORM
FDA1          ; NFKC_CF; 062A 062E 064A # Lo       ARABIC LIGATURE TEH WITH KHAH WITH YEH FINAL FORM
FDA2          ; NFKC_CF; 062A 062E 0649 # Lo       ARABIC LIGATURE TEH WITH KHAH WITH ALEF MAKSURA FINAL FORM
FDA3          ; NFKC_CF; 062A 0645 064A # Lo       ARABIC LIGATURE TEH WITH MEEM WITH YEH FINAL FORM
"%string.
Definition props_text_319 := "FDA4          ; NFKC_CF; 062A 0645 0649 # Lo       ARABIC LIGATURE TEH WITH MEEM WITH ALEF MAKSURA FINAL FORM
FDA5          ; NFKC_CF; 062C 0645 064A # Lo       ARABIC LIGATURE JEEM WITH MEEM WITH YEH FINAL FORM
FDA6          ; NFKC_CF; 062C 062D 0649 # Lo       ARABIC LIGATURE JEEM WITH HAH WITH ALEF MAKSURA FINAL FORM
FDA7          ; NFKC_CF; 062C 0645 0649 # Lo       ARABIC LIGATURE JEEM WITH MEEM WITH ALEF MAKSURA FINAL FORM
FDA8          ; NFKC_CF; 0633 062E 0649 # Lo       ARABIC LIGATURE SEEN WITH KHAH WITH ALEF MAKSURA FINAL FORM
FDA9          ; NFKC_CF; 0635 062D 064A # Lo       ARABIC LIGATURE SAD WITH HAH WITH YEH FINAL FORM
FDAA          ; NFKC_CF; 0634 062D 064A # Lo       ARABIC LIGATURE SHEEN WITH HAH WITH YEH FINAL FORM
FDAB          ; NFKC_CF; 0636 062D 064A # Lo       ARABIC LIGATURE DAD WITH HAH WITH YEH FINAL FORM
FDAC          ; NFKC_CF; 0644 062C 064A # Lo       ARABIC LIGATURE LAM WITH JEEM WITH YEH FINAL FORM
FDAD          ; NFKC_CF; 0644 0645 064A # Lo       ARABIC LIGATURE LAM WITH MEEM WITH YEH FINAL FORM
FDAE          ; NFKC_CF; 064A 062D 064A # Lo       ARABIC LIGATURE YEH WITH HAH WITH YEH FINAL FORM
FDAF          ; NFKC_CF; 064A 062C 064A # Lo       ARABIC LIGATURE YEH WITH JEEM WITH YEH FINAL FORM
FDB0          ; NFKC_CF; 064A 0645 064A # Lo       ARABIC LIGATURE YEH WITH MEEM WITH YEH FINAL FORM
FDB1          ; NFKC_CF; 0645 0645 064A # Lo       ARABIC LIGATURE MEEM WITH MEEM WITH YEH FINAL FORM
FDB2          ; NFKC_CF; 0642 0645 064A # Lo       ARABIC LIGATURE QAF WITH MEEM WITH YEH FINAL FORM
FDB3          ; NFKC_CF; 0646 062D 064A # Lo       ARABIC LIGATURE NOON WITH HAH WITH YEH FINAL FORM
FDB4          ; NFKC_CF; 0642 0645 062D # Lo       ARABIC LIGATURE QAF WITH MEEM WITH HAH INITIAL FORM
FDB5          ; NFKC_CF; 0644 062D 0645 # Lo       ARABIC LIGATURE LAM WITH HAH WITH MEEM INITIAL FORM
FDB6          ; NFKC_CF; 0639 0645 064A # Lo       ARABIC LIGATURE AIN WITH MEEM WITH YEH FINAL FORM
FDB7          ; NFKC_CF; 0643 0645 064A # Lo       ARABIC LIGATURE KAF WITH MEEM WITH YEH FINAL FORM
"%string.
Definition props_text_320 := "FDB8          ; NFKC_CF; 0646 062C 062D # Lo       ARABIC LIGATURE NOON WITH JEEM WITH HAH INITIAL FORM
FDB9          ; NFKC_CF; 0645 062E 064A # Lo       ARABIC LIGATURE MEEM WITH KHAH WITH YEH FINAL FORM
FDBA          ; NFKC_CF; 0644 062C 0645 # Lo       ARABIC LIGATURE LAM WITH JEEM WITH MEEM INITIAL FORM
FDBB          ; NFKC_CF; 0643 0645 0645 # Lo       ARABIC LIGATURE KAF WITH MEEM WITH MEEM FINAL FORM
FDBC          ; NFKC_CF; 0644 062C 0645 # Lo       ARABIC LIGATURE LAM WITH JEEM WITH MEEM FINAL FORM
FDBD          ; NFKC_CF; 0646 062C 062D # Lo       ARABIC LIGATURE NOON WITH JEEM WITH HAH FINAL FORM
FDBE          ; NFKC_CF; 062C 062D 064A # Lo       ARABIC LIGATURE JEEM WITH HAH WITH YEH FINAL FORM
FDBF          ; NFKC_CF; 062D 062C 064A # Lo       ARABIC LIGATURE HAH WITH JEEM WITH YEH FINAL FORM
FDC0          ; NFKC_CF; 0645 062C 064A # Lo       ARABIC LIGATURE MEEM WITH JEEM WITH YEH FINAL FORM
FDC1          ; NFKC_CF; 0641 0645 064A # Lo       ARABIC LIGATURE FEH WITH MEEM WITH YEH FINAL FORM
FDC2          ; NFKC_CF; 0628 062D 064A # Lo       ARABIC LIGATURE BEH WITH HAH WITH YEH FINAL FORM
FDC3          ; NFKC_CF; 0643 0645 0645 # Lo       ARABIC LIGATURE KAF WITH MEEM WITH MEEM INITIAL FORM
FDC4          ; NFKC_CF; 0639 062C 0645 # Lo       ARABIC LIGATURE AIN WITH JEEM WITH MEEM INITIAL FORM
FDC5          ; NFKC_CF; 0635 0645 0645 # Lo       ARABIC LIGATURE SAD WITH MEEM WITH MEEM INITIAL FORM
FDC6          ; NFKC_CF; 0633 062E 064A # Lo       ARABIC LIGATURE SEEN WITH KHAH WITH YEH FINAL FORM
FDC7          ; NFKC_CF; 0646 062C 064A # Lo       ARABIC LIGATURE NOON WITH JEEM WITH YEH FINAL FORM
FDF0          ; NFKC_CF; 0635 0644 06D2 # Lo       ARABIC LIGATURE SALLA USED AS KORANIC STOP SIGN ISOLATED FORM
FDF1          ; NFKC_CF; 0642 0644 06D2 # Lo       ARABIC LIGATURE QALA USED AS KORANIC STOP SIGN ISOLATED FORM
FDF2          ; NFKC_CF; 0627 0644 0644 0647 #Lo   ARABIC LIGATURE ALLAH ISOLATED FORM
FDF3          ; NFKC_CF; 0627 0643 0628 0631 #Lo   ARABIC LIGATURE AKBAR ISOLATED FORM
"%string.
Definition props_text_321 := "FDF4          ; NFKC_CF; 0645 062D 0645 062F #Lo   ARABIC LIGATURE MOHAMMAD ISOLATED FORM
FDF5          ; NFKC_CF; 0635 0644 0639 0645 #Lo   ARABIC LIGATURE SALAM ISOLATED FORM
FDF6          ; NFKC_CF; 0631 0633 0648 0644 #Lo   ARABIC LIGATURE RASOUL ISOLATED FORM
FDF7          ; NFKC_CF; 0639 0644 064A 0647 #Lo   ARABIC LIGATURE ALAYHE ISOLATED FORM
FDF8          ; NFKC_CF; 0648 0633 0644 0645 #Lo   ARABIC LIGATURE WASALLAM ISOLATED FORM
FDF9          ; NFKC_CF; 0635 0644 0649 # Lo       ARABIC LIGATURE SALLA ISOLATED FORM
FDFA          ; NFKC_CF; 0635 0644 0649 0020 0627 0644 0644 0647 0020 0639 0644 064A 0647 0020 0648 0633 0644 0645 #Lo ARABIC LIGATURE SALLALLAHOU ALAYHE WASALLAM
FDFB          ; NFKC_CF; 062C 0644 0020 062C 0644 0627 0644 0647 #Lo ARABIC LIGATURE JALLAJALALOUHOU
FDFC          ; NFKC_CF; 0631 06CC 0627 0644 #Sc   RIAL SIGN
FE00..FE0F    ; NFKC_CF;                # Mn  [16] VARIATION SELECTOR-1..VARIATION SELECTOR-16
FE10          ; NFKC_CF; 002C           # Po       PRESENTATION FORM FOR VERTICAL COMMA
FE11          ; NFKC_CF; 3001           # Po       PRESENTATION FORM FOR VERTICAL IDEOGRAPHIC COMMA
FE12          ; NFKC_CF; 3002           # Po       PRESENTATION FORM FOR VERTICAL IDEOGRAPHIC FULL STOP
FE13          ; NFKC_CF; 003A           # Po       PRESENTATION FORM FOR VERTICAL COLON
FE14          ; NFKC_CF; 003B           # Po       PRESENTATION FORM FOR VERTICAL SEMICOLON
FE15          ; NFKC_CF; 0021           # Po       PRESENTATION FORM FOR VERTICAL EXCLAMATION MARK
FE16          ; NFKC_CF; 003F           # Po       PRESENTATION FORM FOR VERTICAL QUESTION MARK
FE17          ; NFKC_CF; 3016           # Ps       PRESENTATION FORM FOR VERTICAL LEFT WHITE LENTICULAR BRACKET
FE18          ; NFKC_CF; 3017           # Pe       PRESENTATION FORM FOR VERTICAL RIGHT WHITE LENTICULAR BRAKCET
FE19          ; NFKC_CF; 002E 002E 002E # Po       PRESENTATION FORM FOR VERTICAL HORIZONTAL ELLIPSIS
"%string.
Definition props_text_322 := "FE30          ; NFKC_CF; 002E 002E      # Po       PRESENTATION FORM FOR VERTICAL TWO DOT LEADER
FE31          ; NFKC_CF; 2014           # Pd       PRESENTATION FORM FOR VERTICAL EM DASH
FE32          ; NFKC_CF; 2013           # Pd       PRESENTATION FORM FOR VERTICAL EN DASH
FE33..FE34    ; NFKC_CF; 005F           # Pc   [2] PRESENTATION FORM FOR VERTICAL LOW LINE..PRESENTATION FORM FOR VERTICAL WAVY LOW LINE
FE35          ; NFKC_CF; 0028           # Ps       PRESENTATION FORM FOR VERTICAL LEFT PARENTHESIS
FE36          ; NFKC_CF; 0029           # Pe       PRESENTATION FORM FOR VERTICAL RIGHT PARENTHESIS
FE37          ; NFKC_CF; 007B           # Ps       PRESENTATION FORM FOR VERTICAL LEFT CURLY BRACKET
FE38          ; NFKC_CF; 007D           # Pe       PRESENTATION FORM FOR VERTICAL RIGHT CURLY BRACKET
FE39          ; NFKC_CF; 3014           # Ps       PRESENTATION FORM FOR VERTICAL LEFT TORTOISE SHELL BRACKET
FE3A          ; NFKC_CF; 3015           # Pe       PRESENTATION FORM FOR VERTICAL RIGHT TORTOISE SHELL BRACKET
FE3B          ; NFKC_CF; 3010           # Ps       PRESENTATION FORM FOR VERTICAL LEFT BLACK LENTICULAR BRACKET
FE3C          ; NFKC_CF; 3011           # Pe       PRESENTATION FORM FOR VERTICAL RIGHT BLACK LENTICULAR BRACKET
FE3D          ; NFKC_CF; 300A           # Ps       PRESENTATION FORM FOR VERTICAL LEFT DOUBLE ANGLE BRACKET
FE3E          ; NFKC_CF; 300B           # Pe       PRESENTATION FORM FOR VERTICAL RIGHT DOUBLE ANGLE BRACKET
FE3F          ; NFKC_CF; 3008           # Ps       PRESENTATION FORM FOR VERTICAL LEFT ANGLE BRACKET
FE40          ; NFKC_CF; 3009           # Pe       PRESENTATION FORM FOR VERTICAL RIGHT ANGLE BRACKET
FE41          ; NFKC_CF; 300C           # Ps       PRESENTATION FORM FOR VERTICAL LEFT CORNER BRACKET
FE42          ; NFKC_CF; 300D           # Pe       PRESENTATION FORM FOR VERTICAL RIGHT CORNER BRACKET
FE43          ; NFKC_CF; 300E           # Ps       PRESENTATION FORM FOR VERTICAL LEFT WHITE CORNER BRACKET
FE44          ; NFKC_CF; 300F           # Pe       PRESENTATION FORM FOR VERTICAL RIGHT WHITE CORNER BRACKET
"%string.
Definition props_text_323 := "FE47          ; NFKC_CF; 005B           # Ps       PRESENTATION FORM FOR VERTICAL LEFT SQUARE BRACKET
FE48          ; NFKC_CF; 005D           # Pe       PRESENTATION FORM FOR VERTICAL RIGHT SQUARE BRACKET
FE49..FE4C    ; NFKC_CF; 0020 0305      # Po   [4] DASHED OVERLINE..DOUBLE WAVY OVERLINE
FE4D..FE4F    ; NFKC_CF; 005F           # Pc   [3] DASHED LOW LINE..WAVY LOW LINE
FE50          ; NFKC_CF; 002C           # Po       SMALL COMMA
FE51          ; NFKC_CF; 3001           # Po       SMALL IDEOGRAPHIC COMMA
FE52          ; NFKC_CF; 002E           # Po       SMALL FULL STOP
FE54          ; NFKC_CF; 003B           # Po       SMALL SEMICOLON
FE55          ; NFKC_CF; 003A           # Po       SMALL COLON
FE56          ; NFKC_CF; 003F           # Po       SMALL QUESTION MARK
FE57          ; NFKC_CF; 0021           # Po       SMALL EXCLAMATION MARK
FE58          ; NFKC_CF; 2014           # Pd       SMALL EM DASH
FE59          ; NFKC_CF; 0028           # Ps       SMALL LEFT PARENTHESIS
FE5A          ; NFKC_CF; 0029           # Pe       SMALL RIGHT PARENTHESIS
FE5B          ; NFKC_CF; 007B           # Ps       SMALL LEFT CURLY BRACKET
FE5C          ; NFKC_CF; 007D           # Pe       SMALL RIGHT CURLY BRACKET
FE5D          ; NFKC_CF; 3014           # Ps       SMALL LEFT TORTOISE SHELL BRACKET
FE5E          ; NFKC_CF; 3015           # Pe       SMALL RIGHT TORTOISE SHELL BRACKET
FE5F          ; NFKC_CF; 0023           # Po       SMALL NUMBER SIGN
FE60          ; NFKC_CF; 0026           # Po       SMALL AMPERSAND
"%string.
Definition props_text_324 := "FE61          ; NFKC_CF; 002A           # Po       SMALL ASTERISK
FE62          ; NFKC_CF; 002B           # Sm       SMALL PLUS SIGN
FE63          ; NFKC_CF; 002D           # Pd       SMALL HYPHEN-MINUS
FE64          ; NFKC_CF; 003C           # Sm       SMALL LESS-THAN SIGN
FE65          ; NFKC_CF; 003E           # Sm       SMALL GREATER-THAN SIGN
FE66          ; NFKC_CF; 003D           # Sm       SMALL EQUALS SIGN
FE68          ; NFKC_CF; 005C           # Po       SMALL REVERSE SOLIDUS
FE69          ; NFKC_CF; 0024           # Sc       SMALL DOLLAR SIGN
FE6A          ; NFKC_CF; 0025           # Po       SMALL PERCENT SIGN
FE6B          ; NFKC_CF; 0040           # Po       SMALL COMMERCIAL AT
FE70          ; NFKC_CF; 0020 064B      # Lo       ARABIC FATHATAN ISOLATED FORM
FE71          ; NFKC_CF; 0640 064B      # Lo       ARABIC TATWEEL WITH FATHATAN ABOVE
FE72          ; NFKC_CF; 0020 064C      # Lo       ARABIC DAMMATAN ISOLATED FORM
FE74          ; NFKC_CF; 0020 064D      # Lo       ARABIC KASRATAN ISOLATED FORM
FE76          ; NFKC_CF; 0020 064E      # Lo       ARABIC FATHA ISOLATED FORM
FE77          ; NFKC_CF; 0640 064E      # Lo       ARABIC FATHA MEDIAL FORM
FE78          ; NFKC_CF; 0020 064F      # Lo       ARABIC DAMMA ISOLATED FORM
FE79          ; NFKC_CF; 0640 064F      # Lo       ARABIC DAMMA MEDIAL FORM
FE7A          ; NFKC_CF; 0020 0650      # Lo       ARABIC KASRA ISOLATED FORM
FE7B          ; NFKC_CF; 0640 0650      # Lo       ARABIC KASRA MEDIAL FORM
"%string.
Definition props_text_325 := "FE7C          ; NFKC_CF; 0020 0651      # Lo       ARABIC SHADDA ISOLATED FORM
FE7D          ; NFKC_CF; 0640 0651      # Lo       ARABIC SHADDA MEDIAL FORM
FE7E          ; NFKC_CF; 0020 0652      # Lo       ARABIC SUKUN ISOLATED FORM
FE7F          ; NFKC_CF; 0640 0652      # Lo       ARABIC SUKUN MEDIAL FORM
FE80          ; NFKC_CF; 0621           # Lo       ARABIC LETTER HAMZA ISOLATED FORM
FE81..FE82    ; NFKC_CF; 0622           # Lo   [2] ARABIC LETTER ALEF WITH MADDA ABOVE ISOLATED FORM..ARABIC LETTER ALEF WITH MADDA ABOVE FINAL FORM
FE83..FE84    ; NFKC_CF; 0623           # Lo   [2] ARABIC LETTER ALEF WITH HAMZA ABOVE ISOLATED FORM..ARABIC LETTER ALEF WITH HAMZA ABOVE FINAL FORM
FE85..FE86    ; NFKC_CF; 0624           # Lo   [2] ARABIC LETTER WAW WITH HAMZA ABOVE ISOLATED FORM..ARABIC LETTER WAW WITH HAMZA ABOVE FINAL FORM
FE87..FE88    ; NFKC_CF; 0625           # Lo   [2] ARABIC LETTER ALEF WITH HAMZA BELOW ISOLATED FORM..ARABIC LETTER ALEF WITH HAMZA BELOW FINAL FORM
FE89..FE8C    ; NFKC_CF; 0626           # Lo   [4] ARABIC LETTER YEH WITH HAMZA ABOVE ISOLATED FORM..ARABIC LETTER YEH WITH HAMZA ABOVE MEDIAL FORM
FE8D..FE8E    ; NFKC_CF; 0627           # Lo   [2] ARABIC LETTER ALEF ISOLATED FORM..ARABIC LETTER ALEF FINAL FORM
FE8F..FE92    ; NFKC_CF; 0628           # Lo   [4] ARABIC LETTER BEH ISOLATED FORM..ARABIC LETTER BEH MEDIAL FORM
FE93..FE94    ; NFKC_CF; 0629           # Lo   [2] ARABIC LETTER TEH MARBUTA ISOLATED FORM..ARABIC LETTER TEH MARBUTA FINAL FORM
FE95..FE98    ; NFKC_CF; 062A           # Lo   [4] ARABIC LETTER TEH ISOLATED FORM..ARABIC LETTER TEH MEDIAL FORM
FE99..FE9C    ; NFKC_CF; 062B           # Lo   [4] ARABIC LETTER THEH ISOLATED FORM..ARABIC LETTER THEH MEDIAL FORM
FE9D..FEA0    ; NFKC_CF; 062C           # Lo   [4] ARABIC LETTER JEEM ISOLATED FORM..ARABIC LETTER JEEM MEDIAL FORM
FEA1..FEA4    ; NFKC_CF; 062D           # Lo   [4] ARABIC LETTER HAH ISOLATED FORM..ARABIC LETTER HAH MEDIAL FORM
FEA5..FEA8    ; NFKC_CF; 062E           # Lo   [4] ARABIC LETTER KHAH ISOLATED FORM..ARABIC LETTER KHAH MEDIAL FORM
FEA9..FEAA    ; NFKC_CF; 062F           # Lo   [2] ARABIC LETTER DAL ISOLATED FORM..ARABIC LETTER DAL FINAL FORM
FEAB..FEAC    ; NFKC_CF; 0630           # Lo   [2] ARABIC LETTER THAL ISOLATED FORM..ARABIC LETTER THAL FINAL FORM
"%string.
Definition props_text_326 := "FEAD..FEAE    ; NFKC_CF; 0631           # Lo   [2] ARABIC LETTER REH ISOLATED FORM..ARABIC LETTER REH FINAL FORM
FEAF..FEB0    ; NFKC_CF; 0632           # Lo   [2] ARABIC LETTER ZAIN ISOLATED FORM..ARABIC LETTER ZAIN FINAL FORM
FEB1..FEB4    ; NFKC_CF; 0633           # Lo   [4] ARABIC LETTER SEEN ISOLATED FORM..ARABIC LETTER SEEN MEDIAL FORM
FEB5..FEB8    ; NFKC_CF; 0634           # Lo   [4] ARABIC LETTER SHEEN ISOLATED FORM..ARABIC LETTER SHEEN MEDIAL FORM
FEB9..FEBC    ; NFKC_CF; 0635           # Lo   [4] ARABIC LETTER SAD ISOLATED FORM..ARABIC LETTER SAD MEDIAL FORM
FEBD..FEC0    ; NFKC_CF; 0636           # Lo   [4] ARABIC LETTER DAD ISOLATED FORM..ARABIC LETTER DAD MEDIAL FORM
FEC1..FEC4    ; NFKC_CF; 0637           # Lo   [4] ARABIC LETTER TAH ISOLATED FORM..ARABIC LETTER TAH MEDIAL FORM
FEC5..FEC8    ; NFKC_CF; 0638           # Lo   [4] ARABIC LETTER ZAH ISOLATED FORM..ARABIC LETTER ZAH MEDIAL FORM
FEC9..FECC    ; NFKC_CF; 0639           # Lo   [4] ARABIC LETTER AIN ISOLATED FORM..ARABIC LETTER AIN MEDIAL FORM
FECD..FED0    ; NFKC_CF; 063A           # Lo   [4] ARABIC LETTER GHAIN ISOLATED FORM..ARABIC LETTER GHAIN MEDIAL FORM
FED1..FED4    ; NFKC_CF; 0641           # Lo   [4] ARABIC LETTER FEH ISOLATED FORM..ARABIC LETTER FEH MEDIAL FORM
FED5..FED8    ; NFKC_CF; 0642           # Lo   [4] ARABIC LETTER QAF ISOLATED FORM..ARABIC LETTER QAF MEDIAL FORM
FED9..FEDC    ; NFKC_CF; 0643           # Lo   [4] ARABIC LETTER KAF ISOLATED FORM..ARABIC LETTER KAF MEDIAL FORM
FEDD..FEE0    ; NFKC_CF; 0644           # Lo   [4] ARABIC LETTER LAM ISOLATED FORM..ARABIC LETTER LAM MEDIAL FORM
FEE1..FEE4    ; NFKC_CF; 0645           # Lo   [4] ARABIC LETTER MEEM ISOLATED FORM..ARABIC LETTER MEEM MEDIAL FORM
FEE5..FEE8    ; NFKC_CF; 0646           # Lo   [4] ARABIC LETTER NOON ISOLATED FORM..ARABIC LETTER NOON MEDIAL FORM
FEE9..FEEC    ; NFKC_CF; 0647           # Lo   [4] ARABIC LETTER HEH ISOLATED FORM..ARABIC LETTER HEH MEDIAL FORM
FEED..FEEE    ; NFKC_CF; 0648           # Lo   [2] ARABIC LETTER WAW ISOLATED FORM..ARABIC LETTER WAW FINAL FORM
FEEF..FEF0    ; NFKC_CF; 0649           # Lo   [2] ARABIC LETTER ALEF MAKSURA ISOLATED FORM..ARABIC LETTER ALEF MAKSURA FINAL FORM
FEF1..FEF4    ; NFKC_CF; 064A           # Lo   [4] ARABIC LETTER YEH ISOLATED FORM..ARABIC LETTER YEH MEDIAL FORM
"%string.
Definition props_text_327 := "FEF5..FEF6    ; NFKC_CF; 0644 0622      # Lo   [2] ARABIC LIGATURE LAM WITH ALEF WITH MADDA ABOVE ISOLATED FORM..ARABIC LIGATURE LAM WITH ALEF WITH MADDA ABOVE FINAL FORM
FEF7..FEF8    ; NFKC_CF; 0644 0623      # Lo   [2] ARABIC LIGATURE LAM WITH ALEF WITH HAMZA ABOVE ISOLATED FORM..ARABIC LIGATURE LAM WITH ALEF WITH HAMZA ABOVE FINAL FORM
FEF9..FEFA    ; NFKC_CF; 0644 0625      # Lo   [2] ARABIC LIGATURE LAM WITH ALEF WITH HAMZA BELOW ISOLATED FORM..ARABIC LIGATURE LAM WITH ALEF WITH HAMZA BELOW FINAL FORM
FEFB..FEFC    ; NFKC_CF; 0644 0627      # Lo   [2] ARABIC LIGATURE LAM WITH ALEF ISOLATED FORM..ARABIC LIGATURE LAM WITH ALEF FINAL FORM
FEFF          ; NFKC_CF;                # Cf       ZERO WIDTH NO-BREAK SPACE
FF01          ; NFKC_CF; 0021           # Po       FULLWIDTH EXCLAMATION MARK
FF02          ; NFKC_CF; 0022           # Po       FULLWIDTH QUOTATION MARK
FF03          ; NFKC_CF; 0023           # Po       FULLWIDTH NUMBER SIGN
FF04          ; NFKC_CF; 0024           # Sc       FULLWIDTH DOLLAR SIGN
FF05          ; NFKC_CF; 0025           # Po       FULLWIDTH PERCENT SIGN
FF06          ; NFKC_CF; 0026           # Po       FULLWIDTH AMPERSAND
FF07          ; NFKC_CF; 0027           # Po       FULLWIDTH APOSTROPHE
FF08          ; NFKC_CF; 0028           # Ps       FULLWIDTH LEFT PARENTHESIS
FF09          ; NFKC_CF; 0029           # Pe       FULLWIDTH RIGHT PARENTHESIS
FF0A          ; NFKC_CF; 002A           # Po       FULLWIDTH ASTERISK
FF0B          ; NFKC_CF; 002B           # Sm       FULLWIDTH PLUS SIGN
FF0C          ; NFKC_CF; 002C           # Po       FULLWIDTH COMMA
FF0D          ; NFKC_CF; 002D           # Pd       FULLWIDTH HYPHEN-MINUS
FF0E          ; NFKC_CF; 002E           # Po       FULLWIDTH FULL STOP
FF0F          ; NFKC_CF; 002F           # Po       FULLWIDTH SOLIDUS
"%string.
Definition props_text_328 := "FF10          ; NFKC_CF; 0030           # Nd       FULLWIDTH DIGIT ZERO
FF11          ; NFKC_CF; 0031           # Nd       FULLWIDTH DIGIT ONE
FF12          ; NFKC_CF; 0032           # Nd       FULLWIDTH DIGIT TWO
FF13          ; NFKC_CF; 0033           # Nd       FULLWIDTH DIGIT THREE
FF14          ; NFKC_CF; 0034           # Nd       FULLWIDTH DIGIT FOUR
FF15          ; NFKC_CF; 0035           # Nd       FULLWIDTH DIGIT FIVE
FF16          ; NFKC_CF; 0036           # Nd       FULLWIDTH DIGIT SIX
FF17          ; NFKC_CF; 0037           # Nd       FULLWIDTH DIGIT SEVEN
FF18          ; NFKC_CF; 0038           # Nd       FULLWIDTH DIGIT EIGHT
FF19          ; NFKC_CF; 0039           # Nd       FULLWIDTH DIGIT NINE
FF1A          ; NFKC_CF; 003A           # Po       FULLWIDTH COLON
FF1B          ; NFKC_CF; 003B           # Po       FULLWIDTH SEMICOLON
FF1C          ; NFKC_CF; 003C           # Sm       FULLWIDTH LESS-THAN SIGN
FF1D          ; NFKC_CF; 003D           # Sm       FULLWIDTH EQUALS SIGN
FF1E          ; NFKC_CF; 003E           # Sm       FULLWIDTH GREATER-THAN SIGN
FF1F          ; NFKC_CF; 003F           # Po       FULLWIDTH QUESTION MARK
FF20          ; NFKC_CF; 0040           # Po       FULLWIDTH COMMERCIAL AT
FF21          ; NFKC_CF; 0061           # L&       FULLWIDTH LATIN CAPITAL LETTER A
FF22          ; NFKC_CF; 0062           # L&       FULLWIDTH LATIN CAPITAL LETTER B
FF23          ; NFKC_CF; 0063           # L&       FULLWIDTH LATIN CAPITAL LETTER C
"%string.
Definition props_text_329 := "FF24          ; NFKC_CF; 0064           # L&       FULLWIDTH LATIN CAPITAL LETTER D
FF25          ; NFKC_CF; 0065           # L&       FULLWIDTH LATIN CAPITAL LETTER E
FF26          ; NFKC_CF; 0066           # L&       FULLWIDTH LATIN CAPITAL LETTER F
FF27          ; NFKC_CF; 0067           # L&       FULLWIDTH LATIN CAPITAL LETTER G
FF28          ; NFKC_CF; 0068           # L&       FULLWIDTH LATIN CAPITAL LETTER H
FF29          ; NFKC_CF; 0069           # L&       FULLWIDTH LATIN CAPITAL LETTER I
FF2A          ; NFKC_CF; 006A           # L&       FULLWIDTH LATIN CAPITAL LETTER J
FF2B          ; NFKC_CF; 006B           # L&       FULLWIDTH LATIN CAPITAL LETTER K
FF2C          ; NFKC_CF; 006C           # L&       FULLWIDTH LATIN CAPITAL LETTER L
FF2D          ; NFKC_CF; 006D           # L&       FULLWIDTH LATIN CAPITAL LETTER M
FF2E          ; NFKC_CF; 006E           # L&       FULLWIDTH LATIN CAPITAL LETTER N
FF2F          ; NFKC_CF; 006F           # L&       FULLWIDTH LATIN CAPITAL LETTER O
FF30          ; NFKC_CF; 0070           # L&       FULLWIDTH LATIN CAPITAL LETTER P
FF31          ; NFKC_CF; 0071           # L&       FULLWIDTH LATIN CAPITAL LETTER Q
FF32          ; NFKC_CF; 0072           # L&       FULLWIDTH LATIN CAPITAL LETTER R
FF33          ; NFKC_CF; 0073           # L&       FULLWIDTH LATIN CAPITAL LETTER S
FF34          ; NFKC_CF; 0074           # L&       FULLWIDTH LATIN CAPITAL LETTER T
FF35          ; NFKC_CF; 0075           # L&       FULLWIDTH LATIN CAPITAL LETTER U
FF36          ; NFKC_CF; 0076           # L&       FULLWIDTH LATIN CAPITAL LETTER V
FF37          ; NFKC_CF; 0077           # L&       FULLWIDTH LATIN CAPITAL LETTER W
"%string.
Definition props_text_330 := "FF38          ; NFKC_CF; 0078           # L&       FULLWIDTH LATIN CAPITAL LETTER X
FF39          ; NFKC_CF; 0079           # L&       FULLWIDTH LATIN CAPITAL LETTER Y
FF3A          ; NFKC_CF; 007A           # L&       FULLWIDTH LATIN CAPITAL LETTER Z
FF3B          ; NFKC_CF; 005B           # Ps       FULLWIDTH LEFT SQUARE BRACKET
FF3C          ; NFKC_CF; 005C           # Po       FULLWIDTH REVERSE SOLIDUS
FF3D          ; NFKC_CF; 005D           # Pe       FULLWIDTH RIGHT SQUARE BRACKET
FF3E          ; NFKC_CF; 005E           # Sk       FULLWIDTH CIRCUMFLEX ACCENT
FF3F          ; NFKC_CF; 005F           # Pc       FULLWIDTH LOW LINE
FF40          ; NFKC_CF; 0060           # Sk       FULLWIDTH GRAVE ACCENT
FF41          ; NFKC_CF; 0061           # L&       FULLWIDTH LATIN SMALL LETTER A
FF42          ; NFKC_CF; 0062           # L&       FULLWIDTH LATIN SMALL LETTER B
FF43          ; NFKC_CF; 0063           # L&       FULLWIDTH LATIN SMALL LETTER C
FF44          ; NFKC_CF; 0064           # L&       FULLWIDTH LATIN SMALL LETTER D
FF45          ; NFKC_CF; 0065           # L&       FULLWIDTH LATIN SMALL LETTER E
FF46          ; NFKC_CF; 0066           # L&       FULLWIDTH LATIN SMALL LETTER F
FF47          ; NFKC_CF; 0067           # L&       FULLWIDTH LATIN SMALL LETTER G
FF48          ; NFKC_CF; 0068           # L&       FULLWIDTH LATIN SMALL LETTER H
FF49          ; NFKC_CF; 0069           # L&       FULLWIDTH LATIN SMALL LETTER I
FF4A          ; NFKC_CF; 006A           # L&       FULLWIDTH LATIN SMALL LETTER J
FF4B          ; NFKC_CF; 006B           # L&       FULLWIDTH LATIN SMALL LETTER K
"%string.
Definition props_text_331 := "FF4C          ; NFKC_CF; 006C           # L&       FULLWIDTH LATIN SMALL LETTER L
FF4D          ; NFKC_CF; 006D           # L&       FULLWIDTH LATIN SMALL LETTER M
FF4E          ; NFKC_CF; 006E           # L&       FULLWIDTH LATIN SMALL LETTER N
FF4F          ; NFKC_CF; 006F           # L&       FULLWIDTH LATIN SMALL LETTER O
FF50          ; NFKC_CF; 0070           # L&       FULLWIDTH LATIN SMALL LETTER P
FF51          ; NFKC_CF; 0071           # L&       FULLWIDTH LATIN SMALL LETTER Q
FF52          ; NFKC_CF; 0072           # L&       FULLWIDTH LATIN SMALL LETTER R
FF53          ; NFKC_CF; 0073           # L&       FULLWIDTH LATIN SMALL LETTER S
FF54          ; NFKC_CF; 0074           # L&       FULLWIDTH LATIN SMALL LETTER T
FF55          ; NFKC_CF; 0075           # L&       FULLWIDTH LATIN SMALL LETTER U
FF56          ; NFKC_CF; 0076           # L&       FULLWIDTH LATIN SMALL LETTER V
FF57          ; NFKC_CF; 0077           # L&       FULLWIDTH LATIN SMALL LETTER W
FF58          ; NFKC_CF; 0078           # L&       FULLWIDTH LATIN SMALL LETTER X
FF59          ; NFKC_CF; 0079           # L&       FULLWIDTH LATIN SMALL LETTER Y
FF5A          ; NFKC_CF; 007A           # L&       FULLWIDTH LATIN SMALL LETTER Z
FF5B          ; NFKC_CF; 007B           # Ps       FULLWIDTH LEFT CURLY BRACKET
FF5C          ; NFKC_CF; 007C           # Sm       FULLWIDTH VERTICAL LINE
FF5D          ; NFKC_CF; 007D           # Pe       FULLWIDTH RIGHT CURLY BRACKET
FF5E          ; NFKC_CF; 007E           # Sm       FULLWIDTH TILDE
FF5F          ; NFKC_CF; 2985           # Ps       FULLWIDTH LEFT WHITE PARENTHESIS
"%string.
Definition props_text_332 := "FF60          ; NFKC_CF; 2986           # Pe       FULLWIDTH RIGHT WHITE PARENTHESIS
FF61          ; NFKC_CF; 3002           # Po       HALFWIDTH IDEOGRAPHIC FULL STOP
FF62          ; NFKC_CF; 300C           # Ps       HALFWIDTH LEFT CORNER BRACKET
FF63          ; NFKC_CF; 300D           # Pe       HALFWIDTH RIGHT CORNER BRACKET
FF64          ; NFKC_CF; 3001           # Po       HALFWIDTH IDEOGRAPHIC COMMA
FF65          ; NFKC_CF; 30FB           # Po       HALFWIDTH KATAKANA MIDDLE DOT
FF66          ; NFKC_CF; 30F2           # Lo       HALFWIDTH KATAKANA LETTER WO
FF67          ; NFKC_CF; 30A1           # Lo       HALFWIDTH KATAKANA LETTER SMALL A
FF68          ; NFKC_CF; 30A3           # Lo       HALFWIDTH KATAKANA LETTER SMALL I
FF69          ; NFKC_CF; 30A5           # Lo       HALFWIDTH KATAKANA LETTER SMALL U
FF6A          ; NFKC_CF; 30A7           # Lo       HALFWIDTH KATAKANA LETTER SMALL E
FF6B          ; NFKC_CF; 30A9           # Lo       HALFWIDTH KATAKANA LETTER SMALL O
FF6C          ; NFKC_CF; 30E3           # Lo       HALFWIDTH KATAKANA LETTER SMALL YA
FF6D          ; NFKC_CF; 30E5           # Lo       HALFWIDTH KATAKANA LETTER SMALL YU
FF6E          ; NFKC_CF; 30E7           # Lo       HALFWIDTH KATAKANA LETTER SMALL YO
FF6F          ; NFKC_CF; 30C3           # Lo       HALFWIDTH KATAKANA LETTER SMALL TU
FF70          ; NFKC_CF; 30FC           # Lm       HALFWIDTH KATAKANA-HIRAGANA PROLONGED SOUND MARK
FF71          ; NFKC_CF; 30A2           # Lo       HALFWIDTH KATAKANA LETTER A
FF72          ; NFKC_CF; 30A4           # Lo       HALFWIDTH KATAKANA LETTER I
FF73          ; NFKC_CF; 30A6           # Lo       HALFWIDTH KATAKANA LETTER U
"%string.
Definition props_text_333 := "FF74          ; NFKC_CF; 30A8           # Lo       HALFWIDTH KATAKANA LETTER E
FF75          ; NFKC_CF; 30AA           # Lo       HALFWIDTH KATAKANA LETTER O
FF76          ; NFKC_CF; 30AB           # Lo       HALFWIDTH KATAKANA LETTER KA
FF77          ; NFKC_CF; 30AD           # Lo       HALFWIDTH KATAKANA LETTER KI
FF78          ; NFKC_CF; 30AF           # Lo       HALFWIDTH KATAKANA LETTER KU
FF79          ; NFKC_CF; 30B1           # Lo       HALFWIDTH KATAKANA LETTER KE
FF7A          ; NFKC_CF; 30B3           # Lo       HALFWIDTH KATAKANA LETTER KO
FF7B          ; NFKC_CF; 30B5           # Lo       HALFWIDTH KATAKANA LETTER SA
FF7C          ; NFKC_CF; 30B7           # Lo       HALFWIDTH KATAKANA LETTER SI
FF7D          ; NFKC_CF; 30B9           # Lo       HALFWIDTH KATAKANA LETTER SU
FF7E          ; NFKC_CF; 30BB           # Lo       HALFWIDTH KATAKANA LETTER SE
FF7F          ; NFKC_CF; 30BD           # Lo       HALFWIDTH KATAKANA LETTER SO
FF80          ; NFKC_CF; 30BF           # Lo       HALFWIDTH KATAKANA LETTER TA
FF81          ; NFKC_CF; 30C1           # Lo       HALFWIDTH KATAKANA LETTER TI
FF82          ; NFKC_CF; 30C4           # Lo       HALFWIDTH KATAKANA LETTER TU
FF83          ; NFKC_CF; 30C6           # Lo       HALFWIDTH KATAKANA LETTER TE
FF84          ; NFKC_CF; 30C8           # Lo       HALFWIDTH KATAKANA LETTER TO
FF85          ; NFKC_CF; 30CA           # Lo       HALFWIDTH KATAKANA LETTER NA
FF86          ; NFKC_CF; 30CB           # Lo       HALFWIDTH KATAKANA LETTER NI
FF87          ; NFKC_CF; 30CC           # Lo       HALFWIDTH KATAKANA LETTER NU
"%string.
Definition props_text_334 := "FF88          ; NFKC_CF; 30CD           # Lo       HALFWIDTH KATAKANA LETTER NE
FF89          ; NFKC_CF; 30CE           # Lo       HALFWIDTH KATAKANA LETTER NO
FF8A          ; NFKC_CF; 30CF           # Lo       HALFWIDTH KATAKANA LETTER HA
FF8B          ; NFKC_CF; 30D2           # Lo       HALFWIDTH KATAKANA LETTER HI
FF8C          ; NFKC_CF; 30D5           # Lo       HALFWIDTH KATAKANA LETTER HU
FF8D          ; NFKC_CF; 30D8           # Lo       HALFWIDTH KATAKANA LETTER HE
FF8E          ; NFKC_CF; 30DB           # Lo       HALFWIDTH KATAKANA LETTER HO
FF8F          ; NFKC_CF; 30DE           # Lo       HALFWIDTH KATAKANA LETTER MA
FF90          ; NFKC_CF; 30DF           # Lo       HALFWIDTH KATAKANA LETTER MI
FF91          ; NFKC_CF; 30E0           # Lo       HALFWIDTH KATAKANA LETTER MU
FF92          ; NFKC_CF; 30E1           # Lo       HALFWIDTH KATAKANA LETTER ME
FF93          ; NFKC_CF; 30E2           # Lo       HALFWIDTH KATAKANA LETTER MO
FF94          ; NFKC_CF; 30E4           # Lo       HALFWIDTH KATAKANA LETTER YA
FF95          ; NFKC_CF; 30E6           # Lo       HALFWIDTH KATAKANA LETTER YU
FF96          ; NFKC_CF; 30E8           # Lo       HALFWIDTH KATAKANA LETTER YO
FF97          ; NFKC_CF; 30E9           # Lo       HALFWIDTH KATAKANA LETTER RA
FF98          ; NFKC_CF; 30EA           # Lo       HALFWIDTH KATAKANA LETTER RI
FF99          ; NFKC_CF; 30EB           # Lo       HALFWIDTH KATAKANA LETTER RU
FF9A          ; NFKC_CF; 30EC           # Lo       HALFWIDTH KATAKANA LETTER RE
FF9B          ; NFKC_CF; 30ED           # Lo       HALFWIDTH KATAKANA LETTER RO
"%string.
Definition props_text_335 := "FF9C          ; NFKC_CF; 30EF           # Lo       HALFWIDTH KATAKANA LETTER WA
FF9D          ; NFKC_CF; 30F3           # Lo       HALFWIDTH KATAKANA LETTER N
FF9E          ; NFKC_CF; 3099           # Lm       HALFWIDTH KATAKANA VOICED SOUND MARK
FF9F          ; NFKC_CF; 309A           # Lm       HALFWIDTH KATAKANA SEMI-VOICED SOUND MARK
FFA0          ; NFKC_CF;                # Lo       HALFWIDTH HANGUL FILLER
FFA1          ; NFKC_CF; 1100           # Lo       HALFWIDTH HANGUL LETTER KIYEOK
FFA2          ; NFKC_CF; 1101           # Lo       HALFWIDTH HANGUL LETTER SSANGKIYEOK
FFA3          ; NFKC_CF; 11AA           # Lo       HALFWIDTH HANGUL LETTER KIYEOK-SIOS
FFA4          ; NFKC_CF; 1102           # Lo       HALFWIDTH HANGUL LETTER NIEUN
FFA5          ; NFKC_CF; 11AC           # Lo       HALFWIDTH HANGUL LETTER NIEUN-CIEUC
FFA6          ; NFKC_CF; 11AD           # Lo       HALFWIDTH HANGUL LETTER NIEUN-HIEUH
FFA7          ; NFKC_CF; 1103           # Lo       HALFWIDTH HANGUL LETTER TIKEUT
FFA8          ; NFKC_CF; 1104           # Lo       HALFWIDTH HANGUL LETTER SSANGTIKEUT
FFA9          ; NFKC_CF; 1105           # Lo       HALFWIDTH HANGUL LETTER RIEUL
FFAA          ; NFKC_CF; 11B0           # Lo       HALFWIDTH HANGUL LETTER RIEUL-KIYEOK
FFAB          ; NFKC_CF; 11B1           # Lo       HALFWIDTH HANGUL LETTER RIEUL-MIEUM
FFAC          ; NFKC_CF; 11B2           # Lo       HALFWIDTH HANGUL LETTER RIEUL-PIEUP
FFAD          ; NFKC_CF; 11B3           # Lo       HALFWIDTH HANGUL LETTER RIEUL-SIOS
FFAE          ; NFKC_CF; 11B4           # Lo       HALFWIDTH HANGUL LETTER RIEUL-THIEUTH
FFAF          ; NFKC_CF; 11B5           # Lo       HALFWIDTH HANGUL LETTER RIEUL-PHIEUPH
"%string.
Definition props_text_336 := "FFB0          ; NFKC_CF; 111A           # Lo       HALFWIDTH HANGUL LETTER RIEUL-HIEUH
FFB1          ; NFKC_CF; 1106           # Lo       HALFWIDTH HANGUL LETTER MIEUM
FFB2          ; NFKC_CF; 1107           # Lo       HALFWIDTH HANGUL LETTER PIEUP
FFB3          ; NFKC_CF; 1108           # Lo       HALFWIDTH HANGUL LETTER SSANGPIEUP
FFB4          ; NFKC_CF; 1121           # Lo       HALFWIDTH HANGUL LETTER PIEUP-SIOS
FFB5          ; NFKC_CF; 1109           # Lo       HALFWIDTH HANGUL LETTER SIOS
FFB6          ; NFKC_CF; 110A           # Lo       HALFWIDTH HANGUL LETTER SSANGSIOS
FFB7          ; NFKC_CF; 110B           # Lo       HALFWIDTH HANGUL LETTER IEUNG
FFB8          ; NFKC_CF; 110C           # Lo       HALFWIDTH HANGUL LETTER CIEUC
FFB9          ; NFKC_CF; 110D           # Lo       HALFWIDTH HANGUL LETTER SSANGCIEUC
FFBA          ; NFKC_CF; 110E           # Lo       HALFWIDTH HANGUL LETTER CHIEUCH
FFBB          ; NFKC_CF; 110F           # Lo       HALFWIDTH HANGUL LETTER KHIEUKH
FFBC          ; NFKC_CF; 1110           # Lo       HALFWIDTH HANGUL LETTER THIEUTH
FFBD          ; NFKC_CF; 1111           # Lo       HALFWIDTH HANGUL LETTER PHIEUPH
FFBE          ; NFKC_CF; 1112           # Lo       HALFWIDTH HANGUL LETTER HIEUH
FFC2          ; NFKC_CF; 1161           # Lo       HALFWIDTH HANGUL LETTER A
FFC3          ; NFKC_CF; 1162           # Lo       HALFWIDTH HANGUL LETTER AE
FFC4          ; NFKC_CF; 1163           # Lo       HALFWIDTH HANGUL LETTER YA
FFC5          ; NFKC_CF; 1164           # Lo       HALFWIDTH HANGUL LETTER YAE
FFC6          ; NFKC_CF; 1165           # Lo       HALFWIDTH HANGUL LETTER EO
"%string.
Definition props_text_337 := "FFC7          ; NFKC_CF; 1166           # Lo       HALFWIDTH HANGUL LETTER E
FFCA          ; NFKC_CF; 1167           # Lo       HALFWIDTH HANGUL LETTER YEO
FFCB          ; NFKC_CF; 1168           # Lo       HALFWIDTH HANGUL LETTER YE
FFCC          ; NFKC_CF; 1169           # Lo       HALFWIDTH HANGUL LETTER O
FFCD          ; NFKC_CF; 116A           # Lo       HALFWIDTH HANGUL LETTER WA
FFCE          ; NFKC_CF; 116B           # Lo       HALFWIDTH HANGUL LETTER WAE
FFCF          ; NFKC_CF; 116C           # Lo       HALFWIDTH HANGUL LETTER OE
FFD2          ; NFKC_CF; 116D           # Lo       HALFWIDTH HANGUL LETTER YO
FFD3          ; NFKC_CF; 116E           # Lo       HALFWIDTH HANGUL LETTER U
FFD4          ; NFKC_CF; 116F           # Lo       HALFWIDTH HANGUL LETTER WEO
FFD5          ; NFKC_CF; 1170           # Lo       HALFWIDTH HANGUL LETTER WE
FFD6          ; NFKC_CF; 1171           # Lo       HALFWIDTH HANGUL LETTER WI
FFD7          ; NFKC_CF; 1172           # Lo       HALFWIDTH HANGUL LETTER YU
FFDA          ; NFKC_CF; 1173           # Lo       HALFWIDTH HANGUL LETTER EU
FFDB          ; NFKC_CF; 1174           # Lo       HALFWIDTH HANGUL LETTER YI
FFDC          ; NFKC_CF; 1175           # Lo       HALFWIDTH HANGUL LETTER I
FFE0          ; NFKC_CF; 00A2           # Sc       FULLWIDTH CENT SIGN
FFE1          ; NFKC_CF; 00A3           # Sc       FULLWIDTH POUND SIGN
FFE2          ; NFKC_CF; 00AC           # Sm       FULLWIDTH NOT SIGN
FFE3          ; NFKC_CF; 0020 0304      # Sk       FULLWIDTH MACRON
"%string.
Definition props_text_338 := "FFE4          ; NFKC_CF; 00A6           # So       FULLWIDTH BROKEN BAR
FFE5          ; NFKC_CF; 00A5           # Sc       FULLWIDTH YEN SIGN
FFE6          ; NFKC_CF; 20A9           # Sc       FULLWIDTH WON SIGN
FFE8          ; NFKC_CF; 2502           # So       HALFWIDTH FORMS LIGHT VERTICAL
FFE9          ; NFKC_CF; 2190           # Sm       HALFWIDTH LEFTWARDS ARROW
FFEA          ; NFKC_CF; 2191           # Sm       HALFWIDTH UPWARDS ARROW
FFEB          ; NFKC_CF; 2192           # Sm       HALFWIDTH RIGHTWARDS ARROW
FFEC          ; NFKC_CF; 2193           # Sm       HALFWIDTH DOWNWARDS ARROW
FFED          ; NFKC_CF; 25A0           # So       HALFWIDTH BLACK SQUARE
FFEE          ; NFKC_CF; 25CB           # So       HALFWIDTH WHITE CIRCLE
FFF0..FFF8    ; NFKC_CF;                # Cn   [9] <reserved-FFF0>..<reserved-FFF8>
10400         ; NFKC_CF; 10428          # L&       DESERET CAPITAL LETTER LONG I
10401         ; NFKC_CF; 10429          # L&       DESERET CAPITAL LETTER LONG E
10402         ; NFKC_CF; 1042A          # L&       DESERET CAPITAL LETTER LONG A
10403         ; NFKC_CF; 1042B          # L&       DESERET CAPITAL LETTER LONG AH
10404         ; NFKC_CF; 1042C          # L&       DESERET CAPITAL LETTER LONG O
10405         ; NFKC_CF; 1042D          # L&       DESERET CAPITAL LETTER LONG OO
10406         ; NFKC_CF; 1042E          # L&       DESERET CAPITAL LETTER SHORT I
10407         ; NFKC_CF; 1042F          # L&       DESERET CAPITAL LETTER SHORT E
10408         ; NFKC_CF; 10430          # L&       DESERET CAPITAL LETTER SHORT A
"%string.
Definition props_text_339 := "10409         ; NFKC_CF; 10431          # L&       DESERET CAPITAL LETTER SHORT AH
1040A         ; NFKC_CF; 10432          # L&       DESERET CAPITAL LETTER SHORT O
1040B         ; NFKC_CF; 10433          # L&       DESERET CAPITAL LETTER SHORT OO
1040C         ; NFKC_CF; 10434          # L&       DESERET CAPITAL LETTER AY
1040D         ; NFKC_CF; 10435          # L&       DESERET CAPITAL LETTER OW
1040E         ; NFKC_CF; 10436          # L&       DESERET CAPITAL LETTER WU
1040F         ; NFKC_CF; 10437          # L&       DESERET CAPITAL LETTER YEE
10410         ; NFKC_CF; 10438          # L&       DESERET CAPITAL LETTER H
10411         ; NFKC_CF; 10439          # L&       DESERET CAPITAL LETTER PEE
10412         ; NFKC_CF; 1043A          # L&       DESERET CAPITAL LETTER BEE
10413         ; NFKC_CF; 1043B          # L&       DESERET CAPITAL LETTER TEE
10414         ; NFKC_CF; 1043C          # L&       DESERET CAPITAL LETTER DEE
10415         ; NFKC_CF; 1043D          # L&       DESERET CAPITAL LETTER CHEE
10416         ; NFKC_CF; 1043E          # L&       DESERET CAPITAL LETTER JEE
10417         ; NFKC_CF; 1043F          # L&       DESERET CAPITAL LETTER KAY
10418         ; NFKC_CF; 10440          # L&       DESERET CAPITAL LETTER GAY
10419         ; NFKC_CF; 10441          # L&       DESERET CAPITAL LETTER EF
1041A         ; NFKC_CF; 10442          # L&       DESERET CAPITAL LETTER VEE
1041B         ; NFKC_CF; 10443          # L&       DESERET CAPITAL LETTER ETH
1041C         ; NFKC_CF; 10444          # L&       DESERET CAPITAL LETTER THEE
"%string.
Definition props_text_340 := "1041D         ; NFKC_CF; 10445          # L&       DESERET CAPITAL LETTER ES
1041E         ; NFKC_CF; 10446          # L&       DESERET CAPITAL LETTER ZEE
1041F         ; NFKC_CF; 10447          # L&       DESERET CAPITAL LETTER ESH
10420         ; NFKC_CF; 10448          # L&       DESERET CAPITAL LETTER ZHEE
10421         ; NFKC_CF; 10449          # L&       DESERET CAPITAL LETTER ER
10422         ; NFKC_CF; 1044A          # L&       DESERET CAPITAL LETTER EL
10423         ; NFKC_CF; 1044B          # L&       DESERET CAPITAL LETTER EM
10424         ; NFKC_CF; 1044C          # L&       DESERET CAPITAL LETTER EN
10425         ; NFKC_CF; 1044D          # L&       DESERET CAPITAL LETTER ENG
10426         ; NFKC_CF; 1044E          # L&       DESERET CAPITAL LETTER OI
10427         ; NFKC_CF; 1044F          # L&       DESERET CAPITAL LETTER EW
104B0         ; NFKC_CF; 104D8          # L&       OSAGE CAPITAL LETTER A
104B1         ; NFKC_CF; 104D9          # L&       OSAGE CAPITAL LETTER AI
104B2         ; NFKC_CF; 104DA          # L&       OSAGE CAPITAL LETTER AIN
104B3         ; NFKC_CF; 104DB          # L&       OSAGE CAPITAL LETTER AH
104B4         ; NFKC_CF; 104DC          # L&       OSAGE CAPITAL LETTER BRA
104B5         ; NFKC_CF; 104DD          # L&       OSAGE CAPITAL LETTER CHA
104B6         ; NFKC_CF; 104DE          # L&       OSAGE CAPITAL LETTER EHCHA
104B7         ; NFKC_CF; 104DF          # L&       OSAGE CAPITAL LETTER E
104B8         ; NFKC_CF; 104E0          # L&       OSAGE CAPITAL LETTER EIN
"%string.
Definition props_text_341 := "104B9         ; NFKC_CF; 104E1          # L&       OSAGE CAPITAL LETTER HA
104BA         ; NFKC_CF; 104E2          # L&       OSAGE CAPITAL LETTER HYA
104BB         ; NFKC_CF; 104E3          # L&       OSAGE CAPITAL LETTER I
104BC         ; NFKC_CF; 104E4          # L&       OSAGE CAPITAL LETTER KA
104BD         ; NFKC_CF; 104E5          # L&       OSAGE CAPITAL LETTER EHKA
104BE         ; NFKC_CF; 104E6          # L&       OSAGE CAPITAL LETTER KYA
104BF         ; NFKC_CF; 104E7          # L&       OSAGE CAPITAL LETTER LA
104C0         ; NFKC_CF; 104E8          # L&       OSAGE CAPITAL LETTER MA
104C1         ; NFKC_CF; 104E9          # L&       OSAGE CAPITAL LETTER NA
104C2         ; NFKC_CF; 104EA          # L&       OSAGE CAPITAL LETTER O
104C3         ; NFKC_CF; 104EB          # L&       OSAGE CAPITAL LETTER OIN
104C4         ; NFKC_CF; 104EC          # L&       OSAGE CAPITAL LETTER PA
104C5         ; NFKC_CF; 104ED          # L&       OSAGE CAPITAL LETTER EHPA
104C6         ; NFKC_CF; 104EE          # L&       OSAGE CAPITAL LETTER SA
104C7         ; NFKC_CF; 104EF          # L&       OSAGE CAPITAL LETTER SHA
104C8         ; NFKC_CF; 104F0          # L&       OSAGE CAPITAL LETTER TA
104C9         ; NFKC_CF; 104F1          # L&       OSAGE CAPITAL LETTER EHTA
104CA         ; NFKC_CF; 104F2          # L&       OSAGE CAPITAL LETTER TSA
104CB         ; NFKC_CF; 104F3          # L&       OSAGE CAPITAL LETTER EHTSA
104CC         ; NFKC_CF; 104F4          # L&       OSAGE CAPITAL LETTER TSHA
"%string.
Definition props_text_342 := "104CD         ; NFKC_CF; 104F5          # L&       OSAGE CAPITAL LETTER DHA
104CE         ; NFKC_CF; 104F6          # L&       OSAGE CAPITAL LETTER U
104CF         ; NFKC_CF; 104F7          # L&       OSAGE CAPITAL LETTER WA
104D0         ; NFKC_CF; 104F8          # L&       OSAGE CAPITAL LETTER KHA
104D1         ; NFKC_CF; 104F9          # L&       OSAGE CAPITAL LETTER GHA
104D2         ; NFKC_CF; 104FA          # L&       OSAGE CAPITAL LETTER ZA
104D3         ; NFKC_CF; 104FB          # L&       OSAGE CAPITAL LETTER ZHA
10C80         ; NFKC_CF; 10CC0          # L&       OLD HUNGARIAN CAPITAL LETTER A
10C81         ; NFKC_CF; 10CC1          # L&       OLD HUNGARIAN CAPITAL LETTER AA
10C82         ; NFKC_CF; 10CC2          # L&       OLD HUNGARIAN CAPITAL LETTER EB
10C83         ; NFKC_CF; 10CC3          # L&       OLD HUNGARIAN CAPITAL LETTER AMB
10C84         ; NFKC_CF; 10CC4          # L&       OLD HUNGARIAN CAPITAL LETTER EC
10C85         ; NFKC_CF; 10CC5          # L&       OLD HUNGARIAN CAPITAL LETTER ENC
10C86         ; NFKC_CF; 10CC6          # L&       OLD HUNGARIAN CAPITAL LETTER ECS
10C87         ; NFKC_CF; 10CC7          # L&       OLD HUNGARIAN CAPITAL LETTER ED
10C88         ; NFKC_CF; 10CC8          # L&       OLD HUNGARIAN CAPITAL LETTER AND
10C89         ; NFKC_CF; 10CC9          # L&       OLD HUNGARIAN CAPITAL LETTER E
10C8A         ; NFKC_CF; 10CCA          # L&       OLD HUNGARIAN CAPITAL LETTER CLOSE E
10C8B         ; NFKC_CF; 10CCB          # L&       OLD HUNGARIAN CAPITAL LETTER EE
10C8C         ; NFKC_CF; 10CCC          # L&       OLD HUNGARIAN CAPITAL LETTER EF
"%string.
Definition props_text_343 := "10C8D         ; NFKC_CF; 10CCD          # L&       OLD HUNGARIAN CAPITAL LETTER EG
10C8E         ; NFKC_CF; 10CCE          # L&       OLD HUNGARIAN CAPITAL LETTER EGY
10C8F         ; NFKC_CF; 10CCF          # L&       OLD HUNGARIAN CAPITAL LETTER EH
10C90         ; NFKC_CF; 10CD0          # L&       OLD HUNGARIAN CAPITAL LETTER I
10C91         ; NFKC_CF; 10CD1          # L&       OLD HUNGARIAN CAPITAL LETTER II
10C92         ; NFKC_CF; 10CD2          # L&       OLD HUNGARIAN CAPITAL LETTER EJ
10C93         ; NFKC_CF; 10CD3          # L&       OLD HUNGARIAN CAPITAL LETTER EK
10C94         ; NFKC_CF; 10CD4          # L&       OLD HUNGARIAN CAPITAL LETTER AK
10C95         ; NFKC_CF; 10CD5          # L&       OLD HUNGARIAN CAPITAL LETTER UNK
10C96         ; NFKC_CF; 10CD6          # L&       OLD HUNGARIAN CAPITAL LETTER EL
10C97         ; NFKC_CF; 10CD7          # L&       OLD HUNGARIAN CAPITAL LETTER ELY
10C98         ; NFKC_CF; 10CD8          # L&       OLD HUNGARIAN CAPITAL LETTER EM
10C99         ; NFKC_CF; 10CD9          # L&       OLD HUNGARIAN CAPITAL LETTER EN
10C9A         ; NFKC_CF; 10CDA          # L&       OLD HUNGARIAN CAPITAL LETTER ENY
10C9B         ; NFKC_CF; 10CDB          # L&       OLD HUNGARIAN CAPITAL LETTER O
10C9C         ; NFKC_CF; 10CDC          # L&       OLD HUNGARIAN CAPITAL LETTER OO
10C9D         ; NFKC_CF; 10CDD          # L&       OLD HUNGARIAN CAPITAL LETTER NIKOLSBURG OE
10C9E         ; NFKC_CF; 10CDE          # L&       OLD HUNGARIAN CAPITAL LETTER RUDIMENTA OE
10C9F         ; NFKC_CF; 10CDF          # L&       OLD HUNGARIAN CAPITAL LETTER OEE
10CA0         ; NFKC_CF; 10CE0          # L&       OLD HUNGARIAN CAPITAL LETTER EP
"%string.
Definition props_text_344 := "10CA1         ; NFKC_CF; 10CE1          # L&       OLD HUNGARIAN CAPITAL LETTER EMP
10CA2         ; NFKC_CF; 10CE2          # L&       OLD HUNGARIAN CAPITAL LETTER ER
10CA3         ; NFKC_CF; 10CE3          # L&       OLD HUNGARIAN CAPITAL LETTER SHORT ER
10CA4         ; NFKC_CF; 10CE4          # L&       OLD HUNGARIAN CAPITAL LETTER ES
10CA5         ; NFKC_CF; 10CE5          # L&       OLD HUNGARIAN CAPITAL LETTER ESZ
10CA6         ; NFKC_CF; 10CE6          # L&       OLD HUNGARIAN CAPITAL LETTER ET
10CA7         ; NFKC_CF; 10CE7          # L&       OLD HUNGARIAN CAPITAL LETTER ENT
10CA8         ; NFKC_CF; 10CE8          # L&       OLD HUNGARIAN CAPITAL LETTER ETY
10CA9         ; NFKC_CF; 10CE9          # L&       OLD HUNGARIAN CAPITAL LETTER ECH
10CAA         ; NFKC_CF; 10CEA          # L&       OLD HUNGARIAN CAPITAL LETTER U
10CAB         ; NFKC_CF; 10CEB          # L&       OLD HUNGARIAN CAPITAL LETTER UU
10CAC         ; NFKC_CF; 10CEC          # L&       OLD HUNGARIAN CAPITAL LETTER NIKOLSBURG UE
10CAD         ; NFKC_CF; 10CED          # L&       OLD HUNGARIAN CAPITAL LETTER RUDIMENTA UE
10CAE         ; NFKC_CF; 10CEE          # L&       OLD HUNGARIAN CAPITAL LETTER EV
10CAF         ; NFKC_CF; 10CEF          # L&       OLD HUNGARIAN CAPITAL LETTER EZ
10CB0         ; NFKC_CF; 10CF0          # L&       OLD HUNGARIAN CAPITAL LETTER EZS
10CB1         ; NFKC_CF; 10CF1          # L&       OLD HUNGARIAN CAPITAL LETTER ENT-SHAPED SIGN
10CB2         ; NFKC_CF; 10CF2          # L&       OLD HUNGARIAN CAPITAL LETTER US
118A0         ; NFKC_CF; 118C0          # L&       WARANG CITI CAPITAL LETTER NGAA
118A1         ; NFKC_CF; 118C1          # L&       WARANG CITI CAPITAL LETTER A
"%string.
Definition props_text_345 := "118A2         ; NFKC_CF; 118C2          # L&       WARANG CITI CAPITAL LETTER WI
118A3         ; NFKC_CF; 118C3          # L&       WARANG CITI CAPITAL LETTER YU
118A4         ; NFKC_CF; 118C4          # L&       WARANG CITI CAPITAL LETTER YA
118A5         ; NFKC_CF; 118C5          # L&       WARANG CITI CAPITAL LETTER YO
118A6         ; NFKC_CF; 118C6          # L&       WARANG CITI CAPITAL LETTER II
118A7         ; NFKC_CF; 118C7          # L&       WARANG CITI CAPITAL LETTER UU
118A8         ; NFKC_CF; 118C8          # L&       WARANG CITI CAPITAL LETTER E
118A9         ; NFKC_CF; 118C9          # L&       WARANG CITI CAPITAL LETTER O
118AA         ; NFKC_CF; 118CA          # L&       WARANG CITI CAPITAL LETTER ANG
118AB         ; NFKC_CF; 118CB          # L&       WARANG CITI CAPITAL LETTER GA
118AC         ; NFKC_CF; 118CC          # L&       WARANG CITI CAPITAL LETTER KO
118AD         ; NFKC_CF; 118CD          # L&       WARANG CITI CAPITAL LETTER ENY
118AE         ; NFKC_CF; 118CE          # L&       WARANG CITI CAPITAL LETTER YUJ
118AF         ; NFKC_CF; 118CF          # L&       WARANG CITI CAPITAL LETTER UC
118B0         ; NFKC_CF; 118D0          # L&       WARANG CITI CAPITAL LETTER ENN
118B1         ; NFKC_CF; 118D1          # L&       WARANG CITI CAPITAL LETTER ODD
118B2         ; NFKC_CF; 118D2          # L&       WARANG CITI CAPITAL LETTER TTE
118B3         ; NFKC_CF; 118D3          # L&       WARANG CITI CAPITAL LETTER NUNG
118B4         ; NFKC_CF; 118D4          # L&       WARANG CITI CAPITAL LETTER DA
118B5         ; NFKC_CF; 118D5          # L&       WARANG CITI CAPITAL LETTER AT
"%string.
Definition props_text_346 := "118B6         ; NFKC_CF; 118D6          # L&       WARANG CITI CAPITAL LETTER AM
118B7         ; NFKC_CF; 118D7          # L&       WARANG CITI CAPITAL LETTER BU
118B8         ; NFKC_CF; 118D8          # L&       WARANG CITI CAPITAL LETTER PU
118B9         ; NFKC_CF; 118D9          # L&       WARANG CITI CAPITAL LETTER HIYO
118BA         ; NFKC_CF; 118DA          # L&       WARANG CITI CAPITAL LETTER HOLO
118BB         ; NFKC_CF; 118DB          # L&       WARANG CITI CAPITAL LETTER HORR
118BC         ; NFKC_CF; 118DC          # L&       WARANG CITI CAPITAL LETTER HAR
118BD         ; NFKC_CF; 118DD          # L&       WARANG CITI CAPITAL LETTER SSUU
118BE         ; NFKC_CF; 118DE          # L&       WARANG CITI CAPITAL LETTER SII
118BF         ; NFKC_CF; 118DF          # L&       WARANG CITI CAPITAL LETTER VIYO
16E40         ; NFKC_CF; 16E60          # L&       MEDEFAIDRIN CAPITAL LETTER M
16E41         ; NFKC_CF; 16E61          # L&       MEDEFAIDRIN CAPITAL LETTER S
16E42         ; NFKC_CF; 16E62          # L&       MEDEFAIDRIN CAPITAL LETTER V
16E43         ; NFKC_CF; 16E63          # L&       MEDEFAIDRIN CAPITAL LETTER W
16E44         ; NFKC_CF; 16E64          # L&       MEDEFAIDRIN CAPITAL LETTER ATIU
16E45         ; NFKC_CF; 16E65          # L&       MEDEFAIDRIN CAPITAL LETTER Z
16E46         ; NFKC_CF; 16E66          # L&       MEDEFAIDRIN CAPITAL LETTER KP
16E47         ; NFKC_CF; 16E67          # L&       MEDEFAIDRIN CAPITAL LETTER P
16E48         ; NFKC_CF; 16E68          # L&       MEDEFAIDRIN CAPITAL LETTER T
16E49         ; NFKC_CF; 16E69          # L&       MEDEFAIDRIN CAPITAL LETTER G
"%string.
Definition props_text_347 := "16E4A         ; NFKC_CF; 16E6A          # L&       MEDEFAIDRIN CAPITAL LETTER F
16E4B         ; NFKC_CF; 16E6B          # L&       MEDEFAIDRIN CAPITAL LETTER I
16E4C         ; NFKC_CF; 16E6C          # L&       MEDEFAIDRIN CAPITAL LETTER K
16E4D         ; NFKC_CF; 16E6D          # L&       MEDEFAIDRIN CAPITAL LETTER A
16E4E         ; NFKC_CF; 16E6E          # L&       MEDEFAIDRIN CAPITAL LETTER J
16E4F         ; NFKC_CF; 16E6F          # L&       MEDEFAIDRIN CAPITAL LETTER E
16E50         ; NFKC_CF; 16E70          # L&       MEDEFAIDRIN CAPITAL LETTER B
16E51         ; NFKC_CF; 16E71          # L&       MEDEFAIDRIN CAPITAL LETTER C
16E52         ; NFKC_CF; 16E72          # L&       MEDEFAIDRIN CAPITAL LETTER U
16E53         ; NFKC_CF; 16E73          # L&       MEDEFAIDRIN CAPITAL LETTER YU
16E54         ; NFKC_CF; 16E74          # L&       MEDEFAIDRIN CAPITAL LETTER L
16E55         ; NFKC_CF; 16E75          # L&       MEDEFAIDRIN CAPITAL LETTER Q
16E56         ; NFKC_CF; 16E76          # L&       MEDEFAIDRIN CAPITAL LETTER HP
16E57         ; NFKC_CF; 16E77          # L&       MEDEFAIDRIN CAPITAL LETTER NY
16E58         ; NFKC_CF; 16E78          # L&       MEDEFAIDRIN CAPITAL LETTER X
16E59         ; NFKC_CF; 16E79          # L&       MEDEFAIDRIN CAPITAL LETTER D
16E5A         ; NFKC_CF; 16E7A          # L&       MEDEFAIDRIN CAPITAL LETTER OE
16E5B         ; NFKC_CF; 16E7B          # L&       MEDEFAIDRIN CAPITAL LETTER N
16E5C         ; NFKC_CF; 16E7C          # L&       MEDEFAIDRIN CAPITAL LETTER R
16E5D         ; NFKC_CF; 16E7D          # L&       MEDEFAIDRIN CAPITAL LETTER O
"%string.
Definition props_text_348 := "16E5E         ; NFKC_CF; 16E7E          # L&       MEDEFAIDRIN CAPITAL LETTER AI
16E5F         ; NFKC_CF; 16E7F          # L&       MEDEFAIDRIN CAPITAL LETTER Y
1BCA0..1BCA3  ; NFKC_CF;                # Cf   [4] SHORTHAND FORMAT LETTER OVERLAP..SHORTHAND FORMAT UP STEP
1D15E         ; NFKC_CF; 1D157 1D165    # So       MUSICAL SYMBOL HALF NOTE
1D15F         ; NFKC_CF; 1D158 1D165    # So       MUSICAL SYMBOL QUARTER NOTE
1D160         ; NFKC_CF; 1D158 1D165 1D16E #So     MUSICAL SYMBOL EIGHTH NOTE
1D161         ; NFKC_CF; 1D158 1D165 1D16F #So     MUSICAL SYMBOL SIXTEENTH NOTE
1D162         ; NFKC_CF; 1D158 1D165 1D170 #So     MUSICAL SYMBOL THIRTY-SECOND NOTE
1D163         ; NFKC_CF; 1D158 1D165 1D171 #So     MUSICAL SYMBOL SIXTY-FOURTH NOTE
1D164         ; NFKC_CF; 1D158 1D165 1D172 #So     MUSICAL SYMBOL ONE HUNDRED TWENTY-EIGHTH NOTE
1D173..1D17A  ; NFKC_CF;                # Cf   [8] MUSICAL SYMBOL BEGIN BEAM..MUSICAL SYMBOL END PHRASE
1D1BB         ; NFKC_CF; 1D1B9 1D165    # So       MUSICAL SYMBOL MINIMA
1D1BC         ; NFKC_CF; 1D1BA 1D165    # So       MUSICAL SYMBOL MINIMA BLACK
1D1BD         ; NFKC_CF; 1D1B9 1D165 1D16E #So     MUSICAL SYMBOL SEMIMINIMA WHITE
1D1BE         ; NFKC_CF; 1D1BA 1D165 1D16E #So     MUSICAL SYMBOL SEMIMINIMA BLACK
1D1BF         ; NFKC_CF; 1D1B9 1D165 1D16F #So     MUSICAL SYMBOL FUSA WHITE
1D1C0         ; NFKC_CF; 1D1BA 1D165 1D16F #So     MUSICAL SYMBOL FUSA BLACK
1D400         ; NFKC_CF; 0061           # L&       MATHEMATICAL BOLD CAPITAL A
1D401         ; NFKC_CF; 0062           # L&       MATHEMATICAL BOLD CAPITAL B
1D402         ; NFKC_CF; 0063           # L&       MATHEMATICAL BOLD CAPITAL C
"%string.
Definition props_text_349 := "1D403         ; NFKC_CF; 0064           # L&       MATHEMATICAL BOLD CAPITAL D
1D404         ; NFKC_CF; 0065           # L&       MATHEMATICAL BOLD CAPITAL E
1D405         ; NFKC_CF; 0066           # L&       MATHEMATICAL BOLD CAPITAL F
1D406         ; NFKC_CF; 0067           # L&       MATHEMATICAL BOLD CAPITAL G
1D407         ; NFKC_CF; 0068           # L&       MATHEMATICAL BOLD CAPITAL H
1D408         ; NFKC_CF; 0069           # L&       MATHEMATICAL BOLD CAPITAL I
1D409         ; NFKC_CF; 006A           # L&       MATHEMATICAL BOLD CAPITAL J
1D40A         ; NFKC_CF; 006B           # L&       MATHEMATICAL BOLD CAPITAL K
1D40B         ; NFKC_CF; 006C           # L&       MATHEMATICAL BOLD CAPITAL L
1D40C         ; NFKC_CF; 006D           # L&       MATHEMATICAL BOLD CAPITAL M
1D40D         ; NFKC_CF; 006E           # L&       MATHEMATICAL BOLD CAPITAL N
1D40E         ; NFKC_CF; 006F           # L&       MATHEMATICAL BOLD CAPITAL O
1D40F         ; NFKC_CF; 0070           # L&       MATHEMATICAL BOLD CAPITAL P
1D410         ; NFKC_CF; 0071           # L&       MATHEMATICAL BOLD CAPITAL Q
1D411         ; NFKC_CF; 0072           # L&       MATHEMATICAL BOLD CAPITAL R
1D412         ; NFKC_CF; 0073           # L&       MATHEMATICAL BOLD CAPITAL S
1D413         ; NFKC_CF; 0074           # L&       MATHEMATICAL BOLD CAPITAL T
1D414         ; NFKC_CF; 0075           # L&       MATHEMATICAL BOLD CAPITAL U
1D415         ; NFKC_CF; 0076           # L&       MATHEMATICAL BOLD CAPITAL V
1D416         ; NFKC_CF; 0077           # L&       MATHEMATICAL BOLD CAPITAL W
"%string.
Definition props_text_350 := "1D417         ; NFKC_CF; 0078           # L&       MATHEMATICAL BOLD CAPITAL X
1D418         ; NFKC_CF; 0079           # L&       MATHEMATICAL BOLD CAPITAL Y
1D419         ; NFKC_CF; 007A           # L&       MATHEMATICAL BOLD CAPITAL Z
1D41A         ; NFKC_CF; 0061           # L&       MATHEMATICAL BOLD SMALL A
1D41B         ; NFKC_CF; 0062           # L&       MATHEMATICAL BOLD SMALL B
1D41C         ; NFKC_CF; 0063           # L&       MATHEMATICAL BOLD SMALL C
1D41D         ; NFKC_CF; 0064           # L&       MATHEMATICAL BOLD SMALL D
1D41E         ; NFKC_CF; 0065           # L&       MATHEMATICAL BOLD SMALL E
1D41F         ; NFKC_CF; 0066           # L&       MATHEMATICAL BOLD SMALL F
1D420         ; NFKC_CF; 0067           # L&       MATHEMATICAL BOLD SMALL G
1D421         ; NFKC_CF; 0068           # L&       MATHEMATICAL BOLD SMALL H
1D422         ; NFKC_CF; 0069           # L&       MATHEMATICAL BOLD SMALL I
1D423         ; NFKC_CF; 006A           # L&       MATHEMATICAL BOLD SMALL J
1D424         ; NFKC_CF; 006B           # L&       MATHEMATICAL BOLD SMALL K
1D425         ; NFKC_CF; 006C           # L&       MATHEMATICAL BOLD SMALL L
1D426         ; NFKC_CF; 006D           # L&       MATHEMATICAL BOLD SMALL M
1D427         ; NFKC_CF; 006E           # L&       MATHEMATICAL BOLD SMALL N
1D428         ; NFKC_CF; 006F           # L&       MATHEMATICAL BOLD SMALL O
1D429         ; NFKC_CF; 0070           # L&       MATHEMATICAL BOLD SMALL P
1D42A         ; NFKC_CF; 0071           # L&       MATHEMATICAL BOLD SMALL Q
"%string.
Definition props_text_351 := "1D42B         ; NFKC_CF; 0072           # L&       MATHEMATICAL BOLD SMALL R
1D42C         ; NFKC_CF; 0073           # L&       MATHEMATICAL BOLD SMALL S
1D42D         ; NFKC_CF; 0074           # L&       MATHEMATICAL BOLD SMALL T
1D42E         ; NFKC_CF; 0075           # L&       MATHEMATICAL BOLD SMALL U
1D42F         ; NFKC_CF; 0076           # L&       MATHEMATICAL BOLD SMALL V
1D430         ; NFKC_CF; 0077           # L&       MATHEMATICAL BOLD SMALL W
1D431         ; NFKC_CF; 0078           # L&       MATHEMATICAL BOLD SMALL X
1D432         ; NFKC_CF; 0079           # L&       MATHEMATICAL BOLD SMALL Y
1D433         ; NFKC_CF; 007A           # L&       MATHEMATICAL BOLD SMALL Z
1D434         ; NFKC_CF; 0061           # L&       MATHEMATICAL ITALIC CAPITAL A
1D435         ; NFKC_CF; 0062           # L&       MATHEMATICAL ITALIC CAPITAL B
1D436         ; NFKC_CF; 0063           # L&       MATHEMATICAL ITALIC CAPITAL C
1D437         ; NFKC_CF; 0064           # L&       MATHEMATICAL ITALIC CAPITAL D
1D438         ; NFKC_CF; 0065           # L&       MATHEMATICAL ITALIC CAPITAL E
1D439         ; NFKC_CF; 0066           # L&       MATHEMATICAL ITALIC CAPITAL F
1D43A         ; NFKC_CF; 0067           # L&       MATHEMATICAL ITALIC CAPITAL G
1D43B         ; NFKC_CF; 0068           # L&       MATHEMATICAL ITALIC CAPITAL H
1D43C         ; NFKC_CF; 0069           # L&       MATHEMATICAL ITALIC CAPITAL I
1D43D         ; NFKC_CF; 006A           # L&       MATHEMATICAL ITALIC CAPITAL J
1D43E         ; NFKC_CF; 006B           # L&       MATHEMATICAL ITALIC CAPITAL K
"%string.
Definition props_text_352 := "1D43F         ; NFKC_CF; 006C           # L&       MATHEMATICAL ITALIC CAPITAL L
1D440         ; NFKC_CF; 006D           # L&       MATHEMATICAL ITALIC CAPITAL M
1D441         ; NFKC_CF; 006E           # L&       MATHEMATICAL ITALIC CAPITAL N
1D442         ; NFKC_CF; 006F           # L&       MATHEMATICAL ITALIC CAPITAL O
1D443         ; NFKC_CF; 0070           # L&       MATHEMATICAL ITALIC CAPITAL P
1D444         ; NFKC_CF; 0071           # L&       MATHEMATICAL ITALIC CAPITAL Q
1D445         ; NFKC_CF; 0072           # L&       MATHEMATICAL ITALIC CAPITAL R
1D446         ; NFKC_CF; 0073           # L&       MATHEMATICAL ITALIC CAPITAL S
1D447         ; NFKC_CF; 0074           # L&       MATHEMATICAL ITALIC CAPITAL T
1D448         ; NFKC_CF; 0075           # L&       MATHEMATICAL ITALIC CAPITAL U
1D449         ; NFKC_CF; 0076           # L&       MATHEMATICAL ITALIC CAPITAL V
1D44A         ; NFKC_CF; 0077           # L&       MATHEMATICAL ITALIC CAPITAL W
1D44B         ; NFKC_CF; 0078           # L&       MATHEMATICAL ITALIC CAPITAL X
1D44C         ; NFKC_CF; 0079           # L&       MATHEMATICAL ITALIC CAPITAL Y
1D44D         ; NFKC_CF; 007A           # L&       MATHEMATICAL ITALIC CAPITAL Z
1D44E         ; NFKC_CF; 0061           # L&       MATHEMATICAL ITALIC SMALL A
1D44F         ; NFKC_CF; 0062           # L&       MATHEMATICAL ITALIC SMALL B
1D450         ; NFKC_CF; 0063           # L&       MATHEMATICAL ITALIC SMALL C
1D451         ; NFKC_CF; 0064           # L&       MATHEMATICAL ITALIC SMALL D
1D452         ; NFKC_CF; 0065           # L&       MATHEMATICAL ITALIC SMALL E
"%string.
Definition props_text_353 := "1D453         ; NFKC_CF; 0066           # L&       MATHEMATICAL ITALIC SMALL F
1D454         ; NFKC_CF; 0067           # L&       MATHEMATICAL ITALIC SMALL G
1D456         ; NFKC_CF; 0069           # L&       MATHEMATICAL ITALIC SMALL I
1D457         ; NFKC_CF; 006A           # L&       MATHEMATICAL ITALIC SMALL J
1D458         ; NFKC_CF; 006B           # L&       MATHEMATICAL ITALIC SMALL K
1D459         ; NFKC_CF; 006C           # L&       MATHEMATICAL ITALIC SMALL L
1D45A         ; NFKC_CF; 006D           # L&       MATHEMATICAL ITALIC SMALL M
1D45B         ; NFKC_CF; 006E           # L&       MATHEMATICAL ITALIC SMALL N
1D45C         ; NFKC_CF; 006F           # L&       MATHEMATICAL ITALIC SMALL O
1D45D         ; NFKC_CF; 0070           # L&       MATHEMATICAL ITALIC SMALL P
1D45E         ; NFKC_CF; 0071           # L&       MATHEMATICAL ITALIC SMALL Q
1D45F         ; NFKC_CF; 0072           # L&       MATHEMATICAL ITALIC SMALL R
1D460         ; NFKC_CF; 0073           # L&       MATHEMATICAL ITALIC SMALL S
1D461         ; NFKC_CF; 0074           # L&       MATHEMATICAL ITALIC SMALL T
1D462         ; NFKC_CF; 0075           # L&       MATHEMATICAL ITALIC SMALL U
1D463         ; NFKC_CF; 0076           # L&       MATHEMATICAL ITALIC SMALL V
1D464         ; NFKC_CF; 0077           # L&       MATHEMATICAL ITALIC SMALL W
1D465         ; NFKC_CF; 0078           # L&       MATHEMATICAL ITALIC SMALL X
1D466         ; NFKC_CF; 0079           # L&       MATHEMATICAL ITALIC SMALL Y
1D467         ; NFKC_CF; 007A           # L&       MATHEMATICAL ITALIC SMALL Z
"%string.
Definition props_text_354 := "1D468         ; NFKC_CF; 0061           # L&       MATHEMATICAL BOLD ITALIC CAPITAL A
1D469         ; NFKC_CF; 0062           # L&       MATHEMATICAL BOLD ITALIC CAPITAL B
1D46A         ; NFKC_CF; 0063           # L&       MATHEMATICAL BOLD ITALIC CAPITAL C
1D46B         ; NFKC_CF; 0064           # L&       MATHEMATICAL BOLD ITALIC CAPITAL D
1D46C         ; NFKC_CF; 0065           # L&       MATHEMATICAL BOLD ITALIC CAPITAL E
1D46D         ; NFKC_CF; 0066           # L&       MATHEMATICAL BOLD ITALIC CAPITAL F
1D46E         ; NFKC_CF; 0067           # L&       MATHEMATICAL BOLD ITALIC CAPITAL G
1D46F         ; NFKC_CF; 0068           # L&       MATHEMATICAL BOLD ITALIC CAPITAL H
1D470         ; NFKC_CF; 0069           # L&       MATHEMATICAL BOLD ITALIC CAPITAL I
1D471         ; NFKC_CF; 006A           # L&       MATHEMATICAL BOLD ITALIC CAPITAL J
1D472         ; NFKC_CF; 006B           # L&       MATHEMATICAL BOLD ITALIC CAPITAL K
1D473         ; NFKC_CF; 006C           # L&       MATHEMATICAL BOLD ITALIC CAPITAL L
1D474         ; NFKC_CF; 006D           # L&       MATHEMATICAL BOLD ITALIC CAPITAL M
1D475         ; NFKC_CF; 006E           # L&       MATHEMATICAL BOLD ITALIC CAPITAL N
1D476         ; NFKC_CF; 006F           # L&       MATHEMATICAL BOLD ITALIC CAPITAL O
1D477         ; NFKC_CF; 0070           # L&       MATHEMATICAL BOLD ITALIC CAPITAL P
1D478         ; NFKC_CF; 0071           # L&       MATHEMATICAL BOLD ITALIC CAPITAL Q
1D479         ; NFKC_CF; 0072           # L&       MATHEMATICAL BOLD ITALIC CAPITAL R
1D47A         ; NFKC_CF; 0073           # L&       MATHEMATICAL BOLD ITALIC CAPITAL S
1D47B         ; NFKC_CF; 0074           # L&       MATHEMATICAL BOLD ITALIC CAPITAL T
"%string.
Definition props_text_355 := "1D47C         ; NFKC_CF; 0075           # L&       MATHEMATICAL BOLD ITALIC CAPITAL U
1D47D         ; NFKC_CF; 0076           # L&       MATHEMATICAL BOLD ITALIC CAPITAL V
1D47E         ; NFKC_CF; 0077           # L&       MATHEMATICAL BOLD ITALIC CAPITAL W
1D47F         ; NFKC_CF; 0078           # L&       MATHEMATICAL BOLD ITALIC CAPITAL X
1D480         ; NFKC_CF; 0079           # L&       MATHEMATICAL BOLD ITALIC CAPITAL Y
1D481         ; NFKC_CF; 007A           # L&       MATHEMATICAL BOLD ITALIC CAPITAL Z
1D482         ; NFKC_CF; 0061           # L&       MATHEMATICAL BOLD ITALIC SMALL A
1D483         ; NFKC_CF; 0062           # L&       MATHEMATICAL BOLD ITALIC SMALL B
1D484         ; NFKC_CF; 0063           # L&       MATHEMATICAL BOLD ITALIC SMALL C
1D485         ; NFKC_CF; 0064           # L&       MATHEMATICAL BOLD ITALIC SMALL D
1D486         ; NFKC_CF; 0065           # L&       MATHEMATICAL BOLD ITALIC SMALL E
1D487         ; NFKC_CF; 0066           # L&       MATHEMATICAL BOLD ITALIC SMALL F
1D488         ; NFKC_CF; 0067           # L&       MATHEMATICAL BOLD ITALIC SMALL G
1D489         ; NFKC_CF; 0068           # L&       MATHEMATICAL BOLD ITALIC SMALL H
1D48A         ; NFKC_CF; 0069           # L&       MATHEMATICAL BOLD ITALIC SMALL I
1D48B         ; NFKC_CF; 006A           # L&       MATHEMATICAL BOLD ITALIC SMALL J
1D48C         ; NFKC_CF; 006B           # L&       MATHEMATICAL BOLD ITALIC SMALL K
1D48D         ; NFKC_CF; 006C           # L&       MATHEMATICAL BOLD ITALIC SMALL L
1D48E         ; NFKC_CF; 006D           # L&       MATHEMATICAL BOLD ITALIC SMALL M
1D48F         ; NFKC_CF; 006E           # L&       MATHEMATICAL BOLD ITALIC SMALL N
"%string.
Definition props_text_356 := "1D490         ; NFKC_CF; 006F           # L&       MATHEMATICAL BOLD ITALIC SMALL O
1D491         ; NFKC_CF; 0070           # L&       MATHEMATICAL BOLD ITALIC SMALL P
1D492         ; NFKC_CF; 0071           # L&       MATHEMATICAL BOLD ITALIC SMALL Q
1D493         ; NFKC_CF; 0072           # L&       MATHEMATICAL BOLD ITALIC SMALL R
1D494         ; NFKC_CF; 0073           # L&       MATHEMATICAL BOLD ITALIC SMALL S
1D495         ; NFKC_CF; 0074           # L&       MATHEMATICAL BOLD ITALIC SMALL T
1D496         ; NFKC_CF; 0075           # L&       MATHEMATICAL BOLD ITALIC SMALL U
1D497         ; NFKC_CF; 0076           # L&       MATHEMATICAL BOLD ITALIC SMALL V
1D498         ; NFKC_CF; 0077           # L&       MATHEMATICAL BOLD ITALIC SMALL W
1D499         ; NFKC_CF; 0078           # L&       MATHEMATICAL BOLD ITALIC SMALL X
1D49A         ; NFKC_CF; 0079           # L&       MATHEMATICAL BOLD ITALIC SMALL Y
1D49B         ; NFKC_CF; 007A           # L&       MATHEMATICAL BOLD ITALIC SMALL Z
1D49C         ; NFKC_CF; 0061           # L&       MATHEMATICAL SCRIPT CAPITAL A
1D49E         ; NFKC_CF; 0063           # L&       MATHEMATICAL SCRIPT CAPITAL C
1D49F         ; NFKC_CF; 0064           # L&       MATHEMATICAL SCRIPT CAPITAL D
1D4A2         ; NFKC_CF; 0067           # L&       MATHEMATICAL SCRIPT CAPITAL G
1D4A5         ; NFKC_CF; 006A           # L&       MATHEMATICAL SCRIPT CAPITAL J
1D4A6         ; NFKC_CF; 006B           # L&       MATHEMATICAL SCRIPT CAPITAL K
1D4A9         ; NFKC_CF; 006E           # L&       MATHEMATICAL SCRIPT CAPITAL N
1D4AA         ; NFKC_CF; 006F           # L&       MATHEMATICAL SCRIPT CAPITAL O
"%string.
Definition props_text_357 := "1D4AB         ; NFKC_CF; 0070           # L&       MATHEMATICAL SCRIPT CAPITAL P
1D4AC         ; NFKC_CF; 0071           # L&       MATHEMATICAL SCRIPT CAPITAL Q
1D4AE         ; NFKC_CF; 0073           # L&       MATHEMATICAL SCRIPT CAPITAL S
1D4AF         ; NFKC_CF; 0074           # L&       MATHEMATICAL SCRIPT CAPITAL T
1D4B0         ; NFKC_CF; 0075           # L&       MATHEMATICAL SCRIPT CAPITAL U
1D4B1         ; NFKC_CF; 0076           # L&       MATHEMATICAL SCRIPT CAPITAL V
1D4B2         ; NFKC_CF; 0077           # L&       MATHEMATICAL SCRIPT CAPITAL W
1D4B3         ; NFKC_CF; 0078           # L&       MATHEMATICAL SCRIPT CAPITAL X
1D4B4         ; NFKC_CF; 0079           # L&       MATHEMATICAL SCRIPT CAPITAL Y
1D4B5         ; NFKC_CF; 007A           # L&       MATHEMATICAL SCRIPT CAPITAL Z
1D4B6         ; NFKC_CF; 0061           # L&       MATHEMATICAL SCRIPT SMALL A
1D4B7         ; NFKC_CF; 0062           # L&       MATHEMATICAL SCRIPT SMALL B
1D4B8         ; NFKC_CF; 0063           # L&       MATHEMATICAL SCRIPT SMALL C
1D4B9         ; NFKC_CF; 0064           # L&       MATHEMATICAL SCRIPT SMALL D
1D4BB         ; NFKC_CF; 0066           # L&       MATHEMATICAL SCRIPT SMALL F
1D4BD         ; NFKC_CF; 0068           # L&       MATHEMATICAL SCRIPT SMALL H
1D4BE         ; NFKC_CF; 0069           # L&       MATHEMATICAL SCRIPT SMALL I
1D4BF         ; NFKC_CF; 006A           # L&       MATHEMATICAL SCRIPT SMALL J
1D4C0         ; NFKC_CF; 006B           # L&       MATHEMATICAL SCRIPT SMALL K
1D4C1         ; NFKC_CF; 006C           # L&       MATHEMATICAL SCRIPT SMALL L
"%string.
Definition props_text_358 := "1D4C2         ; NFKC_CF; 006D           # L&       MATHEMATICAL SCRIPT SMALL M
1D4C3         ; NFKC_CF; 006E           # L&       MATHEMATICAL SCRIPT SMALL N
1D4C5         ; NFKC_CF; 0070           # L&       MATHEMATICAL SCRIPT SMALL P
1D4C6         ; NFKC_CF; 0071           # L&       MATHEMATICAL SCRIPT SMALL Q
1D4C7         ; NFKC_CF; 0072           # L&       MATHEMATICAL SCRIPT SMALL R
1D4C8         ; NFKC_CF; 0073           # L&       MATHEMATICAL SCRIPT SMALL S
1D4C9         ; NFKC_CF; 0074           # L&       MATHEMATICAL SCRIPT SMALL T
1D4CA         ; NFKC_CF; 0075           # L&       MATHEMATICAL SCRIPT SMALL U
1D4CB         ; NFKC_CF; 0076           # L&       MATHEMATICAL SCRIPT SMALL V
1D4CC         ; NFKC_CF; 0077           # L&       MATHEMATICAL SCRIPT SMALL W
1D4CD         ; NFKC_CF; 0078           # L&       MATHEMATICAL SCRIPT SMALL X
1D4CE         ; NFKC_CF; 0079           # L&       MATHEMATICAL SCRIPT SMALL Y
1D4CF         ; NFKC_CF; 007A           # L&       MATHEMATICAL SCRIPT SMALL Z
1D4D0         ; NFKC_CF; 0061           # L&       MATHEMATICAL BOLD SCRIPT CAPITAL A
1D4D1         ; NFKC_CF; 0062           # L&       MATHEMATICAL BOLD SCRIPT CAPITAL B
1D4D2         ; NFKC_CF; 0063           # L&       MATHEMATICAL BOLD SCRIPT CAPITAL C
1D4D3         ; NFKC_CF; 0064           # L&       MATHEMATICAL BOLD SCRIPT CAPITAL D
1D4D4         ; NFKC_CF; 0065           # L&       MATHEMATICAL BOLD SCRIPT CAPITAL E
1D4D5         ; NFKC_CF; 0066           # L&       MATHEMATICAL BOLD SCRIPT CAPITAL F
1D4D6         ; NFKC_CF; 0067           # L&       MATHEMATICAL BOLD SCRIPT CAPITAL G
"%string.
Definition props_text_359 := "1D4D7         ; NFKC_CF; 0068           # L&       MATHEMATICAL BOLD SCRIPT CAPITAL H
1D4D8         ; NFKC_CF; 0069           # L&       MATHEMATICAL BOLD SCRIPT CAPITAL I
1D4D9         ; NFKC_CF; 006A           # L&       MATHEMATICAL BOLD SCRIPT CAPITAL J
1D4DA         ; NFKC_CF; 006B           # L&       MATHEMATICAL BOLD SCRIPT CAPITAL K
1D4DB         ; NFKC_CF; 006C           # L&       MATHEMATICAL BOLD SCRIPT CAPITAL L
1D4DC         ; NFKC_CF; 006D           # L&       MATHEMATICAL BOLD SCRIPT CAPITAL M
1D4DD         ; NFKC_CF; 006E           # L&       MATHEMATICAL BOLD SCRIPT CAPITAL N
1D4DE         ; NFKC_CF; 006F           # L&       MATHEMATICAL BOLD SCRIPT CAPITAL O
1D4DF         ; NFKC_CF; 0070           # L&       MATHEMATICAL BOLD SCRIPT CAPITAL P
1D4E0         ; NFKC_CF; 0071           # L&       MATHEMATICAL BOLD SCRIPT CAPITAL Q
1D4E1         ; NFKC_CF; 0072           # L&       MATHEMATICAL BOLD SCRIPT CAPITAL R
1D4E2         ; NFKC_CF; 0073           # L&       MATHEMATICAL BOLD SCRIPT CAPITAL S
1D4E3         ; NFKC_CF; 0074           # L&       MATHEMATICAL BOLD SCRIPT CAPITAL T
1D4E4         ; NFKC_CF; 0075           # L&       MATHEMATICAL BOLD SCRIPT CAPITAL U
1D4E5         ; NFKC_CF; 0076           # L&       MATHEMATICAL BOLD SCRIPT CAPITAL V
1D4E6         ; NFKC_CF; 0077           # L&       MATHEMATICAL BOLD SCRIPT CAPITAL W
1D4E7         ; NFKC_CF; 0078           # L&       MATHEMATICAL BOLD SCRIPT CAPITAL X
1D4E8         ; NFKC_CF; 0079           # L&       MATHEMATICAL BOLD SCRIPT CAPITAL Y
1D4E9         ; NFKC_CF; 007A           # L&       MATHEMATICAL BOLD SCRIPT CAPITAL Z
1D4EA         ; NFKC_CF; 0061           # L&       MATHEMATICAL BOLD SCRIPT SMALL A
"%string.
Definition props_text_360 := "1D4EB         ; NFKC_CF; 0062           # L&       MATHEMATICAL BOLD SCRIPT SMALL B
1D4EC         ; NFKC_CF; 0063           # L&       MATHEMATICAL BOLD SCRIPT SMALL C
1D4ED         ; NFKC_CF; 0064           # L&       MATHEMATICAL BOLD SCRIPT SMALL D
1D4EE         ; NFKC_CF; 0065           # L&       MATHEMATICAL BOLD SCRIPT SMALL E
1D4EF         ; NFKC_CF; 0066           # L&       MATHEMATICAL BOLD SCRIPT SMALL F
1D4F0         ; NFKC_CF; 0067           # L&       MATHEMATICAL BOLD SCRIPT SMALL G
1D4F1         ; NFKC_CF; 0068           # L&       MATHEMATICAL BOLD SCRIPT SMALL H
1D4F2         ; NFKC_CF; 0069           # L&       MATHEMATICAL BOLD SCRIPT SMALL I
1D4F3         ; NFKC_CF; 006A           # L&       MATHEMATICAL BOLD SCRIPT SMALL J
1D4F4         ; NFKC_CF; 006B           # L&       MATHEMATICAL BOLD SCRIPT SMALL K
1D4F5         ; NFKC_CF; 006C           # L&       MATHEMATICAL BOLD SCRIPT SMALL L
1D4F6         ; NFKC_CF; 006D           # L&       MATHEMATICAL BOLD SCRIPT SMALL M
1D4F7         ; NFKC_CF; 006E           # L&       MATHEMATICAL BOLD SCRIPT SMALL N
1D4F8         ; NFKC_CF; 006F           # L&       MATHEMATICAL BOLD SCRIPT SMALL O
1D4F9         ; NFKC_CF; 0070           # L&       MATHEMATICAL BOLD SCRIPT SMALL P
1D4FA         ; NFKC_CF; 0071           # L&       MATHEMATICAL BOLD SCRIPT SMALL Q
1D4FB         ; NFKC_CF; 0072           # L&       MATHEMATICAL BOLD SCRIPT SMALL R
1D4FC         ; NFKC_CF; 0073           # L&       MATHEMATICAL BOLD SCRIPT SMALL S
1D4FD         ; NFKC_CF; 0074           # L&       MATHEMATICAL BOLD SCRIPT SMALL T
1D4FE         ; NFKC_CF; 0075           # L&       MATHEMATICAL BOLD SCRIPT SMALL U
"%string.
Definition props_text_361 := "1D4FF         ; NFKC_CF; 0076           # L&       MATHEMATICAL BOLD SCRIPT SMALL V
1D500         ; NFKC_CF; 0077           # L&       MATHEMATICAL BOLD SCRIPT SMALL W
1D501         ; NFKC_CF; 0078           # L&       MATHEMATICAL BOLD SCRIPT SMALL X
1D502         ; NFKC_CF; 0079           # L&       MATHEMATICAL BOLD SCRIPT SMALL Y
1D503         ; NFKC_CF; 007A           # L&       MATHEMATICAL BOLD SCRIPT SMALL Z
1D504         ; NFKC_CF; 0061           # L&       MATHEMATICAL FRAKTUR CAPITAL A
1D505         ; NFKC_CF; 0062           # L&       MATHEMATICAL FRAKTUR CAPITAL B
1D507         ; NFKC_CF; 0064           # L&       MATHEMATICAL FRAKTUR CAPITAL D
1D508         ; NFKC_CF; 0065           # L&       MATHEMATICAL FRAKTUR CAPITAL E
1D509         ; NFKC_CF; 0066           # L&       MATHEMATICAL FRAKTUR CAPITAL F
1D50A         ; NFKC_CF; 0067           # L&       MATHEMATICAL FRAKTUR CAPITAL G
1D50D         ; NFKC_CF; 006A           # L&       MATHEMATICAL FRAKTUR CAPITAL J
1D50E         ; NFKC_CF; 006B           # L&       MATHEMATICAL FRAKTUR CAPITAL K
1D50F         ; NFKC_CF; 006C           # L&       MATHEMATICAL FRAKTUR CAPITAL L
1D510         ; NFKC_CF; 006D           # L&       MATHEMATICAL FRAKTUR CAPITAL M
1D511         ; NFKC_CF; 006E           # L&       MATHEMATICAL FRAKTUR CAPITAL N
1D512         ; NFKC_CF; 006F           # L&       MATHEMATICAL FRAKTUR CAPITAL O
1D513         ; NFKC_CF; 0070           # L&       MATHEMATICAL FRAKTUR CAPITAL P
1D514         ; NFKC_CF; 0071           # L&       MATHEMATICAL FRAKTUR CAPITAL Q
1D516         ; NFKC_CF; 0073           # L&       MATHEMATICAL FRAKTUR CAPITAL S
"%string.
Definition props_text_362 := "1D517         ; NFKC_CF; 0074           # L&       MATHEMATICAL FRAKTUR CAPITAL T
1D518         ; NFKC_CF; 0075           # L&       MATHEMATICAL FRAKTUR CAPITAL U
1D519         ; NFKC_CF; 0076           # L&       MATHEMATICAL FRAKTUR CAPITAL V
1D51A         ; NFKC_CF; 0077           # L&       MATHEMATICAL FRAKTUR CAPITAL W
1D51B         ; NFKC_CF; 0078           # L&       MATHEMATICAL FRAKTUR CAPITAL X
1D51C         ; NFKC_CF; 0079           # L&       MATHEMATICAL FRAKTUR CAPITAL Y
1D51E         ; NFKC_CF; 0061           # L&       MATHEMATICAL FRAKTUR SMALL A
1D51F         ; NFKC_CF; 0062           # L&       MATHEMATICAL FRAKTUR SMALL B
1D520         ; NFKC_CF; 0063           # L&       MATHEMATICAL FRAKTUR SMALL C
1D521         ; NFKC_CF; 0064           # L&       MATHEMATICAL FRAKTUR SMALL D
1D522         ; NFKC_CF; 0065           # L&       MATHEMATICAL FRAKTUR SMALL E
1D523         ; NFKC_CF; 0066           # L&       MATHEMATICAL FRAKTUR SMALL F
1D524         ; NFKC_CF; 0067           # L&       MATHEMATICAL FRAKTUR SMALL G
1D525         ; NFKC_CF; 0068           # L&       MATHEMATICAL FRAKTUR SMALL H
1D526         ; NFKC_CF; 0069           # L&       MATHEMATICAL FRAKTUR SMALL I
1D527         ; NFKC_CF; 006A           # L&       MATHEMATICAL FRAKTUR SMALL J
1D528         ; NFKC_CF; 006B           # L&       MATHEMATICAL FRAKTUR SMALL K
1D529         ; NFKC_CF; 006C           # L&       MATHEMATICAL FRAKTUR SMALL L
1D52A         ; NFKC_CF; 006D           # L&       MATHEMATICAL FRAKTUR SMALL M
1D52B         ; NFKC_CF; 006E           # L&       MATHEMATICAL FRAKTUR SMALL N
"%string.
Definition props_text_363 := "1D52C         ; NFKC_CF; 006F           # L&       MATHEMATICAL FRAKTUR SMALL O
1D52D         ; NFKC_CF; 0070           # L&       MATHEMATICAL FRAKTUR SMALL P
1D52E         ; NFKC_CF; 0071           # L&       MATHEMATICAL FRAKTUR SMALL Q
1D52F         ; NFKC_CF; 0072           # L&       MATHEMATICAL FRAKTUR SMALL R
1D530         ; NFKC_CF; 0073           # L&       MATHEMATICAL FRAKTUR SMALL S
1D531         ; NFKC_CF; 0074           # L&       MATHEMATICAL FRAKTUR SMALL T
1D532         ; NFKC_CF; 0075           # L&       MATHEMATICAL FRAKTUR SMALL U
1D533         ; NFKC_CF; 0076           # L&       MATHEMATICAL FRAKTUR SMALL V
1D534         ; NFKC_CF; 0077           # L&       MATHEMATICAL FRAKTUR SMALL W
1D535         ; NFKC_CF; 0078           # L&       MATHEMATICAL FRAKTUR SMALL X
1D536         ; NFKC_CF; 0079           # L&       MATHEMATICAL FRAKTUR SMALL Y
1D537         ; NFKC_CF; 007A           # L&       MATHEMATICAL FRAKTUR SMALL Z
1D538         ; NFKC_CF; 0061           # L&       MATHEMATICAL DOUBLE-STRUCK CAPITAL A
1D539         ; NFKC_CF; 0062           # L&       MATHEMATICAL DOUBLE-STRUCK CAPITAL B
1D53B         ; NFKC_CF; 0064           # L&       MATHEMATICAL DOUBLE-STRUCK CAPITAL D
1D53C         ; NFKC_CF; 0065           # L&       MATHEMATICAL DOUBLE-STRUCK CAPITAL E
1D53D         ; NFKC_CF; 0066           # L&       MATHEMATICAL DOUBLE-STRUCK CAPITAL F
1D53E         ; NFKC_CF; 0067           # L&       MATHEMATICAL DOUBLE-STRUCK CAPITAL G
1D540         ; NFKC_CF; 0069           # L&       MATHEMATICAL DOUBLE-STRUCK CAPITAL I
1D541         ; NFKC_CF; 006A           # L&       MATHEMATICAL DOUBLE-STRUCK CAPITAL J
"%string.
Definition props_text_364 := "1D542         ; NFKC_CF; 006B           # L&       MATHEMATICAL DOUBLE-STRUCK CAPITAL K
1D543         ; NFKC_CF; 006C           # L&       MATHEMATICAL DOUBLE-STRUCK CAPITAL L
1D544         ; NFKC_CF; 006D           # L&       MATHEMATICAL DOUBLE-STRUCK CAPITAL M
1D546         ; NFKC_CF; 006F           # L&       MATHEMATICAL DOUBLE-STRUCK CAPITAL O
1D54A         ; NFKC_CF; 0073           # L&       MATHEMATICAL DOUBLE-STRUCK CAPITAL S
1D54B         ; NFKC_CF; 0074           # L&       MATHEMATICAL DOUBLE-STRUCK CAPITAL T
1D54C         ; NFKC_CF; 0075           # L&       MATHEMATICAL DOUBLE-STRUCK CAPITAL U
1D54D         ; NFKC_CF; 0076           # L&       MATHEMATICAL DOUBLE-STRUCK CAPITAL V
1D54E         ; NFKC_CF; 0077           # L&       MATHEMATICAL DOUBLE-STRUCK CAPITAL W
1D54F         ; NFKC_CF; 0078           # L&       MATHEMATICAL DOUBLE-STRUCK CAPITAL X
1D550         ; NFKC_CF; 0079           # L&       MATHEMATICAL DOUBLE-STRUCK CAPITAL Y
1D552         ; NFKC_CF; 0061           # L&       MATHEMATICAL DOUBLE-STRUCK SMALL A
1D553         ; NFKC_CF; 0062           # L&       MATHEMATICAL DOUBLE-STRUCK SMALL B
1D554         ; NFKC_CF; 0063           # L&       MATHEMATICAL DOUBLE-STRUCK SMALL C
1D555         ; NFKC_CF; 0064           # L&       MATHEMATICAL DOUBLE-STRUCK SMALL D
1D556         ; NFKC_CF; 0065           # L&       MATHEMATICAL DOUBLE-STRUCK SMALL E
1D557         ; NFKC_CF; 0066           # L&       MATHEMATICAL DOUBLE-STRUCK SMALL F
1D558         ; NFKC_CF; 0067           # L&       MATHEMATICAL DOUBLE-STRUCK SMALL G
1D559         ; NFKC_CF; 0068           # L&       MATHEMATICAL DOUBLE-STRUCK SMALL H
1D55A         ; NFKC_CF; 0069           # L&       MATHEMATICAL DOUBLE-STRUCK SMALL I
"%string.
Definition props_text_365 := "1D55B         ; NFKC_CF; 006A           # L&       MATHEMATICAL DOUBLE-STRUCK SMALL J
1D55C         ; NFKC_CF; 006B           # L&       MATHEMATICAL DOUBLE-STRUCK SMALL K
1D55D         ; NFKC_CF; 006C           # L&       MATHEMATICAL DOUBLE-STRUCK SMALL L
1D55E         ; NFKC_CF; 006D           # L&       MATHEMATICAL DOUBLE-STRUCK SMALL M
1D55F         ; NFKC_CF; 006E           # L&       MATHEMATICAL DOUBLE-STRUCK SMALL N
1D560         ; NFKC_CF; 006F           # L&       MATHEMATICAL DOUBLE-STRUCK SMALL O
1D561         ; NFKC_CF; 0070           # L&       MATHEMATICAL DOUBLE-STRUCK SMALL P
1D562         ; NFKC_CF; 0071           # L&       MATHEMATICAL DOUBLE-STRUCK SMALL Q
1D563         ; NFKC_CF; 0072           # L&       MATHEMATICAL DOUBLE-STRUCK SMALL R
1D564         ; NFKC_CF; 0073           # L&       MATHEMATICAL DOUBLE-STRUCK SMALL S
1D565         ; NFKC_CF; 0074           # L&       MATHEMATICAL DOUBLE-STRUCK SMALL T
1D566         ; NFKC_CF; 0075           # L&       MATHEMATICAL DOUBLE-STRUCK SMALL U
1D567         ; NFKC_CF; 0076           # L&       MATHEMATICAL DOUBLE-STRUCK SMALL V
1D568         ; NFKC_CF; 0077           # L&       MATHEMATICAL DOUBLE-STRUCK SMALL W
1D569         ; NFKC_CF; 0078           # L&       MATHEMATICAL DOUBLE-STRUCK SMALL X
1D56A         ; NFKC_CF; 0079           # L&       MATHEMATICAL DOUBLE-STRUCK SMALL Y
1D56B         ; NFKC_CF; 007A           # L&       MATHEMATICAL DOUBLE-STRUCK SMALL Z
1D56C         ; NFKC_CF; 0061           # L&       MATHEMATICAL BOLD FRAKTUR CAPITAL A
1D56D         ; NFKC_CF; 0062           # L&       MATHEMATICAL BOLD FRAKTUR CAPITAL B
1D56E         ; NFKC_CF; 0063           # L&       MATHEMATICAL BOLD FRAKTUR CAPITAL C
"%string.
Definition props_text_366 := "1D56F         ; NFKC_CF; 0064           # L&       MATHEMATICAL BOLD FRAKTUR CAPITAL D
1D570         ; NFKC_CF; 0065           # L&       MATHEMATICAL BOLD FRAKTUR CAPITAL E
1D571         ; NFKC_CF; 0066           # L&       MATHEMATICAL BOLD FRAKTUR CAPITAL F
1D572         ; NFKC_CF; 0067           # L&       MATHEMATICAL BOLD FRAKTUR CAPITAL G
1D573         ; NFKC_CF; 0068           # L&       MATHEMATICAL BOLD FRAKTUR CAPITAL H
1D574         ; NFKC_CF; 0069           # L&       MATHEMATICAL BOLD FRAKTUR CAPITAL I
1D575         ; NFKC_CF; 006A           # L&       MATHEMATICAL BOLD FRAKTUR CAPITAL J
1D576         ; NFKC_CF; 006B           # L&       MATHEMATICAL BOLD FRAKTUR CAPITAL K
1D577         ; NFKC_CF; 006C           # L&       MATHEMATICAL BOLD FRAKTUR CAPITAL L
1D578         ; NFKC_CF; 006D           # L&       MATHEMATICAL BOLD FRAKTUR CAPITAL M
1D579         ; NFKC_CF; 006E           # L&       MATHEMATICAL BOLD FRAKTUR CAPITAL N
1D57A         ; NFKC_CF; 006F           # L&       MATHEMATICAL BOLD FRAKTUR CAPITAL O
1D57B         ; NFKC_CF; 0070           # L&       MATHEMATICAL BOLD FRAKTUR CAPITAL P
1D57C         ; NFKC_CF; 0071           # L&       MATHEMATICAL BOLD FRAKTUR CAPITAL Q
1D57D         ; NFKC_CF; 0072           # L&       MATHEMATICAL BOLD FRAKTUR CAPITAL R
1D57E         ; NFKC_CF; 0073           # L&       MATHEMATICAL BOLD FRAKTUR CAPITAL S
1D57F         ; NFKC_CF; 0074           # L&       MATHEMATICAL BOLD FRAKTUR CAPITAL T
1D580         ; NFKC_CF; 0075           # L&       MATHEMATICAL BOLD FRAKTUR CAPITAL U
1D581         ; NFKC_CF; 0076           # L&       MATHEMATICAL BOLD FRAKTUR CAPITAL V
1D582         ; NFKC_CF; 0077           # L&       MATHEMATICAL BOLD FRAKTUR CAPITAL W
"%string.
Definition props_text_367 := "1D583         ; NFKC_CF; 0078           # L&       MATHEMATICAL BOLD FRAKTUR CAPITAL X
1D584         ; NFKC_CF; 0079           # L&       MATHEMATICAL BOLD FRAKTUR CAPITAL Y
1D585         ; NFKC_CF; 007A           # L&       MATHEMATICAL BOLD FRAKTUR CAPITAL Z
1D586         ; NFKC_CF; 0061           # L&       MATHEMATICAL BOLD FRAKTUR SMALL A
1D587         ; NFKC_CF; 0062           # L&       MATHEMATICAL BOLD FRAKTUR SMALL B
1D588         ; NFKC_CF; 0063           # L&       MATHEMATICAL BOLD FRAKTUR SMALL C
1D589         ; NFKC_CF; 0064           # L&       MATHEMATICAL BOLD FRAKTUR SMALL D
1D58A         ; NFKC_CF; 0065           # L&       MATHEMATICAL BOLD FRAKTUR SMALL E
1D58B         ; NFKC_CF; 0066           # L&       MATHEMATICAL BOLD FRAKTUR SMALL F
1D58C         ; NFKC_CF; 0067           # L&       MATHEMATICAL BOLD FRAKTUR SMALL G
1D58D         ; NFKC_CF; 0068           # L&       MATHEMATICAL BOLD FRAKTUR SMALL H
1D58E         ; NFKC_CF; 0069           # L&       MATHEMATICAL BOLD FRAKTUR SMALL I
1D58F         ; NFKC_CF; 006A           # L&       MATHEMATICAL BOLD FRAKTUR SMALL J
1D590         ; NFKC_CF; 006B           # L&       MATHEMATICAL BOLD FRAKTUR SMALL K
1D591         ; NFKC_CF; 006C           # L&       MATHEMATICAL BOLD FRAKTUR SMALL L
1D592         ; NFKC_CF; 006D           # L&       MATHEMATICAL BOLD FRAKTUR SMALL M
1D593         ; NFKC_CF; 006E           # L&       MATHEMATICAL BOLD FRAKTUR SMALL N
1D594         ; NFKC_CF; 006F           # L&       MATHEMATICAL BOLD FRAKTUR SMALL O
1D595         ; NFKC_CF; 0070           # L&       MATHEMATICAL BOLD FRAKTUR SMALL P
1D596         ; NFKC_CF; 0071           # L&       MATHEMATICAL BOLD FRAKTUR SMALL Q
"%string.
Definition props_text_368 := "1D597         ; NFKC_CF; 0072           # L&       MATHEMATICAL BOLD FRAKTUR SMALL R
1D598         ; NFKC_CF; 0073           # L&       MATHEMATICAL BOLD FRAKTUR SMALL S
1D599         ; NFKC_CF; 0074           # L&       MATHEMATICAL BOLD FRAKTUR SMALL T
1D59A         ; NFKC_CF; 0075           # L&       MATHEMATICAL BOLD FRAKTUR SMALL U
1D59B         ; NFKC_CF; 0076           # L&       MATHEMATICAL BOLD FRAKTUR SMALL V
1D59C         ; NFKC_CF; 0077           # L&       MATHEMATICAL BOLD FRAKTUR SMALL W
1D59D         ; NFKC_CF; 0078           # L&       MATHEMATICAL BOLD FRAKTUR SMALL X
1D59E         ; NFKC_CF; 0079           # L&       MATHEMATICAL BOLD FRAKTUR SMALL Y
1D59F         ; NFKC_CF; 007A           # L&       MATHEMATICAL BOLD FRAKTUR SMALL Z
1D5A0         ; NFKC_CF; 0061           # L&       MATHEMATICAL SANS-SERIF CAPITAL A
1D5A1         ; NFKC_CF; 0062           # L&       MATHEMATICAL SANS-SERIF CAPITAL B
1D5A2         ; NFKC_CF; 0063           # L&       MATHEMATICAL SANS-SERIF CAPITAL C
1D5A3         ; NFKC_CF; 0064           # L&       MATHEMATICAL SANS-SERIF CAPITAL D
1D5A4         ; NFKC_CF; 0065           # L&       MATHEMATICAL SANS-SERIF CAPITAL E
1D5A5         ; NFKC_CF; 0066           # L&       MATHEMATICAL SANS-SERIF CAPITAL F
1D5A6         ; NFKC_CF; 0067           # L&       MATHEMATICAL SANS-SERIF CAPITAL G
1D5A7         ; NFKC_CF; 0068           # L&       MATHEMATICAL SANS-SERIF CAPITAL H
1D5A8         ; NFKC_CF; 0069           # L&       MATHEMATICAL SANS-SERIF CAPITAL I
1D5A9         ; NFKC_CF; 006A           # L&       MATHEMATICAL SANS-SERIF CAPITAL J
1D5AA         ; NFKC_CF; 006B           # L&       MATHEMATICAL SANS-SERIF CAPITAL K
"%string.
Definition props_text_369 := "1D5AB         ; NFKC_CF; 006C           # L&       MATHEMATICAL SANS-SERIF CAPITAL L
1D5AC         ; NFKC_CF; 006D           # L&       MATHEMATICAL SANS-SERIF CAPITAL M
1D5AD         ; NFKC_CF; 006E           # L&       MATHEMATICAL SANS-SERIF CAPITAL N
1D5AE         ; NFKC_CF; 006F           # L&       MATHEMATICAL SANS-SERIF CAPITAL O
1D5AF         ; NFKC_CF; 0070           # L&       MATHEMATICAL SANS-SERIF CAPITAL P
1D5B0         ; NFKC_CF; 0071           # L&       MATHEMATICAL SANS-SERIF CAPITAL Q
1D5B1         ; NFKC_CF; 0072           # L&       MATHEMATICAL SANS-SERIF CAPITAL R
1D5B2         ; NFKC_CF; 0073           # L&       MATHEMATICAL SANS-SERIF CAPITAL S
1D5B3         ; NFKC_CF; 0074           # L&       MATHEMATICAL SANS-SERIF CAPITAL T
1D5B4         ; NFKC_CF; 0075           # L&       MATHEMATICAL SANS-SERIF CAPITAL U
1D5B5         ; NFKC_CF; 0076           # L&       MATHEMATICAL SANS-SERIF CAPITAL V
1D5B6         ; NFKC_CF; 0077           # L&       MATHEMATICAL SANS-SERIF CAPITAL W
1D5B7         ; NFKC_CF; 0078           # L&       MATHEMATICAL SANS-SERIF CAPITAL X
1D5B8         ; NFKC_CF; 0079           # L&       MATHEMATICAL SANS-SERIF CAPITAL Y
1D5B9         ; NFKC_CF; 007A           # L&       MATHEMATICAL SANS-SERIF CAPITAL Z
1D5BA         ; NFKC_CF; 0061           # L&       MATHEMATICAL SANS-SERIF SMALL A
1D5BB         ; NFKC_CF; 0062           # L&       MATHEMATICAL SANS-SERIF SMALL B
1D5BC         ; NFKC_CF; 0063           # L&       MATHEMATICAL SANS-SERIF SMALL C
1D5BD         ; NFKC_CF; 0064           # L&       MATHEMATICAL SANS-SERIF SMALL D
1D5BE         ; NFKC_CF; 0065           # L&       MATHEMATICAL SANS-SERIF SMALL E
"%string.
Definition props_text_370 := "1D5BF         ; NFKC_CF; 0066           # L&       MATHEMATICAL SANS-SERIF SMALL F
1D5C0         ; NFKC_CF; 0067           # L&       MATHEMATICAL SANS-SERIF SMALL G
1D5C1         ; NFKC_CF; 0068           # L&       MATHEMATICAL SANS-SERIF SMALL H
1D5C2         ; NFKC_CF; 0069           # L&       MATHEMATICAL SANS-SERIF SMALL I
1D5C3         ; NFKC_CF; 006A           # L&       MATHEMATICAL SANS-SERIF SMALL J
1D5C4         ; NFKC_CF; 006B           # L&       MATHEMATICAL SANS-SERIF SMALL K
1D5C5         ; NFKC_CF; 006C           # L&       MATHEMATICAL SANS-SERIF SMALL L
1D5C6         ; NFKC_CF; 006D           # L&       MATHEMATICAL SANS-SERIF SMALL M
1D5C7         ; NFKC_CF; 006E           # L&       MATHEMATICAL SANS-SERIF SMALL N
1D5C8         ; NFKC_CF; 006F           # L&       MATHEMATICAL SANS-SERIF SMALL O
1D5C9         ; NFKC_CF; 0070           # L&       MATHEMATICAL SANS-SERIF SMALL P
1D5CA         ; NFKC_CF; 0071           # L&       MATHEMATICAL SANS-SERIF SMALL Q
1D5CB         ; NFKC_CF; 0072           # L&       MATHEMATICAL SANS-SERIF SMALL R
1D5CC         ; NFKC_CF; 0073           # L&       MATHEMATICAL SANS-SERIF SMALL S
1D5CD         ; NFKC_CF; 0074           # L&       MATHEMATICAL SANS-SERIF SMALL T
1D5CE         ; NFKC_CF; 0075           # L&       MATHEMATICAL SANS-SERIF SMALL U
1D5CF         ; NFKC_CF; 0076           # L&       MATHEMATICAL SANS-SERIF SMALL V
1D5D0         ; NFKC_CF; 0077           # L&       MATHEMATICAL SANS-SERIF SMALL W
1D5D1         ; NFKC_CF; 0078           # L&       MATHEMATICAL SANS-SERIF SMALL X
1D5D2         ; NFKC_CF; 0079           # L&       MATHEMATICAL SANS-SERIF SMALL Y
"%string.
Definition props_text_371 := "1D5D3         ; NFKC_CF; 007A           # L&       MATHEMATICAL SANS-SERIF SMALL Z
1D5D4         ; NFKC_CF; 0061           # L&       MATHEMATICAL SANS-SERIF BOLD CAPITAL A
1D5D5         ; NFKC_CF; 0062           # L&       MATHEMATICAL SANS-SERIF BOLD CAPITAL B
1D5D6         ; NFKC_CF; 0063           # L&       MATHEMATICAL SANS-SERIF BOLD CAPITAL C
1D5D7         ; NFKC_CF; 0064           # L&       MATHEMATICAL SANS-SERIF BOLD CAPITAL D
1D5D8         ; NFKC_CF; 0065           # L&       MATHEMATICAL SANS-SERIF BOLD CAPITAL E
1D5D9         ; NFKC_CF; 0066           # L&       MATHEMATICAL SANS-SERIF BOLD CAPITAL F
1D5DA         ; NFKC_CF; 0067           # L&       MATHEMATICAL SANS-SERIF BOLD CAPITAL G
1D5DB         ; NFKC_CF; 0068           # L&       MATHEMATICAL SANS-SERIF BOLD CAPITAL H
1D5DC         ; NFKC_CF; 0069           # L&       MATHEMATICAL SANS-SERIF BOLD CAPITAL I
1D5DD         ; NFKC_CF; 006A           # L&       MATHEMATICAL SANS-SERIF BOLD CAPITAL J
1D5DE         ; NFKC_CF; 006B           # L&       MATHEMATICAL SANS-SERIF BOLD CAPITAL K
1D5DF         ; NFKC_CF; 006C           # L&       MATHEMATICAL SANS-SERIF BOLD CAPITAL L
1D5E0         ; NFKC_CF; 006D           # L&       MATHEMATICAL SANS-SERIF BOLD CAPITAL M
1D5E1         ; NFKC_CF; 006E           # L&       MATHEMATICAL SANS-SERIF BOLD CAPITAL N
1D5E2         ; NFKC_CF; 006F           # L&       MATHEMATICAL SANS-SERIF BOLD CAPITAL O
1D5E3         ; NFKC_CF; 0070           # L&       MATHEMATICAL SANS-SERIF BOLD CAPITAL P
1D5E4         ; NFKC_CF; 0071           # L&       MATHEMATICAL SANS-SERIF BOLD CAPITAL Q
1D5E5         ; NFKC_CF; 0072           # L&       MATHEMATICAL SANS-SERIF BOLD CAPITAL R
1D5E6         ; NFKC_CF; 0073           # L&       MATHEMATICAL SANS-SERIF BOLD CAPITAL S
"%string.
Definition props_text_372 := "1D5E7         ; NFKC_CF; 0074           # L&       MATHEMATICAL SANS-SERIF BOLD CAPITAL T
1D5E8         ; NFKC_CF; 0075           # L&       MATHEMATICAL SANS-SERIF BOLD CAPITAL U
1D5E9         ; NFKC_CF; 0076           # L&       MATHEMATICAL SANS-SERIF BOLD CAPITAL V
1D5EA         ; NFKC_CF; 0077           # L&       MATHEMATICAL SANS-SERIF BOLD CAPITAL W
1D5EB         ; NFKC_CF; 0078           # L&       MATHEMATICAL SANS-SERIF BOLD CAPITAL X
1D5EC         ; NFKC_CF; 0079           # L&       MATHEMATICAL SANS-SERIF BOLD CAPITAL Y
1D5ED         ; NFKC_CF; 007A           # L&       MATHEMATICAL SANS-SERIF BOLD CAPITAL Z
1D5EE         ; NFKC_CF; 0061           # L&       MATHEMATICAL SANS-SERIF BOLD SMALL A
1D5EF         ; NFKC_CF; 0062           # L&       MATHEMATICAL SANS-SERIF BOLD SMALL B
1D5F0         ; NFKC_CF; 0063           # L&       MATHEMATICAL SANS-SERIF BOLD SMALL C
1D5F1         ; NFKC_CF; 0064           # L&       MATHEMATICAL SANS-SERIF BOLD SMALL D
1D5F2         ; NFKC_CF; 0065           # L&       MATHEMATICAL SANS-SERIF BOLD SMALL E
1D5F3         ; NFKC_CF; 0066           # L&       MATHEMATICAL SANS-SERIF BOLD SMALL F
1D5F4         ; NFKC_CF; 0067           # L&       MATHEMATICAL SANS-SERIF BOLD SMALL G
1D5F5         ; NFKC_CF; 0068           # L&       MATHEMATICAL SANS-SERIF BOLD SMALL H
1D5F6         ; NFKC_CF; 0069           # L&       MATHEMATICAL SANS-SERIF BOLD SMALL I
1D5F7         ; NFKC_CF; 006A           # L&       MATHEMATICAL SANS-SERIF BOLD SMALL J
1D5F8         ; NFKC_CF; 006B           # L&       MATHEMATICAL SANS-SERIF BOLD SMALL K
1D5F9         ; NFKC_CF; 006C           # L&       MATHEMATICAL SANS-SERIF BOLD SMALL L
1D5FA         ; NFKC_CF; 006D           # L&       MATHEMATICAL SANS-SERIF BOLD SMALL M
"%string.
Definition props_text_373 := "1D5FB         ; NFKC_CF; 006E           # L&       MATHEMATICAL SANS-SERIF BOLD SMALL N
1D5FC         ; NFKC_CF; 006F           # L&       MATHEMATICAL SANS-SERIF BOLD SMALL O
1D5FD         ; NFKC_CF; 0070           # L&       MATHEMATICAL SANS-SERIF BOLD SMALL P
1D5FE         ; NFKC_CF; 0071           # L&       MATHEMATICAL SANS-SERIF BOLD SMALL Q
1D5FF         ; NFKC_CF; 0072           # L&       MATHEMATICAL SANS-SERIF BOLD SMALL R
1D600         ; NFKC_CF; 0073           # L&       MATHEMATICAL SANS-SERIF BOLD SMALL S
1D601         ; NFKC_CF; 0074           # L&       MATHEMATICAL SANS-SERIF BOLD SMALL T
1D602         ; NFKC_CF; 0075           # L&       MATHEMATICAL SANS-SERIF BOLD SMALL U
1D603         ; NFKC_CF; 0076           # L&       MATHEMATICAL SANS-SERIF BOLD SMALL V
1D604         ; NFKC_CF; 0077           # L&       MATHEMATICAL SANS-SERIF BOLD SMALL W
1D605         ; NFKC_CF; 0078           # L&       MATHEMATICAL SANS-SERIF BOLD SMALL X
1D606         ; NFKC_CF; 0079           # L&       MATHEMATICAL SANS-SERIF BOLD SMALL Y
1D607         ; NFKC_CF; 007A           # L&       MATHEMATICAL SANS-SERIF BOLD SMALL Z
1D608         ; NFKC_CF; 0061           # L&       MATHEMATICAL SANS-SERIF ITALIC CAPITAL A
1D609         ; NFKC_CF; 0062           # L&       MATHEMATICAL SANS-SERIF ITALIC CAPITAL B
1D60A         ; NFKC_CF; 0063           # L&       MATHEMATICAL SANS-SERIF ITALIC CAPITAL C
1D60B         ; NFKC_CF; 0064           # L&       MATHEMATICAL SANS-SERIF ITALIC CAPITAL D
1D60C         ; NFKC_CF; 0065           # L&       MATHEMATICAL SANS-SERIF ITALIC CAPITAL E
1D60D         ; NFKC_CF; 0066           # L&       MATHEMATICAL SANS-SERIF ITALIC CAPITAL F
1D60E         ; NFKC_CF; 0067           # L&       MATHEMATICAL SANS-SERIF ITALIC CAPITAL G
"%string.
Definition props_text_374 := "1D60F         ; NFKC_CF; 0068           # L&       MATHEMATICAL SANS-SERIF ITALIC CAPITAL H
1D610         ; NFKC_CF; 0069           # L&       MATHEMATICAL SANS-SERIF ITALIC CAPITAL I
1D611         ; NFKC_CF; 006A           # L&       MATHEMATICAL SANS-SERIF ITALIC CAPITAL J
1D612         ; NFKC_CF; 006B           # L&       MATHEMATICAL SANS-SERIF ITALIC CAPITAL K
1D613         ; NFKC_CF; 006C           # L&       MATHEMATICAL SANS-SERIF ITALIC CAPITAL L
1D614         ; NFKC_CF; 006D           # L&       MATHEMATICAL SANS-SERIF ITALIC CAPITAL M
1D615         ; NFKC_CF; 006E           # L&       MATHEMATICAL SANS-SERIF ITALIC CAPITAL N
1D616         ; NFKC_CF; 006F           # L&       MATHEMATICAL SANS-SERIF ITALIC CAPITAL O
1D617         ; NFKC_CF; 0070           # L&       MATHEMATICAL SANS-SERIF ITALIC CAPITAL P
1D618         ; NFKC_CF; 0071           # L&       MATHEMATICAL SANS-SERIF ITALIC CAPITAL Q
1D619         ; NFKC_CF; 0072           # L&       MATHEMATICAL SANS-SERIF ITALIC CAPITAL R
1D61A         ; NFKC_CF; 0073           # L&       MATHEMATICAL SANS-SERIF ITALIC CAPITAL S
1D61B         ; NFKC_CF; 0074           # L&       MATHEMATICAL SANS-SERIF ITALIC CAPITAL T
1D61C         ; NFKC_CF; 0075           # L&       MATHEMATICAL SANS-SERIF ITALIC CAPITAL U
1D61D         ; NFKC_CF; 0076           # L&       MATHEMATICAL SANS-SERIF ITALIC CAPITAL V
1D61E         ; NFKC_CF; 0077           # L&       MATHEMATICAL SANS-SERIF ITALIC CAPITAL W
1D61F         ; NFKC_CF; 0078           # L&       MATHEMATICAL SANS-SERIF ITALIC CAPITAL X
1D620         ; NFKC_CF; 0079           # L&       MATHEMATICAL SANS-SERIF ITALIC CAPITAL Y
1D621         ; NFKC_CF; 007A           # L&       MATHEMATICAL SANS-SERIF ITALIC CAPITAL Z
1D622         ; NFKC_CF; 0061           # L&       MATHEMATICAL SANS-SERIF ITALIC SMALL A
"%string.
Definition props_text_375 := "1D623         ; NFKC_CF; 0062           # L&       MATHEMATICAL SANS-SERIF ITALIC SMALL B
1D624         ; NFKC_CF; 0063           # L&       MATHEMATICAL SANS-SERIF ITALIC SMALL C
1D625         ; NFKC_CF; 0064           # L&       MATHEMATICAL SANS-SERIF ITALIC SMALL D
1D626         ; NFKC_CF; 0065           # L&       MATHEMATICAL SANS-SERIF ITALIC SMALL E
1D627         ; NFKC_CF; 0066           # L&       MATHEMATICAL SANS-SERIF ITALIC SMALL F
1D628         ; NFKC_CF; 0067           # L&       MATHEMATICAL SANS-SERIF ITALIC SMALL G
1D629         ; NFKC_CF; 0068           # L&       MATHEMATICAL SANS-SERIF ITALIC SMALL H
1D62A         ; NFKC_CF; 0069           # L&       MATHEMATICAL SANS-SERIF ITALIC SMALL I
1D62B         ; NFKC_CF; 006A           # L&       MATHEMATICAL SANS-SERIF ITALIC SMALL J
1D62C         ; NFKC_CF; 006B           # L&       MATHEMATICAL SANS-SERIF ITALIC SMALL K
1D62D         ; NFKC_CF; 006C           # L&       MATHEMATICAL SANS-SERIF ITALIC SMALL L
1D62E         ; NFKC_CF; 006D           # L&       MATHEMATICAL SANS-SERIF ITALIC SMALL M
1D62F         ; NFKC_CF; 006E           # L&       MATHEMATICAL SANS-SERIF ITALIC SMALL N
1D630         ; NFKC_CF; 006F           # L&       MATHEMATICAL SANS-SERIF ITALIC SMALL O
1D631         ; NFKC_CF; 0070           # L&       MATHEMATICAL SANS-SERIF ITALIC SMALL P
1D632         ; NFKC_CF; 0071           # L&       MATHEMATICAL SANS-SERIF ITALIC SMALL Q
1D633         ; NFKC_CF; 0072           # L&       MATHEMATICAL SANS-SERIF ITALIC SMALL R
1D634         ; NFKC_CF; 0073           # L&       MATHEMATICAL SANS-SERIF ITALIC SMALL S
1D635         ; NFKC_CF; 0074           # L&       MATHEMATICAL SANS-SERIF ITALIC SMALL T
1D636         ; NFKC_CF; 0075           # L&       MATHEMATICAL SANS-SERIF ITALIC SMALL U
"%string.
Definition props_text_376 := "1D637         ; NFKC_CF; 0076           # L&       MATHEMATICAL SANS-SERIF ITALIC SMALL V
1D638         ; NFKC_CF; 0077           # L&       MATHEMATICAL SANS-SERIF ITALIC SMALL W
1D639         ; NFKC_CF; 0078           # L&       MATHEMATICAL SANS-SERIF ITALIC SMALL X
1D63A         ; NFKC_CF; 0079           # L&       MATHEMATICAL SANS-SERIF ITALIC SMALL Y
1D63B         ; NFKC_CF; 007A           # L&       MATHEMATICAL SANS-SERIF ITALIC SMALL Z
1D63C         ; NFKC_CF; 0061           # L&       MATHEMATICAL SANS-SERIF BOLD ITALIC CAPITAL A
1D63D         ; NFKC_CF; 0062           # L&       MATHEMATICAL SANS-SERIF BOLD ITALIC CAPITAL B
1D63E         ; NFKC_CF; 0063           # L&       MATHEMATICAL SANS-SERIF BOLD ITALIC CAPITAL C
1D63F         ; NFKC_CF; 0064           # L&       MATHEMATICAL SANS-SERIF BOLD ITALIC CAPITAL D
1D640         ; NFKC_CF; 0065           # L&       MATHEMATICAL SANS-SERIF BOLD ITALIC CAPITAL E
1D641         ; NFKC_CF; 0066           # L&       MATHEMATICAL SANS-SERIF BOLD ITALIC CAPITAL F
1D642         ; NFKC_CF; 0067           # L&       MATHEMATICAL SANS-SERIF BOLD ITALIC CAPITAL G
1D643         ; NFKC_CF; 0068           # L&       MATHEMATICAL SANS-SERIF BOLD ITALIC CAPITAL H
1D644         ; NFKC_CF; 0069           # L&       MATHEMATICAL SANS-SERIF BOLD ITALIC CAPITAL I
1D645         ; NFKC_CF; 006A           # L&       MATHEMATICAL SANS-SERIF BOLD ITALIC CAPITAL J
1D646         ; NFKC_CF; 006B           # L&       MATHEMATICAL SANS-SERIF BOLD ITALIC CAPITAL K
1D647         ; NFKC_CF; 006C           # L&       MATHEMATICAL SANS-SERIF BOLD ITALIC CAPITAL L
1D648         ; NFKC_CF; 006D           # L&       MATHEMATICAL SANS-SERIF BOLD ITALIC CAPITAL M
1D649         ; NFKC_CF; 006E           # L&       MATHEMATICAL SANS-SERIF BOLD ITALIC CAPITAL N
1D64A         ; NFKC_CF; 006F           # L&       MATHEMATICAL SANS-SERIF BOLD ITALIC CAPITAL O
"%string.
Definition props_text_377 := "1D64B         ; NFKC_CF; 0070           # L&       MATHEMATICAL SANS-SERIF BOLD ITALIC CAPITAL P
1D64C         ; NFKC_CF; 0071           # L&       MATHEMATICAL SANS-SERIF BOLD ITALIC CAPITAL Q
1D64D         ; NFKC_CF; 0072           # L&       MATHEMATICAL SANS-SERIF BOLD ITALIC CAPITAL R
1D64E         ; NFKC_CF; 0073           # L&       MATHEMATICAL SANS-SERIF BOLD ITALIC CAPITAL S
1D64F         ; NFKC_CF; 0074           # L&       MATHEMATICAL SANS-SERIF BOLD ITALIC CAPITAL T
1D650         ; NFKC_CF; 0075           # L&       MATHEMATICAL SANS-SERIF BOLD ITALIC CAPITAL U
1D651         ; NFKC_CF; 0076           # L&       MATHEMATICAL SANS-SERIF BOLD ITALIC CAPITAL V
1D652         ; NFKC_CF; 0077           # L&       MATHEMATICAL SANS-SERIF BOLD ITALIC CAPITAL W
1D653         ; NFKC_CF; 0078           # L&       MATHEMATICAL SANS-SERIF BOLD ITALIC CAPITAL X
1D654         ; NFKC_CF; 0079           # L&       MATHEMATICAL SANS-SERIF BOLD ITALIC CAPITAL Y
1D655         ; NFKC_CF; 007A           # L&       MATHEMATICAL SANS-SERIF BOLD ITALIC CAPITAL Z
1D656         ; NFKC_CF; 0061           # L&       MATHEMATICAL SANS-SERIF BOLD ITALIC SMALL A
1D657         ; NFKC_CF; 0062           # L&       MATHEMATICAL SANS-SERIF BOLD ITALIC SMALL B
1D658         ; NFKC_CF; 0063           # L&       MATHEMATICAL SANS-SERIF BOLD ITALIC SMALL C
1D659         ; NFKC_CF; 0064           # L&       MATHEMATICAL SANS-SERIF BOLD ITALIC SMALL D
1D65A         ; NFKC_CF; 0065           # L&       MATHEMATICAL SANS-SERIF BOLD ITALIC SMALL E
1D65B         ; NFKC_CF; 0066           # L&       MATHEMATICAL SANS-SERIF BOLD ITALIC SMALL F
1D65C         ; NFKC_CF; 0067           # L&       MATHEMATICAL SANS-SERIF BOLD ITALIC SMALL G
1D65D         ; NFKC_CF; 0068           # L&       MATHEMATICAL SANS-SERIF BOLD ITALIC SMALL H
1D65E         ; NFKC_CF; 0069           # L&       MATHEMATICAL SANS-SERIF BOLD ITALIC SMALL I
"%string.
Definition props_text_378 := "1D65F         ; NFKC_CF; 006A           # L&       MATHEMATICAL SANS-SERIF BOLD ITALIC SMALL J
1D660         ; NFKC_CF; 006B           # L&       MATHEMATICAL SANS-SERIF BOLD ITALIC SMALL K
1D661         ; NFKC_CF; 006C           # L&       MATHEMATICAL SANS-SERIF BOLD ITALIC SMALL L
1D662         ; NFKC_CF; 006D           # L&       MATHEMATICAL SANS-SERIF BOLD ITALIC SMALL M
1D663         ; NFKC_CF; 006E           # L&       MATHEMATICAL SANS-SERIF BOLD ITALIC SMALL N
1D664         ; NFKC_CF; 006F           # L&       MATHEMATICAL SANS-SERIF BOLD ITALIC SMALL O
1D665         ; NFKC_CF; 0070           # L&       MATHEMATICAL SANS-SERIF BOLD ITALIC SMALL P
1D666         ; NFKC_CF; 0071           # L&       MATHEMATICAL SANS-SERIF BOLD ITALIC SMALL Q
1D667         ; NFKC_CF; 0072           # L&       MATHEMATICAL SANS-SERIF BOLD ITALIC SMALL R
1D668         ; NFKC_CF; 0073           # L&       MATHEMATICAL SANS-SERIF BOLD ITALIC SMALL S
1D669         ; NFKC_CF; 0074           # L&       MATHEMATICAL SANS-SERIF BOLD ITALIC SMALL T
1D66A         ; NFKC_CF; 0075           # L&       MATHEMATICAL SANS-SERIF BOLD ITALIC SMALL U
1D66B         ; NFKC_CF; 0076           # L&       MATHEMATICAL SANS-SERIF BOLD ITALIC SMALL V
1D66C         ; NFKC_CF; 0077           # L&       MATHEMATICAL SANS-SERIF BOLD ITALIC SMALL W
1D66D         ; NFKC_CF; 0078           # L&       MATHEMATICAL SANS-SERIF BOLD ITALIC SMALL X
1D66E         ; NFKC_CF; 0079           # L&       MATHEMATICAL SANS-SERIF BOLD ITALIC SMALL Y
1D66F         ; NFKC_CF; 007A           # L&       MATHEMATICAL SANS-SERIF BOLD ITALIC SMALL Z
1D670         ; NFKC_CF; 0061           # L&       MATHEMATICAL MONOSPACE CAPITAL A
1D671         ; NFKC_CF; 0062           # L&       MATHEMATICAL MONOSPACE CAPITAL B
1D672         ; NFKC_CF; 0063           # L&       MATHEMATICAL MONOSPACE CAPITAL C
"%string.
Definition props_text_379 := "1D673         ; NFKC_CF; 0064           # L&       MATHEMATICAL MONOSPACE CAPITAL D
1D674         ; NFKC_CF; 0065           # L&       MATHEMATICAL MONOSPACE CAPITAL E
1D675         ; NFKC_CF; 0066           # L&       MATHEMATICAL MONOSPACE CAPITAL F
1D676         ; NFKC_CF; 0067           # L&       MATHEMATICAL MONOSPACE CAPITAL G
1D677         ; NFKC_CF; 0068           # L&       MATHEMATICAL MONOSPACE CAPITAL H
1D678         ; NFKC_CF; 0069           # L&       MATHEMATICAL MONOSPACE CAPITAL I
1D679         ; NFKC_CF; 006A           # L&       MATHEMATICAL MONOSPACE CAPITAL J
1D67A         ; NFKC_CF; 006B           # L&       MATHEMATICAL MONOSPACE CAPITAL K
1D67B         ; NFKC_CF; 006C           # L&       MATHEMATICAL MONOSPACE CAPITAL L
1D67C         ; NFKC_CF; 006D           # L&       MATHEMATICAL MONOSPACE CAPITAL M
1D67D         ; NFKC_CF; 006E           # L&       MATHEMATICAL MONOSPACE CAPITAL N
1D67E         ; NFKC_CF; 006F           # L&       MATHEMATICAL MONOSPACE CAPITAL O
1D67F         ; NFKC_CF; 0070           # L&       MATHEMATICAL MONOSPACE CAPITAL P
1D680         ; NFKC_CF; 0071           # L&       MATHEMATICAL MONOSPACE CAPITAL Q
1D681         ; NFKC_CF; 0072           # L&       MATHEMATICAL MONOSPACE CAPITAL R
1D682         ; NFKC_CF; 0073           # L&       MATHEMATICAL MONOSPACE CAPITAL S
1D683         ; NFKC_CF; 0074           # L&       MATHEMATICAL MONOSPACE CAPITAL T
1D684         ; NFKC_CF; 0075           # L&       MATHEMATICAL MONOSPACE CAPITAL U
1D685         ; NFKC_CF; 0076           # L&       MATHEMATICAL MONOSPACE CAPITAL V
1D686         ; NFKC_CF; 0077           # L&       MATHEMATICAL MONOSPACE CAPITAL W
"%string.
Definition props_text_380 := "1D687         ; NFKC_CF; 0078           # L&       MATHEMATICAL MONOSPACE CAPITAL X
1D688         ; NFKC_CF; 0079           # L&       MATHEMATICAL MONOSPACE CAPITAL Y
1D689         ; NFKC_CF; 007A           # L&       MATHEMATICAL MONOSPACE CAPITAL Z
1D68A         ; NFKC_CF; 0061           # L&       MATHEMATICAL MONOSPACE SMALL A
1D68B         ; NFKC_CF; 0062           # L&       MATHEMATICAL MONOSPACE SMALL B
1D68C         ; NFKC_CF; 0063           # L&       MATHEMATICAL MONOSPACE SMALL C
1D68D         ; NFKC_CF; 0064           # L&       MATHEMATICAL MONOSPACE SMALL D
1D68E         ; NFKC_CF; 0065           # L&       MATHEMATICAL MONOSPACE SMALL E
1D68F         ; NFKC_CF; 0066           # L&       MATHEMATICAL MONOSPACE SMALL F
1D690         ; NFKC_CF; 0067           # L&       MATHEMATICAL MONOSPACE SMALL G
1D691         ; NFKC_CF; 0068           # L&       MATHEMATICAL MONOSPACE SMALL H
1D692         ; NFKC_CF; 0069           # L&       MATHEMATICAL MONOSPACE SMALL I
1D693         ; NFKC_CF; 006A           # L&       MATHEMATICAL MONOSPACE SMALL J
1D694         ; NFKC_CF; 006B           # L&       MATHEMATICAL MONOSPACE SMALL K
1D695         ; NFKC_CF; 006C           # L&       MATHEMATICAL MONOSPACE SMALL L
1D696         ; NFKC_CF; 006D           # L&       MATHEMATICAL MONOSPACE SMALL M
1D697         ; NFKC_CF; 006E           # L&       MATHEMATICAL MONOSPACE SMALL N
1D698         ; NFKC_CF; 006F           # L&       MATHEMATICAL MONOSPACE SMALL O
1D699         ; NFKC_CF; 0070           # L&       MATHEMATICAL MONOSPACE SMALL P
1D69A         ; NFKC_CF; 0071           # L&       MATHEMATICAL MONOSPACE SMALL Q
"%string.
Definition props_text_381 := "1D69B         ; NFKC_CF; 0072           # L&       MATHEMATICAL MONOSPACE SMALL R
1D69C         ; NFKC_CF; 0073           # L&       MATHEMATICAL MONOSPACE SMALL S
1D69D         ; NFKC_CF; 0074           # L&       MATHEMATICAL MONOSPACE SMALL T
1D69E         ; NFKC_CF; 0075           # L&       MATHEMATICAL MONOSPACE SMALL U
1D69F         ; NFKC_CF; 0076           # L&       MATHEMATICAL MONOSPACE SMALL V
1D6A0         ; NFKC_CF; 0077           # L&       MATHEMATICAL MONOSPACE SMALL W
1D6A1         ; NFKC_CF; 0078           # L&       MATHEMATICAL MONOSPACE SMALL X
1D6A2         ; NFKC_CF; 0079           # L&       MATHEMATICAL MONOSPACE SMALL Y
1D6A3         ; NFKC_CF; 007A           # L&       MATHEMATICAL MONOSPACE SMALL Z
1D6A4         ; NFKC_CF; 0131           # L&       MATHEMATICAL ITALIC SMALL DOTLESS I
1D6A5         ; NFKC_CF; 0237           # L&       MATHEMATICAL ITALIC SMALL DOTLESS J
1D6A8         ; NFKC_CF; 03B1           # L&       MATHEMATICAL BOLD CAPITAL ALPHA
1D6A9         ; NFKC_CF; 03B2           # L&       MATHEMATICAL BOLD CAPITAL BETA
1D6AA         ; NFKC_CF; 03B3           # L&       MATHEMATICAL BOLD CAPITAL GAMMA
1D6AB         ; NFKC_CF; 03B4           # L&       MATHEMATICAL BOLD CAPITAL DELTA
1D6AC         ; NFKC_CF; 03B5           # L&       MATHEMATICAL BOLD CAPITAL EPSILON
1D6AD         ; NFKC_CF; 03B6           # L&       MATHEMATICAL BOLD CAPITAL ZETA
1D6AE         ; NFKC_CF; 03B7           # L&       MATHEMATICAL BOLD CAPITAL ETA
1D6AF         ; NFKC_CF; 03B8           # L&       MATHEMATICAL BOLD CAPITAL THETA
1D6B0         ; NFKC_CF; 03B9           # L&       MATHEMATICAL BOLD CAPITAL IOTA
"%string.
Definition props_text_382 := "1D6B1         ; NFKC_CF; 03BA           # L&       MATHEMATICAL BOLD CAPITAL KAPPA
1D6B2         ; NFKC_CF; 03BB           # L&       MATHEMATICAL BOLD CAPITAL LAMDA
1D6B3         ; NFKC_CF; 03BC           # L&       MATHEMATICAL BOLD CAPITAL MU
1D6B4         ; NFKC_CF; 03BD           # L&       MATHEMATICAL BOLD CAPITAL NU
1D6B5         ; NFKC_CF; 03BE           # L&       MATHEMATICAL BOLD CAPITAL XI
1D6B6         ; NFKC_CF; 03BF           # L&       MATHEMATICAL BOLD CAPITAL OMICRON
1D6B7         ; NFKC_CF; 03C0           # L&       MATHEMATICAL BOLD CAPITAL PI
1D6B8         ; NFKC_CF; 03C1           # L&       MATHEMATICAL BOLD CAPITAL RHO
1D6B9         ; NFKC_CF; 03B8           # L&       MATHEMATICAL BOLD CAPITAL THETA SYMBOL
1D6BA         ; NFKC_CF; 03C3           # L&       MATHEMATICAL BOLD CAPITAL SIGMA
1D6BB         ; NFKC_CF; 03C4           # L&       MATHEMATICAL BOLD CAPITAL TAU
1D6BC         ; NFKC_CF; 03C5           # L&       MATHEMATICAL BOLD CAPITAL UPSILON
1D6BD         ; NFKC_CF; 03C6           # L&       MATHEMATICAL BOLD CAPITAL PHI
1D6BE         ; NFKC_CF; 03C7           # L&       MATHEMATICAL BOLD CAPITAL CHI
1D6BF         ; NFKC_CF; 03C8           # L&       MATHEMATICAL BOLD CAPITAL PSI
1D6C0         ; NFKC_CF; 03C9           # L&       MATHEMATICAL BOLD CAPITAL OMEGA
1D6C1         ; NFKC_CF; 2207           # Sm       MATHEMATICAL BOLD NABLA
1D6C2         ; NFKC_CF; 03B1           # L&       MATHEMATICAL BOLD SMALL ALPHA
1D6C3         ; NFKC_CF; 03B2           # L&       MATHEMATICAL BOLD SMALL BETA
1D6C4         ; NFKC_CF; 03B3           # L&       MATHEMATICAL BOLD SMALL GAMMA
"%string.
Definition props_text_383 := "1D6C5         ; NFKC_CF; 03B4           # L&       MATHEMATICAL BOLD SMALL DELTA
1D6C6         ; NFKC_CF; 03B5           # L&       MATHEMATICAL BOLD SMALL EPSILON
1D6C7         ; NFKC_CF; 03B6           # L&       MATHEMATICAL BOLD SMALL ZETA
1D6C8         ; NFKC_CF; 03B7           # L&       MATHEMATICAL BOLD SMALL ETA
1D6C9         ; NFKC_CF; 03B8           # L&       MATHEMATICAL BOLD SMALL THETA
1D6CA         ; NFKC_CF; 03B9           # L&       MATHEMATICAL BOLD SMALL IOTA
1D6CB         ; NFKC_CF; 03BA           # L&       MATHEMATICAL BOLD SMALL KAPPA
1D6CC         ; NFKC_CF; 03BB           # L&       MATHEMATICAL BOLD SMALL LAMDA
1D6CD         ; NFKC_CF; 03BC           # L&       MATHEMATICAL BOLD SMALL MU
1D6CE         ; NFKC_CF; 03BD           # L&       MATHEMATICAL BOLD SMALL NU
1D6CF         ; NFKC_CF; 03BE           # L&       MATHEMATICAL BOLD SMALL XI
1D6D0         ; NFKC_CF; 03BF           # L&       MATHEMATICAL BOLD SMALL OMICRON
1D6D1         ; NFKC_CF; 03C0           # L&       MATHEMATICAL BOLD SMALL PI
1D6D2         ; NFKC_CF; 03C1           # L&       MATHEMATICAL BOLD SMALL RHO
1D6D3..1D6D4  ; NFKC_CF; 03C3           # L&   [2] MATHEMATICAL BOLD SMALL FINAL SIGMA..MATHEMATICAL BOLD SMALL SIGMA
1D6D5         ; NFKC_CF; 03C4           # L&       MATHEMATICAL BOLD SMALL TAU
1D6D6         ; NFKC_CF; 03C5           # L&       MATHEMATICAL BOLD SMALL UPSILON
1D6D7         ; NFKC_CF; 03C6           # L&       MATHEMATICAL BOLD SMALL PHI
1D6D8         ; NFKC_CF; 03C7           # L&       MATHEMATICAL BOLD SMALL CHI
1D6D9         ; NFKC_CF; 03C8           # L&       MATHEMATICAL BOLD SMALL PSI
"%string.
Definition props_text_384 := "1D6DA         ; NFKC_CF; 03C9           # L&       MATHEMATICAL BOLD SMALL OMEGA
1D6DB         ; NFKC_CF; 2202           # Sm       MATHEMATICAL BOLD PARTIAL DIFFERENTIAL
1D6DC         ; NFKC_CF; 03B5           # L&       MATHEMATICAL BOLD EPSILON SYMBOL
1D6DD         ; NFKC_CF; 03B8           # L&       MATHEMATICAL BOLD THETA SYMBOL
1D6DE         ; NFKC_CF; 03BA           # L&       MATHEMATICAL BOLD KAPPA SYMBOL
1D6DF         ; NFKC_CF; 03C6           # L&       MATHEMATICAL BOLD PHI SYMBOL
1D6E0         ; NFKC_CF; 03C1           # L&       MATHEMATICAL BOLD RHO SYMBOL
1D6E1         ; NFKC_CF; 03C0           # L&       MATHEMATICAL BOLD PI SYMBOL
1D6E2         ; NFKC_CF; 03B1           # L&       MATHEMATICAL ITALIC CAPITAL ALPHA
1D6E3         ; NFKC_CF; 03B2           # L&       MATHEMATICAL ITALIC CAPITAL BETA
1D6E4         ; NFKC_CF; 03B3           # L&       MATHEMATICAL ITALIC CAPITAL GAMMA
1D6E5         ; NFKC_CF; 03B4           # L&       MATHEMATICAL ITALIC CAPITAL DELTA
1D6E6         ; NFKC_CF; 03B5           # L&       MATHEMATICAL ITALIC CAPITAL EPSILON
1D6E7         ; NFKC_CF; 03B6           # L&       MATHEMATICAL ITALIC CAPITAL ZETA
1D6E8         ; NFKC_CF; 03B7           # L&       MATHEMATICAL ITALIC CAPITAL ETA
1D6E9         ; NFKC_CF; 03B8           # L&       MATHEMATICAL ITALIC CAPITAL THETA
1D6EA         ; NFKC_CF; 03B9           # L&       MATHEMATICAL ITALIC CAPITAL IOTA
1D6EB         ; NFKC_CF; 03BA           # L&       MATHEMATICAL ITALIC CAPITAL KAPPA
1D6EC         ; NFKC_CF; 03BB           # L&       MATHEMATICAL ITALIC CAPITAL LAMDA
1D6ED         ; NFKC_CF; 03BC           # L&       MATHEMATICAL ITALIC CAPITAL MU
"%string.
Definition props_text_385 := "1D6EE         ; NFKC_CF; 03BD           # L&       MATHEMATICAL ITALIC CAPITAL NU
1D6EF         ; NFKC_CF; 03BE           # L&       MATHEMATICAL ITALIC CAPITAL XI
1D6F0         ; NFKC_CF; 03BF           # L&       MATHEMATICAL ITALIC CAPITAL OMICRON
1D6F1         ; NFKC_CF; 03C0           # L&       MATHEMATICAL ITALIC CAPITAL PI
1D6F2         ; NFKC_CF; 03C1           # L&       MATHEMATICAL ITALIC CAPITAL RHO
1D6F3         ; NFKC_CF; 03B8           # L&       MATHEMATICAL ITALIC CAPITAL THETA SYMBOL
1D6F4         ; NFKC_CF; 03C3           # L&       MATHEMATICAL ITALIC CAPITAL SIGMA
1D6F5         ; NFKC_CF; 03C4           # L&       MATHEMATICAL ITALIC CAPITAL TAU
1D6F6         ; NFKC_CF; 03C5           # L&       MATHEMATICAL ITALIC CAPITAL UPSILON
1D6F7         ; NFKC_CF; 03C6           # L&       MATHEMATICAL ITALIC CAPITAL PHI
1D6F8         ; NFKC_CF; 03C7           # L&       MATHEMATICAL ITALIC CAPITAL CHI
1D6F9         ; NFKC_CF; 03C8           # L&       MATHEMATICAL ITALIC CAPITAL PSI
1D6FA         ; NFKC_CF; 03C9           # L&       MATHEMATICAL ITALIC CAPITAL OMEGA
1D6FB         ; NFKC_CF; 2207           # Sm       MATHEMATICAL ITALIC NABLA
1D6FC         ; NFKC_CF; 03B1           # L&       MATHEMATICAL ITALIC SMALL ALPHA
1D6FD         ; NFKC_CF; 03B2           # L&       MATHEMATICAL ITALIC SMALL BETA
1D6FE         ; NFKC_CF; 03B3           # L&       MATHEMATICAL ITALIC SMALL GAMMA
1D6FF         ; NFKC_CF; 03B4           # L&       MATHEMATICAL ITALIC SMALL DELTA
1D700         ; NFKC_CF; 03B5           # L&       MATHEMATICAL ITALIC SMALL EPSILON
1D701         ; NFKC_CF; 03B6           # L&       MATHEMATICAL ITALIC SMALL ZETA
"%string.
Definition props_text_386 := "1D702         ; NFKC_CF; 03B7           # L&       MATHEMATICAL ITALIC SMALL ETA
1D703         ; NFKC_CF; 03B8           # L&       MATHEMATICAL ITALIC SMALL THETA
1D704         ; NFKC_CF; 03B9           # L&       MATHEMATICAL ITALIC SMALL IOTA
1D705         ; NFKC_CF; 03BA           # L&       MATHEMATICAL ITALIC SMALL KAPPA
1D706         ; NFKC_CF; 03BB           # L&       MATHEMATICAL ITALIC SMALL LAMDA
1D707         ; NFKC_CF; 03BC           # L&       MATHEMATICAL ITALIC SMALL MU
1D708         ; NFKC_CF; 03BD           # L&       MATHEMATICAL ITALIC SMALL NU
1D709         ; NFKC_CF; 03BE           # L&       MATHEMATICAL ITALIC SMALL XI
1D70A         ; NFKC_CF; 03BF           # L&       MATHEMATICAL ITALIC SMALL OMICRON
1D70B         ; NFKC_CF; 03C0           # L&       MATHEMATICAL ITALIC SMALL PI
1D70C         ; NFKC_CF; 03C1           # L&       MATHEMATICAL ITALIC SMALL RHO
1D70D..1D70E  ; NFKC_CF; 03C3           # L&   [2] MATHEMATICAL ITALIC SMALL FINAL SIGMA..MATHEMATICAL ITALIC SMALL SIGMA
1D70F         ; NFKC_CF; 03C4           # L&       MATHEMATICAL ITALIC SMALL TAU
1D710         ; NFKC_CF; 03C5           # L&       MATHEMATICAL ITALIC SMALL UPSILON
1D711         ; NFKC_CF; 03C6           # L&       MATHEMATICAL ITALIC SMALL PHI
1D712         ; NFKC_CF; 03C7           # L&       MATHEMATICAL ITALIC SMALL CHI
1D713         ; NFKC_CF; 03C8           # L&       MATHEMATICAL ITALIC SMALL PSI
1D714         ; NFKC_CF; 03C9           # L&       MATHEMATICAL ITALIC SMALL OMEGA
1D715         ; NFKC_CF; 2202           # Sm       MATHEMATICAL ITALIC PARTIAL DIFFERENTIAL
1D716         ; NFKC_CF; 03B5           # L&       MATHEMATICAL ITALIC EPSILON SYMBOL
"%string.
Definition props_text_387 := "1D717         ; NFKC_CF; 03B8           # L&       MATHEMATICAL ITALIC THETA SYMBOL
1D718         ; NFKC_CF; 03BA           # L&       MATHEMATICAL ITALIC KAPPA SYMBOL
1D719         ; NFKC_CF; 03C6           # L&       MATHEMATICAL ITALIC PHI SYMBOL
1D71A         ; NFKC_CF; 03C1           # L&       MATHEMATICAL ITALIC RHO SYMBOL
1D71B         ; NFKC_CF; 03C0           # L&       MATHEMATICAL ITALIC PI SYMBOL
1D71C         ; NFKC_CF; 03B1           # L&       MATHEMATICAL BOLD ITALIC CAPITAL ALPHA
1D71D         ; NFKC_CF; 03B2           # L&       MATHEMATICAL BOLD ITALIC CAPITAL BETA
1D71E         ; NFKC_CF; 03B3           # L&       MATHEMATICAL BOLD ITALIC CAPITAL GAMMA
1D71F         ; NFKC_CF; 03B4           # L&       MATHEMATICAL BOLD ITALIC CAPITAL DELTA
1D720         ; NFKC_CF; 03B5           # L&       MATHEMATICAL BOLD ITALIC CAPITAL EPSILON
1D721         ; NFKC_CF; 03B6           # L&       MATHEMATICAL BOLD ITALIC CAPITAL ZETA
1D722         ; NFKC_CF; 03B7           # L&       MATHEMATICAL BOLD ITALIC CAPITAL ETA
1D723         ; NFKC_CF; 03B8           # L&       MATHEMATICAL BOLD ITALIC CAPITAL THETA
1D724         ; NFKC_CF; 03B9           # L&       MATHEMATICAL BOLD ITALIC CAPITAL IOTA
1D725         ; NFKC_CF; 03BA           # L&       MATHEMATICAL BOLD ITALIC CAPITAL KAPPA
1D726         ; NFKC_CF; 03BB           # L&       MATHEMATICAL BOLD ITALIC CAPITAL LAMDA
1D727         ; NFKC_CF; 03BC           # L&       MATHEMATICAL BOLD ITALIC CAPITAL MU
1D728         ; NFKC_CF; 03BD           # L&       MATHEMATICAL BOLD ITALIC CAPITAL NU
1D729         ; NFKC_CF; 03BE           # L&       MATHEMATICAL BOLD ITALIC CAPITAL XI
1D72A         ; NFKC_CF; 03BF           # L&       MATHEMATICAL BOLD ITALIC CAPITAL OMICRON
"%string.
Definition props_text_388 := "1D72B         ; NFKC_CF; 03C0           # L&       MATHEMATICAL BOLD ITALIC CAPITAL PI
1D72C         ; NFKC_CF; 03C1           # L&       MATHEMATICAL BOLD ITALIC CAPITAL RHO
1D72D         ; NFKC_CF; 03B8           # L&       MATHEMATICAL BOLD ITALIC CAPITAL THETA SYMBOL
1D72E         ; NFKC_CF; 03C3           # L&       MATHEMATICAL BOLD ITALIC CAPITAL SIGMA
1D72F         ; NFKC_CF; 03C4           # L&       MATHEMATICAL BOLD ITALIC CAPITAL TAU
1D730         ; NFKC_CF; 03C5           # L&       MATHEMATICAL BOLD ITALIC CAPITAL UPSILON
1D731         ; NFKC_CF; 03C6           # L&       MATHEMATICAL BOLD ITALIC CAPITAL PHI
1D732         ; NFKC_CF; 03C7           # L&       MATHEMATICAL BOLD ITALIC CAPITAL CHI
1D733         ; NFKC_CF; 03C8           # L&       MATHEMATICAL BOLD ITALIC CAPITAL PSI
1D734         ; NFKC_CF; 03C9           # L&       MATHEMATICAL BOLD ITALIC CAPITAL OMEGA
1D735         ; NFKC_CF; 2207           # Sm       MATHEMATICAL BOLD ITALIC NABLA
1D736         ; NFKC_CF; 03B1           # L&       MATHEMATICAL BOLD ITALIC SMALL ALPHA
1D737         ; NFKC_CF; 03B2           # L&       MATHEMATICAL BOLD ITALIC SMALL BETA
1D738         ; NFKC_CF; 03B3           # L&       MATHEMATICAL BOLD ITALIC SMALL GAMMA
1D739         ; NFKC_CF; 03B4           # L&       MATHEMATICAL BOLD ITALIC SMALL DELTA
1D73A         ; NFKC_CF; 03B5           # L&       MATHEMATICAL BOLD ITALIC SMALL EPSILON
1D73B         ; NFKC_CF; 03B6           # L&       MATHEMATICAL BOLD ITALIC SMALL ZETA
1D73C         ; NFKC_CF; 03B7           # L&       MATHEMATICAL BOLD ITALIC SMALL ETA
1D73D         ; NFKC_CF; 03B8           # L&       MATHEMATICAL BOLD ITALIC SMALL THETA
1D73E         ; NFKC_CF; 03B9           # L&       MATHEMATICAL BOLD ITALIC SMALL IOTA
"%string.
Definition props_text_389 := "1D73F         ; NFKC_CF; 03BA           # L&       MATHEMATICAL BOLD ITALIC SMALL KAPPA
1D740         ; NFKC_CF; 03BB           # L&       MATHEMATICAL BOLD ITALIC SMALL LAMDA
1D741         ; NFKC_CF; 03BC           # L&       MATHEMATICAL BOLD ITALIC SMALL MU
1D742         ; NFKC_CF; 03BD           # L&       MATHEMATICAL BOLD ITALIC SMALL NU
1D743         ; NFKC_CF; 03BE           # L&       MATHEMATICAL BOLD ITALIC SMALL XI
1D744         ; NFKC_CF; 03BF           # L&       MATHEMATICAL BOLD ITALIC SMALL OMICRON
1D745         ; NFKC_CF; 03C0           # L&       MATHEMATICAL BOLD ITALIC SMALL PI
1D746         ; NFKC_CF; 03C1           # L&       MATHEMATICAL BOLD ITALIC SMALL RHO
1D747..1D748  ; NFKC_CF; 03C3           # L&   [2] MATHEMATICAL BOLD ITALIC SMALL FINAL SIGMA..MATHEMATICAL BOLD ITALIC SMALL SIGMA
1D749         ; NFKC_CF; 03C4           # L&       MATHEMATICAL BOLD ITALIC SMALL TAU
1D74A         ; NFKC_CF; 03C5           # L&       MATHEMATICAL BOLD ITALIC SMALL UPSILON
1D74B         ; NFKC_CF; 03C6           # L&       MATHEMATICAL BOLD ITALIC SMALL PHI
1D74C         ; NFKC_CF; 03C7           # L&       MATHEMATICAL BOLD ITALIC SMALL CHI
1D74D         ; NFKC_CF; 03C8           # L&       MATHEMATICAL BOLD ITALIC SMALL PSI
1D74E         ; NFKC_CF; 03C9           # L&       MATHEMATICAL BOLD ITALIC SMALL OMEGA
1D74F         ; NFKC_CF; 2202           # Sm       MATHEMATICAL BOLD ITALIC PARTIAL DIFFERENTIAL
1D750         ; NFKC_CF; 03B5           # L&       MATHEMATICAL BOLD ITALIC EPSILON SYMBOL
1D751         ; NFKC_CF; 03B8           # L&       MATHEMATICAL BOLD ITALIC THETA SYMBOL
1D752         ; NFKC_CF; 03BA           # L&       MATHEMATICAL BOLD ITALIC KAPPA SYMBOL
1D753         ; NFKC_CF; 03C6           # L&       MATHEMATICAL BOLD ITALIC PHI SYMBOL
"%string.
Definition props_text_390 := "1D754         ; NFKC_CF; 03C1           # L&       MATHEMATICAL BOLD ITALIC RHO SYMBOL
1D755         ; NFKC_CF; 03C0           # L&       MATHEMATICAL BOLD ITALIC PI SYMBOL
1D756         ; NFKC_CF; 03B1           # L&       MATHEMATICAL SANS-SERIF BOLD CAPITAL ALPHA
1D757         ; NFKC_CF; 03B2           # L&       MATHEMATICAL SANS-SERIF BOLD CAPITAL BETA
1D758         ; NFKC_CF; 03B3           # L&       MATHEMATICAL SANS-SERIF BOLD CAPITAL GAMMA
1D759         ; NFKC_CF; 03B4           # L&       MATHEMATICAL SANS-SERIF BOLD CAPITAL DELTA
1D75A         ; NFKC_CF; 03B5           # L&       MATHEMATICAL SANS-SERIF BOLD CAPITAL EPSILON
1D75B         ; NFKC_CF; 03B6           # L&       MATHEMATICAL SANS-SERIF BOLD CAPITAL ZETA
1D75C         ; NFKC_CF; 03B7           # L&       MATHEMATICAL SANS-SERIF BOLD CAPITAL ETA
1D75D         ; NFKC_CF; 03B8           # L&       MATHEMATICAL SANS-SERIF BOLD CAPITAL THETA
1D75E         ; NFKC_CF; 03B9           # L&       MATHEMATICAL SANS-SERIF BOLD CAPITAL IOTA
1D75F         ; NFKC_CF; 03BA           # L&       MATHEMATICAL SANS-SERIF BOLD CAPITAL KAPPA
1D760         ; NFKC_CF; 03BB           # L&       MATHEMATICAL SANS-SERIF BOLD CAPITAL LAMDA
1D761         ; NFKC_CF; 03BC           # L&       MATHEMATICAL SANS-SERIF BOLD CAPITAL MU
1D762         ; NFKC_CF; 03BD           # L&       MATHEMATICAL SANS-SERIF BOLD CAPITAL NU
1D763         ; NFKC_CF; 03BE           # L&       MATHEMATICAL SANS-SERIF BOLD CAPITAL XI
1D764         ; NFKC_CF; 03BF           # L&       MATHEMATICAL SANS-SERIF BOLD CAPITAL OMICRON
1D765         ; NFKC_CF; 03C0           # L&       MATHEMATICAL SANS-SERIF BOLD CAPITAL PI
1D766         ; NFKC_CF; 03C1           # L&       MATHEMATICAL SANS-SERIF BOLD CAPITAL RHO
1D767         ; NFKC_CF; 03B8           # L&       MATHEMATICAL SANS-SERIF BOLD CAPITAL THETA SYMBOL
"%string.
Definition props_text_391 := "1D768         ; NFKC_CF; 03C3           # L&       MATHEMATICAL SANS-SERIF BOLD CAPITAL SIGMA
1D769         ; NFKC_CF; 03C4           # L&       MATHEMATICAL SANS-SERIF BOLD CAPITAL TAU
1D76A         ; NFKC_CF; 03C5           # L&       MATHEMATICAL SANS-SERIF BOLD CAPITAL UPSILON
1D76B         ; NFKC_CF; 03C6           # L&       MATHEMATICAL SANS-SERIF BOLD CAPITAL PHI
1D76C         ; NFKC_CF; 03C7           # L&       MATHEMATICAL SANS-SERIF BOLD CAPITAL CHI
1D76D         ; NFKC_CF; 03C8           # L&       MATHEMATICAL SANS-SERIF BOLD CAPITAL PSI
1D76E         ; NFKC_CF; 03C9           # L&       MATHEMATICAL SANS-SERIF BOLD CAPITAL OMEGA
1D76F         ; NFKC_CF; 2207           # Sm       MATHEMATICAL SANS-SERIF BOLD NABLA
1D770         ; NFKC_CF; 03B1           # L&       MATHEMATICAL SANS-SERIF BOLD SMALL ALPHA
1D771         ; NFKC_CF; 03B2           # L&       MATHEMATICAL SANS-SERIF BOLD SMALL BETA
1D772         ; NFKC_CF; 03B3           # L&       MATHEMATICAL SANS-SERIF BOLD SMALL GAMMA
1D773         ; NFKC_CF; 03B4           # L&       MATHEMATICAL SANS-SERIF BOLD SMALL DELTA
1D774         ; NFKC_CF; 03B5           # L&       MATHEMATICAL SANS-SERIF BOLD SMALL EPSILON
1D775         ; NFKC_CF; 03B6           # L&       MATHEMATICAL SANS-SERIF BOLD SMALL ZETA
1D776         ; NFKC_CF; 03B7           # L&       MATHEMATICAL SANS-SERIF BOLD SMALL ETA
1D777         ; NFKC_CF; 03B8           # L&       MATHEMATICAL SANS-SERIF BOLD SMALL THETA
1D778         ; NFKC_CF; 03B9           # L&       MATHEMATICAL SANS-SERIF BOLD SMALL IOTA
1D779         ; NFKC_CF; 03BA           # L&       MATHEMATICAL SANS-SERIF BOLD SMALL KAPPA
1D77A         ; NFKC_CF; 03BB           # L&       MATHEMATICAL SANS-SERIF BOLD SMALL LAMDA
1D77B         ; NFKC_CF; 03BC           # L&       MATHEMATICAL SANS-SERIF BOLD SMALL MU
"%string.
Definition props_text_392 := "1D77C         ; NFKC_CF; 03BD           # L&       MATHEMATICAL SANS-SERIF BOLD SMALL NU
1D77D         ; NFKC_CF; 03BE           # L&       MATHEMATICAL SANS-SERIF BOLD SMALL XI
1D77E         ; NFKC_CF; 03BF           # L&       MATHEMATICAL SANS-SERIF BOLD SMALL OMICRON
1D77F         ; NFKC_CF; 03C0           # L&       MATHEMATICAL SANS-SERIF BOLD SMALL PI
1D780         ; NFKC_CF; 03C1           # L&       MATHEMATICAL SANS-SERIF BOLD SMALL RHO
1D781..1D782  ; NFKC_CF; 03C3           # L&   [2] MATHEMATICAL SANS-SERIF BOLD SMALL FINAL SIGMA..MATHEMATICAL SANS-SERIF BOLD SMALL SIGMA
1D783         ; NFKC_CF; 03C4           # L&       MATHEMATICAL SANS-SERIF BOLD SMALL TAU
1D784         ; NFKC_CF; 03C5           # L&       MATHEMATICAL SANS-SERIF BOLD SMALL UPSILON
1D785         ; NFKC_CF; 03C6           # L&       MATHEMATICAL SANS-SERIF BOLD SMALL PHI
1D786         ; NFKC_CF; 03C7           # L&       MATHEMATICAL SANS-SERIF BOLD SMALL CHI
1D787         ; NFKC_CF; 03C8           # L&       MATHEMATICAL SANS-SERIF BOLD SMALL PSI
1D788         ; NFKC_CF; 03C9           # L&       MATHEMATICAL SANS-SERIF BOLD SMALL OMEGA
1D789         ; NFKC_CF; 2202           # Sm       MATHEMATICAL SANS-SERIF BOLD PARTIAL DIFFERENTIAL
1D78A         ; NFKC_CF; 03B5           # L&       MATHEMATICAL SANS-SERIF BOLD EPSILON SYMBOL
1D78B         ; NFKC_CF; 03B8           # L&       MATHEMATICAL SANS-SERIF BOLD THETA SYMBOL
1D78C         ; NFKC_CF; 03BA           # L&       MATHEMATICAL SANS-SERIF BOLD KAPPA SYMBOL
1D78D         ; NFKC_CF; 03C6           # L&       MATHEMATICAL SANS-SERIF BOLD PHI SYMBOL
1D78E         ; NFKC_CF; 03C1           # L&       MATHEMATICAL SANS-SERIF BOLD RHO SYMBOL
1D78F         ; NFKC_CF; 03C0           # L&       MATHEMATICAL SANS-SERIF BOLD PI SYMBOL
1D790         ; NFKC_CF; 03B1           # L&       MATHEMATICAL SANS-SERIF BOLD ITALIC CAPITAL ALPHA
"%string.
Definition props_text_393 := "1D791         ; NFKC_CF; 03B2           # L&       MATHEMATICAL SANS-SERIF BOLD ITALIC CAPITAL BETA
1D792         ; NFKC_CF; 03B3           # L&       MATHEMATICAL SANS-SERIF BOLD ITALIC CAPITAL GAMMA
1D793         ; NFKC_CF; 03B4           # L&       MATHEMATICAL SANS-SERIF BOLD ITALIC CAPITAL DELTA
1D794         ; NFKC_CF; 03B5           # L&       MATHEMATICAL SANS-SERIF BOLD ITALIC CAPITAL EPSILON
1D795         ; NFKC_CF; 03B6           # L&       MATHEMATICAL SANS-SERIF BOLD ITALIC CAPITAL ZETA
1D796         ; NFKC_CF; 03B7           # L&       MATHEMATICAL SANS-SERIF BOLD ITALIC CAPITAL ETA
1D797         ; NFKC_CF; 03B8           # L&       MATHEMATICAL SANS-SERIF BOLD ITALIC CAPITAL THETA
1D798         ; NFKC_CF; 03B9           # L&       MATHEMATICAL SANS-SERIF BOLD ITALIC CAPITAL IOTA
1D799         ; NFKC_CF; 03BA           # L&       MATHEMATICAL SANS-SERIF BOLD ITALIC CAPITAL KAPPA
1D79A         ; NFKC_CF; 03BB           # L&       MATHEMATICAL SANS-SERIF BOLD ITALIC CAPITAL LAMDA
1D79B         ; NFKC_CF; 03BC           # L&       MATHEMATICAL SANS-SERIF BOLD ITALIC CAPITAL MU
1D79C         ; NFKC_CF; 03BD           # L&       MATHEMATICAL SANS-SERIF BOLD ITALIC CAPITAL NU
1D79D         ; NFKC_CF; 03BE           # L&       MATHEMATICAL SANS-SERIF BOLD ITALIC CAPITAL XI
1D79E         ; NFKC_CF; 03BF           # L&       MATHEMATICAL SANS-SERIF BOLD ITALIC CAPITAL OMICRON
1D79F         ; NFKC_CF; 03C0           # L&       MATHEMATICAL SANS-SERIF BOLD ITALIC CAPITAL PI
1D7A0         ; NFKC_CF; 03C1           # L&       MATHEMATICAL SANS-SERIF BOLD ITALIC CAPITAL RHO
1D7A1         ; NFKC_CF; 03B8           # L&       MATHEMATICAL SANS-SERIF BOLD ITALIC CAPITAL THETA SYMBOL
1D7A2         ; NFKC_CF; 03C3           # L&       MATHEMATICAL SANS-SERIF BOLD ITALIC CAPITAL SIGMA
1D7A3         ; NFKC_CF; 03C4           # L&       MATHEMATICAL SANS-SERIF BOLD ITALIC CAPITAL TAU
1D7A4         ; NFKC_CF; 03C5           # L&       MATHEMATICAL SANS-SERIF BOLD ITALIC CAPITAL UPSILON
"%string.
Definition props_text_394 := "1D7A5         ; NFKC_CF; 03C6           # L&       MATHEMATICAL SANS-SERIF BOLD ITALIC CAPITAL PHI
1D7A6         ; NFKC_CF; 03C7           # L&       MATHEMATICAL SANS-SERIF BOLD ITALIC CAPITAL CHI
1D7A7         ; NFKC_CF; 03C8           # L&       MATHEMATICAL SANS-SERIF BOLD ITALIC CAPITAL PSI
1D7A8         ; NFKC_CF; 03C9           # L&       MATHEMATICAL SANS-SERIF BOLD ITALIC CAPITAL OMEGA
1D7A9         ; NFKC_CF; 2207           # Sm       MATHEMATICAL SANS-SERIF BOLD ITALIC NABLA
1D7AA         ; NFKC_CF; 03B1           # L&       MATHEMATICAL SANS-SERIF BOLD ITALIC SMALL ALPHA
1D7AB         ; NFKC_CF; 03B2           # L&       MATHEMATICAL SANS-SERIF BOLD ITALIC SMALL BETA
1D7AC         ; NFKC_CF; 03B3           # L&       MATHEMATICAL SANS-SERIF BOLD ITALIC SMALL GAMMA
1D7AD         ; NFKC_CF; 03B4           # L&       MATHEMATICAL SANS-SERIF BOLD ITALIC SMALL DELTA
1D7AE         ; NFKC_CF; 03B5           # L&       MATHEMATICAL SANS-SERIF BOLD ITALIC SMALL EPSILON
1D7AF         ; NFKC_CF; 03B6           # L&       MATHEMATICAL SANS-SERIF BOLD ITALIC SMALL ZETA
1D7B0         ; NFKC_CF; 03B7           # L&       MATHEMATICAL SANS-SERIF BOLD ITALIC SMALL ETA
1D7B1         ; NFKC_CF; 03B8           # L&       MATHEMATICAL SANS-SERIF BOLD ITALIC SMALL THETA
1D7B2         ; NFKC_CF; 03B9           # L&       MATHEMATICAL SANS-SERIF BOLD ITALIC SMALL IOTA
1D7B3         ; NFKC_CF; 03BA           # L&       MATHEMATICAL SANS-SERIF BOLD ITALIC SMALL KAPPA
1D7B4         ; NFKC_CF; 03BB           # L&       MATHEMATICAL SANS-SERIF BOLD ITALIC SMALL LAMDA
1D7B5         ; NFKC_CF; 03BC           # L&       MATHEMATICAL SANS-SERIF BOLD ITALIC SMALL MU
1D7B6         ; NFKC_CF; 03BD           # L&       MATHEMATICAL SANS-SERIF BOLD ITALIC SMALL NU
1D7B7         ; NFKC_CF; 03BE           # L&       MATHEMATICAL SANS-SERIF BOLD ITALIC SMALL XI
1D7B8         ; NFKC_CF; 03BF           # L&       MATHEMATICAL SANS-SERIF BOLD ITALIC SMALL OMICRON
"%string.
Definition props_text_395 := "1D7B9         ; NFKC_CF; 03C0           # L&       MATHEMATICAL SANS-SERIF BOLD ITALIC SMALL PI
1D7BA         ; NFKC_CF; 03C1           # L&       MATHEMATICAL SANS-SERIF BOLD ITALIC SMALL RHO
1D7BB..1D7BC  ; NFKC_CF; 03C3           # L&   [2] MATHEMATICAL SANS-SERIF BOLD ITALIC SMALL FINAL SIGMA..MATHEMATICAL SANS-SERIF BOLD ITALIC SMALL SIGMA
1D7BD         ; NFKC_CF; 03C4           # L&       MATHEMATICAL SANS-SERIF BOLD ITALIC SMALL TAU
1D7BE         ; NFKC_CF; 03C5           # L&       MATHEMATICAL SANS-SERIF BOLD ITALIC SMALL UPSILON
1D7BF         ; NFKC_CF; 03C6           # L&       MATHEMATICAL SANS-SERIF BOLD ITALIC SMALL PHI
1D7C0         ; NFKC_CF; 03C7           # L&       MATHEMATICAL SANS-SERIF BOLD ITALIC SMALL CHI
1D7C1         ; NFKC_CF; 03C8           # L&       MATHEMATICAL SANS-SERIF BOLD ITALIC SMALL PSI
1D7C2         ; NFKC_CF; 03C9           # L&       MATHEMATICAL SANS-SERIF BOLD ITALIC SMALL OMEGA
1D7C3         ; NFKC_CF; 2202           # Sm       MATHEMATICAL SANS-SERIF BOLD ITALIC PARTIAL DIFFERENTIAL
1D7C4         ; NFKC_CF; 03B5           # L&       MATHEMATICAL SANS-SERIF BOLD ITALIC EPSILON SYMBOL
1D7C5         ; NFKC_CF; 03B8           # L&       MATHEMATICAL SANS-SERIF BOLD ITALIC THETA SYMBOL
1D7C6         ; NFKC_CF; 03BA           # L&       MATHEMATICAL SANS-SERIF BOLD ITALIC KAPPA SYMBOL
1D7C7         ; NFKC_CF; 03C6           # L&       MATHEMATICAL SANS-SERIF BOLD ITALIC PHI SYMBOL
1D7C8         ; NFKC_CF; 03C1           # L&       MATHEMATICAL SANS-SERIF BOLD ITALIC RHO SYMBOL
1D7C9         ; NFKC_CF; 03C0           # L&       MATHEMATICAL SANS-SERIF BOLD ITALIC PI SYMBOL
1D7CA..1D7CB  ; NFKC_CF; 03DD           # L&   [2] MATHEMATICAL BOLD CAPITAL DIGAMMA..MATHEMATICAL BOLD SMALL DIGAMMA
1D7CE         ; NFKC_CF; 0030           # Nd       MATHEMATICAL BOLD DIGIT ZERO
1D7CF         ; NFKC_CF; 0031           # Nd       MATHEMATICAL BOLD DIGIT ONE
1D7D0         ; NFKC_CF; 0032           # Nd       MATHEMATICAL BOLD DIGIT TWO
"%string.
Definition props_text_396 := "1D7D1         ; NFKC_CF; 0033           # Nd       MATHEMATICAL BOLD DIGIT THREE
1D7D2         ; NFKC_CF; 0034           # Nd       MATHEMATICAL BOLD DIGIT FOUR
1D7D3         ; NFKC_CF; 0035           # Nd       MATHEMATICAL BOLD DIGIT FIVE
1D7D4         ; NFKC_CF; 0036           # Nd       MATHEMATICAL BOLD DIGIT SIX
1D7D5         ; NFKC_CF; 0037           # Nd       MATHEMATICAL BOLD DIGIT SEVEN
1D7D6         ; NFKC_CF; 0038           # Nd       MATHEMATICAL BOLD DIGIT EIGHT
1D7D7         ; NFKC_CF; 0039           # Nd       MATHEMATICAL BOLD DIGIT NINE
1D7D8         ; NFKC_CF; 0030           # Nd       MATHEMATICAL DOUBLE-STRUCK DIGIT ZERO
1D7D9         ; NFKC_CF; 0031           # Nd       MATHEMATICAL DOUBLE-STRUCK DIGIT ONE
1D7DA         ; NFKC_CF; 0032           # Nd       MATHEMATICAL DOUBLE-STRUCK DIGIT TWO
1D7DB         ; NFKC_CF; 0033           # Nd       MATHEMATICAL DOUBLE-STRUCK DIGIT THREE
1D7DC         ; NFKC_CF; 0034           # Nd       MATHEMATICAL DOUBLE-STRUCK DIGIT FOUR
1D7DD         ; NFKC_CF; 0035           # Nd       MATHEMATICAL DOUBLE-STRUCK DIGIT FIVE
1D7DE         ; NFKC_CF; 0036           # Nd       MATHEMATICAL DOUBLE-STRUCK DIGIT SIX
1D7DF         ; NFKC_CF; 0037           # Nd       MATHEMATICAL DOUBLE-STRUCK DIGIT SEVEN
1D7E0         ; NFKC_CF; 0038           # Nd       MATHEMATICAL DOUBLE-STRUCK DIGIT EIGHT
1D7E1         ; NFKC_CF; 0039           # Nd       MATHEMATICAL DOUBLE-STRUCK DIGIT NINE
1D7E2         ; NFKC_CF; 0030           # Nd       MATHEMATICAL SANS-SERIF DIGIT ZERO
1D7E3         ; NFKC_CF; 0031           # Nd       MATHEMATICAL SANS-SERIF DIGIT ONE
1D7E4         ; NFKC_CF; 0032           # Nd       MATHEMATICAL SANS-SERIF DIGIT TWO
"%string.
Definition props_text_397 := "1D7E5         ; NFKC_CF; 0033           # Nd       MATHEMATICAL SANS-SERIF DIGIT THREE
1D7E6         ; NFKC_CF; 0034           # Nd       MATHEMATICAL SANS-SERIF DIGIT FOUR
1D7E7         ; NFKC_CF; 0035           # Nd       MATHEMATICAL SANS-SERIF DIGIT FIVE
1D7E8         ; NFKC_CF; 0036           # Nd       MATHEMATICAL SANS-SERIF DIGIT SIX
1D7E9         ; NFKC_CF; 0037           # Nd       MATHEMATICAL SANS-SERIF DIGIT SEVEN
1D7EA         ; NFKC_CF; 0038           # Nd       MATHEMATICAL SANS-SERIF DIGIT EIGHT
1D7EB         ; NFKC_CF; 0039           # Nd       MATHEMATICAL SANS-SERIF DIGIT NINE
1D7EC         ; NFKC_CF; 0030           # Nd       MATHEMATICAL SANS-SERIF BOLD DIGIT ZERO
1D7ED         ; NFKC_CF; 0031           # Nd       MATHEMATICAL SANS-SERIF BOLD DIGIT ONE
1D7EE         ; NFKC_CF; 0032           # Nd       MATHEMATICAL SANS-SERIF BOLD DIGIT TWO
1D7EF         ; NFKC_CF; 0033           # Nd       MATHEMATICAL SANS-SERIF BOLD DIGIT THREE
1D7F0         ; NFKC_CF; 0034           # Nd       MATHEMATICAL SANS-SERIF BOLD DIGIT FOUR
1D7F1         ; NFKC_CF; 0035           # Nd       MATHEMATICAL SANS-SERIF BOLD DIGIT FIVE
1D7F2         ; NFKC_CF; 0036           # Nd       MATHEMATICAL SANS-SERIF BOLD DIGIT SIX
1D7F3         ; NFKC_CF; 0037           # Nd       MATHEMATICAL SANS-SERIF BOLD DIGIT SEVEN
1D7F4         ; NFKC_CF; 0038           # Nd       MATHEMATICAL SANS-SERIF BOLD DIGIT EIGHT
1D7F5         ; NFKC_CF; 0039           # Nd       MATHEMATICAL SANS-SERIF BOLD DIGIT NINE
1D7F6         ; NFKC_CF; 0030           # Nd       MATHEMATICAL MONOSPACE DIGIT ZERO
1D7F7         ; NFKC_CF; 0031           # Nd       MATHEMATICAL MONOSPACE DIGIT ONE
1D7F8         ; NFKC_CF; 0032           # Nd       MATHEMATICAL MONOSPACE DIGIT TWO
"%string.
Definition props_text_398 := "1D7F9         ; NFKC_CF; 0033           # Nd       MATHEMATICAL MONOSPACE DIGIT THREE
1D7FA         ; NFKC_CF; 0034           # Nd       MATHEMATICAL MONOSPACE DIGIT FOUR
1D7FB         ; NFKC_CF; 0035           # Nd       MATHEMATICAL MONOSPACE DIGIT FIVE
1D7FC         ; NFKC_CF; 0036           # Nd       MATHEMATICAL MONOSPACE DIGIT SIX
1D7FD         ; NFKC_CF; 0037           # Nd       MATHEMATICAL MONOSPACE DIGIT SEVEN
1D7FE         ; NFKC_CF; 0038           # Nd       MATHEMATICAL MONOSPACE DIGIT EIGHT
1D7FF         ; NFKC_CF; 0039           # Nd       MATHEMATICAL MONOSPACE DIGIT NINE
1E900         ; NFKC_CF; 1E922          # L&       ADLAM CAPITAL LETTER ALIF
1E901         ; NFKC_CF; 1E923          # L&       ADLAM CAPITAL LETTER DAALI
1E902         ; NFKC_CF; 1E924          # L&       ADLAM CAPITAL LETTER LAAM
1E903         ; NFKC_CF; 1E925          # L&       ADLAM CAPITAL LETTER MIIM
1E904         ; NFKC_CF; 1E926          # L&       ADLAM CAPITAL LETTER BA
1E905         ; NFKC_CF; 1E927          # L&       ADLAM CAPITAL LETTER SINNYIIYHE
1E906         ; NFKC_CF; 1E928          # L&       ADLAM CAPITAL LETTER PE
1E907         ; NFKC_CF; 1E929          # L&       ADLAM CAPITAL LETTER BHE
1E908         ; NFKC_CF; 1E92A          # L&       ADLAM CAPITAL LETTER RA
1E909         ; NFKC_CF; 1E92B          # L&       ADLAM CAPITAL LETTER E
1E90A         ; NFKC_CF; 1E92C          # L&       ADLAM CAPITAL LETTER FA
1E90B         ; NFKC_CF; 1E92D          # L&       ADLAM CAPITAL LETTER I
1E90C         ; NFKC_CF; 1E92E          # L&       ADLAM CAPITAL LETTER O
"%string.
Definition props_text_399 := "1E90D         ; NFKC_CF; 1E92F          # L&       ADLAM CAPITAL LETTER DHA
1E90E         ; NFKC_CF; 1E930          # L&       ADLAM CAPITAL LETTER YHE
1E90F         ; NFKC_CF; 1E931          # L&       ADLAM CAPITAL LETTER WAW
1E910         ; NFKC_CF; 1E932          # L&       ADLAM CAPITAL LETTER NUN
1E911         ; NFKC_CF; 1E933          # L&       ADLAM CAPITAL LETTER KAF
1E912         ; NFKC_CF; 1E934          # L&       ADLAM CAPITAL LETTER YA
1E913         ; NFKC_CF; 1E935          # L&       ADLAM CAPITAL LETTER U
1E914         ; NFKC_CF; 1E936          # L&       ADLAM CAPITAL LETTER JIIM
1E915         ; NFKC_CF; 1E937          # L&       ADLAM CAPITAL LETTER CHI
1E916         ; NFKC_CF; 1E938          # L&       ADLAM CAPITAL LETTER HA
1E917         ; NFKC_CF; 1E939          # L&       ADLAM CAPITAL LETTER QAAF
1E918         ; NFKC_CF; 1E93A          # L&       ADLAM CAPITAL LETTER GA
1E919         ; NFKC_CF; 1E93B          # L&       ADLAM CAPITAL LETTER NYA
1E91A         ; NFKC_CF; 1E93C          # L&       ADLAM CAPITAL LETTER TU
1E91B         ; NFKC_CF; 1E93D          # L&       ADLAM CAPITAL LETTER NHA
1E91C         ; NFKC_CF; 1E93E          # L&       ADLAM CAPITAL LETTER VA
1E91D         ; NFKC_CF; 1E93F          # L&       ADLAM CAPITAL LETTER KHA
1E91E         ; NFKC_CF; 1E940          # L&       ADLAM CAPITAL LETTER GBE
1E91F         ; NFKC_CF; 1E941          # L&       ADLAM CAPITAL LETTER ZAL
1E920         ; NFKC_CF; 1E942          # L&       ADLAM CAPITAL LETTER KPO
"%string.
Definition props_text_400 := "1E921         ; NFKC_CF; 1E943          # L&       ADLAM CAPITAL LETTER SHA
1EE00         ; NFKC_CF; 0627           # Lo       ARABIC MATHEMATICAL ALEF
1EE01         ; NFKC_CF; 0628           # Lo       ARABIC MATHEMATICAL BEH
1EE02         ; NFKC_CF; 062C           # Lo       ARABIC MATHEMATICAL JEEM
1EE03         ; NFKC_CF; 062F           # Lo       ARABIC MATHEMATICAL DAL
1EE05         ; NFKC_CF; 0648           # Lo       ARABIC MATHEMATICAL WAW
1EE06         ; NFKC_CF; 0632           # Lo       ARABIC MATHEMATICAL ZAIN
1EE07         ; NFKC_CF; 062D           # Lo       ARABIC MATHEMATICAL HAH
1EE08         ; NFKC_CF; 0637           # Lo       ARABIC MATHEMATICAL TAH
1EE09         ; NFKC_CF; 064A           # Lo       ARABIC MATHEMATICAL YEH
1EE0A         ; NFKC_CF; 0643           # Lo       ARABIC MATHEMATICAL KAF
1EE0B         ; NFKC_CF; 0644           # Lo       ARABIC MATHEMATICAL LAM
1EE0C         ; NFKC_CF; 0645           # Lo       ARABIC MATHEMATICAL MEEM
1EE0D         ; NFKC_CF; 0646           # Lo       ARABIC MATHEMATICAL NOON
1EE0E         ; NFKC_CF; 0633           # Lo       ARABIC MATHEMATICAL SEEN
1EE0F         ; NFKC_CF; 0639           # Lo       ARABIC MATHEMATICAL AIN
1EE10         ; NFKC_CF; 0641           # Lo       ARABIC MATHEMATICAL FEH
1EE11         ; NFKC_CF; 0635           # Lo       ARABIC MATHEMATICAL SAD
1EE12         ; NFKC_CF; 0642           # Lo       ARABIC MATHEMATICAL QAF
1EE13         ; NFKC_CF; 0631           # Lo       ARABIC MATHEMATICAL REH
"%string.
Definition props_text_401 := "1EE14         ; NFKC_CF; 0634           # Lo       ARABIC MATHEMATICAL SHEEN
1EE15         ; NFKC_CF; 062A           # Lo       ARABIC MATHEMATICAL TEH
1EE16         ; NFKC_CF; 062B           # Lo       ARABIC MATHEMATICAL THEH
1EE17         ; NFKC_CF; 062E           # Lo       ARABIC MATHEMATICAL KHAH
1EE18         ; NFKC_CF; 0630           # Lo       ARABIC MATHEMATICAL THAL
1EE19         ; NFKC_CF; 0636           # Lo       ARABIC MATHEMATICAL DAD
1EE1A         ; NFKC_CF; 0638           # Lo       ARABIC MATHEMATICAL ZAH
1EE1B         ; NFKC_CF; 063A           # Lo       ARABIC MATHEMATICAL GHAIN
1EE1C         ; NFKC_CF; 066E           # Lo       ARABIC MATHEMATICAL DOTLESS BEH
1EE1D         ; NFKC_CF; 06BA           # Lo       ARABIC MATHEMATICAL DOTLESS NOON
1EE1E         ; NFKC_CF; 06A1           # Lo       ARABIC MATHEMATICAL DOTLESS FEH
1EE1F         ; NFKC_CF; 066F           # Lo       ARABIC MATHEMATICAL DOTLESS QAF
1EE21         ; NFKC_CF; 0628           # Lo       ARABIC MATHEMATICAL INITIAL BEH
1EE22         ; NFKC_CF; 062C           # Lo       ARABIC MATHEMATICAL INITIAL JEEM
1EE24         ; NFKC_CF; 0647           # Lo       ARABIC MATHEMATICAL INITIAL HEH
1EE27         ; NFKC_CF; 062D           # Lo       ARABIC MATHEMATICAL INITIAL HAH
1EE29         ; NFKC_CF; 064A           # Lo       ARABIC MATHEMATICAL INITIAL YEH
1EE2A         ; NFKC_CF; 0643           # Lo       ARABIC MATHEMATICAL INITIAL KAF
1EE2B         ; NFKC_CF; 0644           # Lo       ARABIC MATHEMATICAL INITIAL LAM
1EE2C         ; NFKC_CF; 0645           # Lo       ARABIC MATHEMATICAL INITIAL MEEM
"%string.
Definition props_text_402 := "1EE2D         ; NFKC_CF; 0646           # Lo       ARABIC MATHEMATICAL INITIAL NOON
1EE2E         ; NFKC_CF; 0633           # Lo       ARABIC MATHEMATICAL INITIAL SEEN
1EE2F         ; NFKC_CF; 0639           # Lo       ARABIC MATHEMATICAL INITIAL AIN
1EE30         ; NFKC_CF; 0641           # Lo       ARABIC MATHEMATICAL INITIAL FEH
1EE31         ; NFKC_CF; 0635           # Lo       ARABIC MATHEMATICAL INITIAL SAD
1EE32         ; NFKC_CF; 0642           # Lo       ARABIC MATHEMATICAL INITIAL QAF
1EE34         ; NFKC_CF; 0634           # Lo       ARABIC MATHEMATICAL INITIAL SHEEN
1EE35         ; NFKC_CF; 062A           # Lo       ARABIC MATHEMATICAL INITIAL TEH
1EE36         ; NFKC_CF; 062B           # Lo       ARABIC MATHEMATICAL INITIAL THEH
1EE37         ; NFKC_CF; 062E           # Lo       ARABIC MATHEMATICAL INITIAL KHAH
1EE39         ; NFKC_CF; 0636           # Lo       ARABIC MATHEMATICAL INITIAL DAD
1EE3B         ; NFKC_CF; 063A           # Lo       ARABIC MATHEMATICAL INITIAL GHAIN
1EE42         ; NFKC_CF; 062C           # Lo       ARABIC MATHEMATICAL TAILED JEEM
1EE47         ; NFKC_CF; 062D           # Lo       ARABIC MATHEMATICAL TAILED HAH
1EE49         ; NFKC_CF; 064A           # Lo       ARABIC MATHEMATICAL TAILED YEH
1EE4B         ; NFKC_CF; 0644           # Lo       ARABIC MATHEMATICAL TAILED LAM
1EE4D         ; NFKC_CF; 0646           # Lo       ARABIC MATHEMATICAL TAILED NOON
1EE4E         ; NFKC_CF; 0633           # Lo       ARABIC MATHEMATICAL TAILED SEEN
1EE4F         ; NFKC_CF; 0639           # Lo       ARABIC MATHEMATICAL TAILED AIN
1EE51         ; NFKC_CF; 0635           # Lo       ARABIC MATHEMATICAL TAILED SAD
"%string.
Definition props_text_403 := "1EE52         ; NFKC_CF; 0642           # Lo       ARABIC MATHEMATICAL TAILED QAF
1EE54         ; NFKC_CF; 0634           # Lo       ARABIC MATHEMATICAL TAILED SHEEN
1EE57         ; NFKC_CF; 062E           # Lo       ARABIC MATHEMATICAL TAILED KHAH
1EE59         ; NFKC_CF; 0636           # Lo       ARABIC MATHEMATICAL TAILED DAD
1EE5B         ; NFKC_CF; 063A           # Lo       ARABIC MATHEMATICAL TAILED GHAIN
1EE5D         ; NFKC_CF; 06BA           # Lo       ARABIC MATHEMATICAL TAILED DOTLESS NOON
1EE5F         ; NFKC_CF; 066F           # Lo       ARABIC MATHEMATICAL TAILED DOTLESS QAF
1EE61         ; NFKC_CF; 0628           # Lo       ARABIC MATHEMATICAL STRETCHED BEH
1EE62         ; NFKC_CF; 062C           # Lo       ARABIC MATHEMATICAL STRETCHED JEEM
1EE64         ; NFKC_CF; 0647           # Lo       ARABIC MATHEMATICAL STRETCHED HEH
1EE67         ; NFKC_CF; 062D           # Lo       ARABIC MATHEMATICAL STRETCHED HAH
1EE68         ; NFKC_CF; 0637           # Lo       ARABIC MATHEMATICAL STRETCHED TAH
1EE69         ; NFKC_CF; 064A           # Lo       ARABIC MATHEMATICAL STRETCHED YEH
1EE6A         ; NFKC_CF; 0643           # Lo       ARABIC MATHEMATICAL STRETCHED KAF
1EE6C         ; NFKC_CF; 0645           # Lo       ARABIC MATHEMATICAL STRETCHED MEEM
1EE6D         ; NFKC_CF; 0646           # Lo       ARABIC MATHEMATICAL STRETCHED NOON
1EE6E         ; NFKC_CF; 0633           # Lo       ARABIC MATHEMATICAL STRETCHED SEEN
1EE6F         ; NFKC_CF; 0639           # Lo       ARABIC MATHEMATICAL STRETCHED AIN
1EE70         ; NFKC_CF; 0641           # Lo       ARABIC MATHEMATICAL STRETCHED FEH
1EE71         ; NFKC_CF; 0635           # Lo       ARABIC MATHEMATICAL STRETCHED SAD
"%string.
Definition props_text_404 := "1EE72         ; NFKC_CF; 0642           # Lo       ARABIC MATHEMATICAL STRETCHED QAF
1EE74         ; NFKC_CF; 0634           # Lo       ARABIC MATHEMATICAL STRETCHED SHEEN
1EE75         ; NFKC_CF; 062A           # Lo       ARABIC MATHEMATICAL STRETCHED TEH
1EE76         ; NFKC_CF; 062B           # Lo       ARABIC MATHEMATICAL STRETCHED THEH
1EE77         ; NFKC_CF; 062E           # Lo       ARABIC MATHEMATICAL STRETCHED KHAH
1EE79         ; NFKC_CF; 0636           # Lo       ARABIC MATHEMATICAL STRETCHED DAD
1EE7A         ; NFKC_CF; 0638           # Lo       ARABIC MATHEMATICAL STRETCHED ZAH
1EE7B         ; NFKC_CF; 063A           # Lo       ARABIC MATHEMATICAL STRETCHED GHAIN
1EE7C         ; NFKC_CF; 066E           # Lo       ARABIC MATHEMATICAL STRETCHED DOTLESS BEH
1EE7E         ; NFKC_CF; 06A1           # Lo       ARABIC MATHEMATICAL STRETCHED DOTLESS FEH
1EE80         ; NFKC_CF; 0627           # Lo       ARABIC MATHEMATICAL LOOPED ALEF
1EE81         ; NFKC_CF; 0628           # Lo       ARABIC MATHEMATICAL LOOPED BEH
1EE82         ; NFKC_CF; 062C           # Lo       ARABIC MATHEMATICAL LOOPED JEEM
1EE83         ; NFKC_CF; 062F           # Lo       ARABIC MATHEMATICAL LOOPED DAL
1EE84         ; NFKC_CF; 0647           # Lo       ARABIC MATHEMATICAL LOOPED HEH
1EE85         ; NFKC_CF; 0648           # Lo       ARABIC MATHEMATICAL LOOPED WAW
1EE86         ; NFKC_CF; 0632           # Lo       ARABIC MATHEMATICAL LOOPED ZAIN
1EE87         ; NFKC_CF; 062D           # Lo       ARABIC MATHEMATICAL LOOPED HAH
1EE88         ; NFKC_CF; 0637           # Lo       ARABIC MATHEMATICAL LOOPED TAH
1EE89         ; NFKC_CF; 064A           # Lo       ARABIC MATHEMATICAL LOOPED YEH
"%string.
Definition props_text_405 := "1EE8B         ; NFKC_CF; 0644           # Lo       ARABIC MATHEMATICAL LOOPED LAM
1EE8C         ; NFKC_CF; 0645           # Lo       ARABIC MATHEMATICAL LOOPED MEEM
1EE8D         ; NFKC_CF; 0646           # Lo       ARABIC MATHEMATICAL LOOPED NOON
1EE8E         ; NFKC_CF; 0633           # Lo       ARABIC MATHEMATICAL LOOPED SEEN
1EE8F         ; NFKC_CF; 0639           # Lo       ARABIC MATHEMATICAL LOOPED AIN
1EE90         ; NFKC_CF; 0641           # Lo       ARABIC MATHEMATICAL LOOPED FEH
1EE91         ; NFKC_CF; 0635           # Lo       ARABIC MATHEMATICAL LOOPED SAD
1EE92         ; NFKC_CF; 0642           # Lo       ARABIC MATHEMATICAL LOOPED QAF
1EE93         ; NFKC_CF; 0631           # Lo       ARABIC MATHEMATICAL LOOPED REH
1EE94         ; NFKC_CF; 0634           # Lo       ARABIC MATHEMATICAL LOOPED SHEEN
1EE95         ; NFKC_CF; 062A           # Lo       ARABIC MATHEMATICAL LOOPED TEH
1EE96         ; NFKC_CF; 062B           # Lo       ARABIC MATHEMATICAL LOOPED THEH
1EE97         ; NFKC_CF; 062E           # Lo       ARABIC MATHEMATICAL LOOPED KHAH
1EE98         ; NFKC_CF; 0630           # Lo       ARABIC MATHEMATICAL LOOPED THAL
1EE99         ; NFKC_CF; 0636           # Lo       ARABIC MATHEMATICAL LOOPED DAD
1EE9A         ; NFKC_CF; 0638           # Lo       ARABIC MATHEMATICAL LOOPED ZAH
1EE9B         ; NFKC_CF; 063A           # Lo       ARABIC MATHEMATICAL LOOPED GHAIN
1EEA1         ; NFKC_CF; 0628           # Lo       ARABIC MATHEMATICAL DOUBLE-STRUCK BEH
1EEA2         ; NFKC_CF; 062C           # Lo       ARABIC MATHEMATICAL DOUBLE-STRUCK JEEM
1EEA3         ; NFKC_CF; 062F           # Lo       ARABIC MATHEMATICAL DOUBLE-STRUCK DAL
"%string.
Definition props_text_406 := "1EEA5         ; NFKC_CF; 0648           # Lo       ARABIC MATHEMATICAL DOUBLE-STRUCK WAW
1EEA6         ; NFKC_CF; 0632           # Lo       ARABIC MATHEMATICAL DOUBLE-STRUCK ZAIN
1EEA7         ; NFKC_CF; 062D           # Lo       ARABIC MATHEMATICAL DOUBLE-STRUCK HAH
1EEA8         ; NFKC_CF; 0637           # Lo       ARABIC MATHEMATICAL DOUBLE-STRUCK TAH
1EEA9         ; NFKC_CF; 064A           # Lo       ARABIC MATHEMATICAL DOUBLE-STRUCK YEH
1EEAB         ; NFKC_CF; 0644           # Lo       ARABIC MATHEMATICAL DOUBLE-STRUCK LAM
1EEAC         ; NFKC_CF; 0645           # Lo       ARABIC MATHEMATICAL DOUBLE-STRUCK MEEM
1EEAD         ; NFKC_CF; 0646           # Lo       ARABIC MATHEMATICAL DOUBLE-STRUCK NOON
1EEAE         ; NFKC_CF; 0633           # Lo       ARABIC MATHEMATICAL DOUBLE-STRUCK SEEN
1EEAF         ; NFKC_CF; 0639           # Lo       ARABIC MATHEMATICAL DOUBLE-STRUCK AIN
1EEB0         ; NFKC_CF; 0641           # Lo       ARABIC MATHEMATICAL DOUBLE-STRUCK FEH
1EEB1         ; NFKC_CF; 0635           # Lo       ARABIC MATHEMATICAL DOUBLE-STRUCK SAD
1EEB2         ; NFKC_CF; 0642           # Lo       ARABIC MATHEMATICAL DOUBLE-STRUCK QAF
1EEB3         ; NFKC_CF; 0631           # Lo       ARABIC MATHEMATICAL DOUBLE-STRUCK REH
1EEB4         ; NFKC_CF; 0634           # Lo       ARABIC MATHEMATICAL DOUBLE-STRUCK SHEEN
1EEB5         ; NFKC_CF; 062A           # Lo       ARABIC MATHEMATICAL DOUBLE-STRUCK TEH
1EEB6         ; NFKC_CF; 062B           # Lo       ARABIC MATHEMATICAL DOUBLE-STRUCK THEH
1EEB7         ; NFKC_CF; 062E           # Lo       ARABIC MATHEMATICAL DOUBLE-STRUCK KHAH
1EEB8         ; NFKC_CF; 0630           # Lo       ARABIC MATHEMATICAL DOUBLE-STRUCK THAL
1EEB9         ; NFKC_CF; 0636           # Lo       ARABIC MATHEMATICAL DOUBLE-STRUCK DAD
"%string.
Definition props_text_407 := "1EEBA         ; NFKC_CF; 0638           # Lo       ARABIC MATHEMATICAL DOUBLE-STRUCK ZAH
1EEBB         ; NFKC_CF; 063A           # Lo       ARABIC MATHEMATICAL DOUBLE-STRUCK GHAIN
1F100         ; NFKC_CF; 0030 002E      # No       DIGIT ZERO FULL STOP
1F101         ; NFKC_CF; 0030 002C      # No       DIGIT ZERO COMMA
1F102         ; NFKC_CF; 0031 002C      # No       DIGIT ONE COMMA
1F103         ; NFKC_CF; 0032 002C      # No       DIGIT TWO COMMA
1F104         ; NFKC_CF; 0033 002C      # No       DIGIT THREE COMMA
1F105         ; NFKC_CF; 0034 002C      # No       DIGIT FOUR COMMA
1F106         ; NFKC_CF; 0035 002C      # No       DIGIT FIVE COMMA
1F107         ; NFKC_CF; 0036 002C      # No       DIGIT SIX COMMA
1F108         ; NFKC_CF; 0037 002C      # No       DIGIT SEVEN COMMA
1F109         ; NFKC_CF; 0038 002C      # No       DIGIT EIGHT COMMA
1F10A         ; NFKC_CF; 0039 002C      # No       DIGIT NINE COMMA
1F110         ; NFKC_CF; 0028 0061 0029 # So       PARENTHESIZED LATIN CAPITAL LETTER A
1F111         ; NFKC_CF; 0028 0062 0029 # So       PARENTHESIZED LATIN CAPITAL LETTER B
1F112         ; NFKC_CF; 0028 0063 0029 # So       PARENTHESIZED LATIN CAPITAL LETTER C
1F113         ; NFKC_CF; 0028 0064 0029 # So       PARENTHESIZED LATIN CAPITAL LETTER D
1F114         ; NFKC_CF; 0028 0065 0029 # So       PARENTHESIZED LATIN CAPITAL LETTER E
1F115         ; NFKC_CF; 0028 0066 0029 # So       PARENTHESIZED LATIN CAPITAL LETTER F
1F116         ; NFKC_CF; 0028 0067 0029 # So       PARENTHESIZED LATIN CAPITAL LETTER G
"%string.
Definition props_text_408 := "1F117         ; NFKC_CF; 0028 0068 0029 # So       PARENTHESIZED LATIN CAPITAL LETTER H
1F118         ; NFKC_CF; 0028 0069 0029 # So       PARENTHESIZED LATIN CAPITAL LETTER I
1F119         ; NFKC_CF; 0028 006A 0029 # So       PARENTHESIZED LATIN CAPITAL LETTER J
1F11A         ; NFKC_CF; 0028 006B 0029 # So       PARENTHESIZED LATIN CAPITAL LETTER K
1F11B         ; NFKC_CF; 0028 006C 0029 # So       PARENTHESIZED LATIN CAPITAL LETTER L
1F11C         ; NFKC_CF; 0028 006D 0029 # So       PARENTHESIZED LATIN CAPITAL LETTER M
1F11D         ; NFKC_CF; 0028 006E 0029 # So       PARENTHESIZED LATIN CAPITAL LETTER N
1F11E         ; NFKC_CF; 0028 006F 0029 # So       PARENTHESIZED LATIN CAPITAL LETTER O
1F11F         ; NFKC_CF; 0028 0070 0029 # So       PARENTHESIZED LATIN CAPITAL LETTER P
1F120         ; NFKC_CF; 0028 0071 0029 # So       PARENTHESIZED LATIN CAPITAL LETTER Q
1F121         ; NFKC_CF; 0028 0072 0029 # So       PARENTHESIZED LATIN CAPITAL LETTER R
1F122         ; NFKC_CF; 0028 0073 0029 # So       PARENTHESIZED LATIN CAPITAL LETTER S
1F123         ; NFKC_CF; 0028 0074 0029 # So       PARENTHESIZED LATIN CAPITAL LETTER T
1F124         ; NFKC_CF; 0028 0075 0029 # So       PARENTHESIZED LATIN CAPITAL LETTER U
1F125         ; NFKC_CF; 0028 0076 0029 # So       PARENTHESIZED LATIN CAPITAL LETTER V
1F126         ; NFKC_CF; 0028 0077 0029 # So       PARENTHESIZED LATIN CAPITAL LETTER W
1F127         ; NFKC_CF; 0028 0078 0029 # So       PARENTHESIZED LATIN CAPITAL LETTER X
1F128         ; NFKC_CF; 0028 0079 0029 # So       PARENTHESIZED LATIN CAPITAL LETTER Y
1F129         ; NFKC_CF; 0028 007A 0029 # So       PARENTHESIZED LATIN CAPITAL LETTER Z
1F12A         ; NFKC_CF; 3014 0073 3015 # So       TORTOISE SHELL BRACKETED LATIN CAPITAL LETTER S
"%string.
Definition props_text_409 := "1F12B         ; NFKC_CF; 0063           # So       CIRCLED ITALIC LATIN CAPITAL LETTER C
1F12C         ; NFKC_CF; 0072           # So       CIRCLED ITALIC LATIN CAPITAL LETTER R
1F12D         ; NFKC_CF; 0063 0064      # So       CIRCLED CD
1F12E         ; NFKC_CF; 0077 007A      # So       CIRCLED WZ
1F130         ; NFKC_CF; 0061           # So       SQUARED LATIN CAPITAL LETTER A
1F131         ; NFKC_CF; 0062           # So       SQUARED LATIN CAPITAL LETTER B
1F132         ; NFKC_CF; 0063           # So       SQUARED LATIN CAPITAL LETTER C
1F133         ; NFKC_CF; 0064           # So       SQUARED LATIN CAPITAL LETTER D
1F134         ; NFKC_CF; 0065           # So       SQUARED LATIN CAPITAL LETTER E
1F135         ; NFKC_CF; 0066           # So       SQUARED LATIN CAPITAL LETTER F
1F136         ; NFKC_CF; 0067           # So       SQUARED LATIN CAPITAL LETTER G
1F137         ; NFKC_CF; 0068           # So       SQUARED LATIN CAPITAL LETTER H
1F138         ; NFKC_CF; 0069           # So       SQUARED LATIN CAPITAL LETTER I
1F139         ; NFKC_CF; 006A           # So       SQUARED LATIN CAPITAL LETTER J
1F13A         ; NFKC_CF; 006B           # So       SQUARED LATIN CAPITAL LETTER K
1F13B         ; NFKC_CF; 006C           # So       SQUARED LATIN CAPITAL LETTER L
1F13C         ; NFKC_CF; 006D           # So       SQUARED LATIN CAPITAL LETTER M
1F13D         ; NFKC_CF; 006E           # So       SQUARED LATIN CAPITAL LETTER N
1F13E         ; NFKC_CF; 006F           # So       SQUARED LATIN CAPITAL LETTER O
1F13F         ; NFKC_CF; 0070           # So       SQUARED LATIN CAPITAL LETTER P
"%string.
Definition props_text_410 := "1F140         ; NFKC_CF; 0071           # So       SQUARED LATIN CAPITAL LETTER Q
1F141         ; NFKC_CF; 0072           # So       SQUARED LATIN CAPITAL LETTER R
1F142         ; NFKC_CF; 0073           # So       SQUARED LATIN CAPITAL LETTER S
1F143         ; NFKC_CF; 0074           # So       SQUARED LATIN CAPITAL LETTER T
1F144         ; NFKC_CF; 0075           # So       SQUARED LATIN CAPITAL LETTER U
1F145         ; NFKC_CF; 0076           # So       SQUARED LATIN CAPITAL LETTER V
1F146         ; NFKC_CF; 0077           # So       SQUARED LATIN CAPITAL LETTER W
1F147         ; NFKC_CF; 0078           # So       SQUARED LATIN CAPITAL LETTER X
1F148         ; NFKC_CF; 0079           # So       SQUARED LATIN CAPITAL LETTER Y
1F149         ; NFKC_CF; 007A           # So       SQUARED LATIN CAPITAL LETTER Z
1F14A         ; NFKC_CF; 0068 0076      # So       SQUARED HV
1F14B         ; NFKC_CF; 006D 0076      # So       SQUARED MV
1F14C         ; NFKC_CF; 0073 0064      # So       SQUARED SD
1F14D         ; NFKC_CF; 0073 0073      # So       SQUARED SS
1F14E         ; NFKC_CF; 0070 0070 0076 # So       SQUARED PPV
1F14F         ; NFKC_CF; 0077 0063      # So       SQUARED WC
1F16A         ; NFKC_CF; 006D 0063      # So       RAISED MC SIGN
1F16B         ; NFKC_CF; 006D 0064      # So       RAISED MD SIGN
1F16C         ; NFKC_CF; 006D 0072      # So       RAISED MR SIGN
1F190         ; NFKC_CF; 0064 006A      # So       SQUARE DJ
"%string.
Definition props_text_411 := "1F200         ; NFKC_CF; 307B 304B      # So       SQUARE HIRAGANA HOKA
1F201         ; NFKC_CF; 30B3 30B3      # So       SQUARED KATAKANA KOKO
1F202         ; NFKC_CF; 30B5           # So       SQUARED KATAKANA SA
1F210         ; NFKC_CF; 624B           # So       SQUARED CJK UNIFIED IDEOGRAPH-624B
1F211         ; NFKC_CF; 5B57           # So       SQUARED CJK UNIFIED IDEOGRAPH-5B57
1F212         ; NFKC_CF; 53CC           # So       SQUARED CJK UNIFIED IDEOGRAPH-53CC
1F213         ; NFKC_CF; 30C7           # So       SQUARED KATAKANA DE
1F214         ; NFKC_CF; 4E8C           # So       SQUARED CJK UNIFIED IDEOGRAPH-4E8C
1F215         ; NFKC_CF; 591A           # So       SQUARED CJK UNIFIED IDEOGRAPH-591A
1F216         ; NFKC_CF; 89E3           # So       SQUARED CJK UNIFIED IDEOGRAPH-89E3
1F217         ; NFKC_CF; 5929           # So       SQUARED CJK UNIFIED IDEOGRAPH-5929
1F218         ; NFKC_CF; 4EA4           # So       SQUARED CJK UNIFIED IDEOGRAPH-4EA4
1F219         ; NFKC_CF; 6620           # So       SQUARED CJK UNIFIED IDEOGRAPH-6620
1F21A         ; NFKC_CF; 7121           # So       SQUARED CJK UNIFIED IDEOGRAPH-7121
1F21B         ; NFKC_CF; 6599           # So       SQUARED CJK UNIFIED IDEOGRAPH-6599
1F21C         ; NFKC_CF; 524D           # So       SQUARED CJK UNIFIED IDEOGRAPH-524D
1F21D         ; NFKC_CF; 5F8C           # So       SQUARED CJK UNIFIED IDEOGRAPH-5F8C
1F21E         ; NFKC_CF; 518D           # So       SQUARED CJK UNIFIED IDEOGRAPH-518D
1F21F         ; NFKC_CF; 65B0           # So       SQUARED CJK UNIFIED IDEOGRAPH-65B0
1F220         ; NFKC_CF; 521D           # So       SQUARED CJK UNIFIED IDEOGRAPH-521D
"%string.
Definition props_text_412 := "1F221         ; NFKC_CF; 7D42           # So       SQUARED CJK UNIFIED IDEOGRAPH-7D42
1F222         ; NFKC_CF; 751F           # So       SQUARED CJK UNIFIED IDEOGRAPH-751F
1F223         ; NFKC_CF; 8CA9           # So       SQUARED CJK UNIFIED IDEOGRAPH-8CA9
1F224         ; NFKC_CF; 58F0           # So       SQUARED CJK UNIFIED IDEOGRAPH-58F0
1F225         ; NFKC_CF; 5439           # So       SQUARED CJK UNIFIED IDEOGRAPH-5439
1F226         ; NFKC_CF; 6F14           # So       SQUARED CJK UNIFIED IDEOGRAPH-6F14
1F227         ; NFKC_CF; 6295           # So       SQUARED CJK UNIFIED IDEOGRAPH-6295
1F228         ; NFKC_CF; 6355           # So       SQUARED CJK UNIFIED IDEOGRAPH-6355
1F229         ; NFKC_CF; 4E00           # So       SQUARED CJK UNIFIED IDEOGRAPH-4E00
1F22A         ; NFKC_CF; 4E09           # So       SQUARED CJK UNIFIED IDEOGRAPH-4E09
1F22B         ; NFKC_CF; 904A           # So       SQUARED CJK UNIFIED IDEOGRAPH-904A
1F22C         ; NFKC_CF; 5DE6           # So       SQUARED CJK UNIFIED IDEOGRAPH-5DE6
1F22D         ; NFKC_CF; 4E2D           # So       SQUARED CJK UNIFIED IDEOGRAPH-4E2D
1F22E         ; NFKC_CF; 53F3           # So       SQUARED CJK UNIFIED IDEOGRAPH-53F3
1F22F         ; NFKC_CF; 6307           # So       SQUARED CJK UNIFIED IDEOGRAPH-6307
1F230         ; NFKC_CF; 8D70           # So       SQUARED CJK UNIFIED IDEOGRAPH-8D70
1F231         ; NFKC_CF; 6253           # So       SQUARED CJK UNIFIED IDEOGRAPH-6253
1F232         ; NFKC_CF; 7981           # So       SQUARED CJK UNIFIED IDEOGRAPH-7981
1F233         ; NFKC_CF; 7A7A           # So       SQUARED CJK UNIFIED IDEOGRAPH-7A7A
1F234         ; NFKC_CF; 5408           # So       SQUARED CJK UNIFIED IDEOGRAPH-5408
"%string.
Definition props_text_413 := "1F235         ; NFKC_CF; 6E80           # So       SQUARED CJK UNIFIED IDEOGRAPH-6E80
1F236         ; NFKC_CF; 6709           # So       SQUARED CJK UNIFIED IDEOGRAPH-6709
1F237         ; NFKC_CF; 6708           # So       SQUARED CJK UNIFIED IDEOGRAPH-6708
1F238         ; NFKC_CF; 7533           # So       SQUARED CJK UNIFIED IDEOGRAPH-7533
1F239         ; NFKC_CF; 5272           # So       SQUARED CJK UNIFIED IDEOGRAPH-5272
1F23A         ; NFKC_CF; 55B6           # So       SQUARED CJK UNIFIED IDEOGRAPH-55B6
1F23B         ; NFKC_CF; 914D           # So       SQUARED CJK UNIFIED IDEOGRAPH-914D
1F240         ; NFKC_CF; 3014 672C 3015 # So       TORTOISE SHELL BRACKETED CJK UNIFIED IDEOGRAPH-672C
1F241         ; NFKC_CF; 3014 4E09 3015 # So       TORTOISE SHELL BRACKETED CJK UNIFIED IDEOGRAPH-4E09
1F242         ; NFKC_CF; 3014 4E8C 3015 # So       TORTOISE SHELL BRACKETED CJK UNIFIED IDEOGRAPH-4E8C
1F243         ; NFKC_CF; 3014 5B89 3015 # So       TORTOISE SHELL BRACKETED CJK UNIFIED IDEOGRAPH-5B89
1F244         ; NFKC_CF; 3014 70B9 3015 # So       TORTOISE SHELL BRACKETED CJK UNIFIED IDEOGRAPH-70B9
1F245         ; NFKC_CF; 3014 6253 3015 # So       TORTOISE SHELL BRACKETED CJK UNIFIED IDEOGRAPH-6253
1F246         ; NFKC_CF; 3014 76D7 3015 # So       TORTOISE SHELL BRACKETED CJK UNIFIED IDEOGRAPH-76D7
1F247         ; NFKC_CF; 3014 52DD 3015 # So       TORTOISE SHELL BRACKETED CJK UNIFIED IDEOGRAPH-52DD
1F248         ; NFKC_CF; 3014 6557 3015 # So       TORTOISE SHELL BRACKETED CJK UNIFIED IDEOGRAPH-6557
1F250         ; NFKC_CF; 5F97           # So       CIRCLED IDEOGRAPH ADVANTAGE
1F251         ; NFKC_CF; 53EF           # So       CIRCLED IDEOGRAPH ACCEPT
1FBF0         ; NFKC_CF; 0030           # Nd       SEGMENTED DIGIT ZERO
1FBF1         ; NFKC_CF; 0031           # Nd       SEGMENTED DIGIT ONE
"%string.
Definition props_text_414 := "1FBF2         ; NFKC_CF; 0032           # Nd       SEGMENTED DIGIT TWO
1FBF3         ; NFKC_CF; 0033           # Nd       SEGMENTED DIGIT THREE
1FBF4         ; NFKC_CF; 0034           # Nd       SEGMENTED DIGIT FOUR
1FBF5         ; NFKC_CF; 0035           # Nd       SEGMENTED DIGIT FIVE
1FBF6         ; NFKC_CF; 0036           # Nd       SEGMENTED DIGIT SIX
1FBF7         ; NFKC_CF; 0037           # Nd       SEGMENTED DIGIT SEVEN
1FBF8         ; NFKC_CF; 0038           # Nd       SEGMENTED DIGIT EIGHT
1FBF9         ; NFKC_CF; 0039           # Nd       SEGMENTED DIGIT NINE
2F800         ; NFKC_CF; 4E3D           # Lo       CJK COMPATIBILITY IDEOGRAPH-2F800
2F801         ; NFKC_CF; 4E38           # Lo       CJK COMPATIBILITY IDEOGRAPH-2F801
2F802         ; NFKC_CF; 4E41           # Lo       CJK COMPATIBILITY IDEOGRAPH-2F802
2F803         ; NFKC_CF; 20122          # Lo       CJK COMPATIBILITY IDEOGRAPH-2F803
2F804         ; NFKC_CF; 4F60           # Lo       CJK COMPATIBILITY IDEOGRAPH-2F804
2F805         ; NFKC_CF; 4FAE           # Lo       CJK COMPATIBILITY IDEOGRAPH-2F805
2F806         ; NFKC_CF; 4FBB           # Lo       CJK COMPATIBILITY IDEOGRAPH-2F806
2F807         ; NFKC_CF; 5002           # Lo       CJK COMPATIBILITY IDEOGRAPH-2F807
2F808         ; NFKC_CF; 507A           # Lo       CJK COMPATIBILITY IDEOGRAPH-2F808
2F809         ; NFKC_CF; 5099           # Lo       CJK COMPATIBILITY IDEOGRAPH-2F809
2F80A         ; NFKC_CF; 50E7           # Lo       CJK COMPATIBILITY IDEOGRAPH-2F80A
2F80B         ; NFKC_CF; 50CF           # Lo       CJK COMPATIBILITY IDEOGRAPH-2F80B
"%string.
Definition props_text_415 := "2F80C         ; NFKC_CF; 349E           # Lo       CJK COMPATIBILITY IDEOGRAPH-2F80C
2F80D         ; NFKC_CF; 2063A          # Lo       CJK COMPATIBILITY IDEOGRAPH-2F80D
2F80E         ; NFKC_CF; 514D           # Lo       CJK COMPATIBILITY IDEOGRAPH-2F80E
2F80F         ; NFKC_CF; 5154           # Lo       CJK COMPATIBILITY IDEOGRAPH-2F80F
2F810         ; NFKC_CF; 5164           # Lo       CJK COMPATIBILITY IDEOGRAPH-2F810
2F811         ; NFKC_CF; 5177           # Lo       CJK COMPATIBILITY IDEOGRAPH-2F811
2F812         ; NFKC_CF; 2051C          # Lo       CJK COMPATIBILITY IDEOGRAPH-2F812
2F813         ; NFKC_CF; 34B9           # Lo       CJK COMPATIBILITY IDEOGRAPH-2F813
2F814         ; NFKC_CF; 5167           # Lo       CJK COMPATIBILITY IDEOGRAPH-2F814
2F815         ; NFKC_CF; 518D           # Lo       CJK COMPATIBILITY IDEOGRAPH-2F815
2F816         ; NFKC_CF; 2054B          # Lo       CJK COMPATIBILITY IDEOGRAPH-2F816
2F817         ; NFKC_CF; 5197           # Lo       CJK COMPATIBILITY IDEOGRAPH-2F817
2F818         ; NFKC_CF; 51A4           # Lo       CJK COMPATIBILITY IDEOGRAPH-2F818
2F819         ; NFKC_CF; 4ECC           # Lo       CJK COMPATIBILITY IDEOGRAPH-2F819
2F81A         ; NFKC_CF; 51AC           # Lo       CJK COMPATIBILITY IDEOGRAPH-2F81A
2F81B         ; NFKC_CF; 51B5           # Lo       CJK COMPATIBILITY IDEOGRAPH-2F81B
2F81C         ; NFKC_CF; 291DF          # Lo       CJK COMPATIBILITY IDEOGRAPH-2F81C
2F81D         ; NFKC_CF; 51F5           # Lo       CJK COMPATIBILITY IDEOGRAPH-2F81D
2F81E         ; NFKC_CF; 5203           # Lo       CJK COMPATIBILITY IDEOGRAPH-2F81E
2F81F         ; NFKC_CF; 34DF           # Lo       CJK COMPATIBILITY IDEOGRAPH-2F81F
"%string.
Definition props_text_416 := "2F820         ; NFKC_CF; 523B           # Lo       CJK COMPATIBILITY IDEOGRAPH-2F820
2F821         ; NFKC_CF; 5246           # Lo       CJK COMPATIBILITY IDEOGRAPH-2F821
2F822         ; NFKC_CF; 5272           # Lo       CJK COMPATIBILITY IDEOGRAPH-2F822
2F823         ; NFKC_CF; 5277           # Lo       CJK COMPATIBILITY IDEOGRAPH-2F823
2F824         ; NFKC_CF; 3515           # Lo       CJK COMPATIBILITY IDEOGRAPH-2F824
2F825         ; NFKC_CF; 52C7           # Lo       CJK COMPATIBILITY IDEOGRAPH-2F825
2F826         ; NFKC_CF; 52C9           # Lo       CJK COMPATIBILITY IDEOGRAPH-2F826
2F827         ; NFKC_CF; 52E4           # Lo       CJK COMPATIBILITY IDEOGRAPH-2F827
2F828         ; NFKC_CF; 52FA           # Lo       CJK COMPATIBILITY IDEOGRAPH-2F828
2F829         ; NFKC_CF; 5305           # Lo       CJK COMPATIBILITY IDEOGRAPH-2F829
2F82A         ; NFKC_CF; 5306           # Lo       CJK COMPATIBILITY IDEOGRAPH-2F82A
2F82B         ; NFKC_CF; 5317           # Lo       CJK COMPATIBILITY IDEOGRAPH-2F82B
2F82C         ; NFKC_CF; 5349           # Lo       CJK COMPATIBILITY IDEOGRAPH-2F82C
2F82D         ; NFKC_CF; 5351           # Lo       CJK COMPATIBILITY IDEOGRAPH-2F82D
2F82E         ; NFKC_CF; 535A           # Lo       CJK COMPATIBILITY IDEOGRAPH-2F82E
2F82F         ; NFKC_CF; 5373           # Lo       CJK COMPATIBILITY IDEOGRAPH-2F82F
2F830         ; NFKC_CF; 537D           # Lo       CJK COMPATIBILITY IDEOGRAPH-2F830
2F831..2F833  ; NFKC_CF; 537F           # Lo   [3] CJK COMPATIBILITY IDEOGRAPH-2F831..CJK COMPATIBILITY IDEOGRAPH-2F833
2F834         ; NFKC_CF; 20A2C          # Lo       CJK COMPATIBILITY IDEOGRAPH-2F834
2F835         ; NFKC_CF; 7070           # Lo       CJK COMPATIBILITY IDEOGRAPH-2F835
"%string.
Definition props_text_417 := "2F836         ; NFKC_CF; 53CA           # Lo       CJK COMPATIBILITY IDEOGRAPH-2F836
2F837         ; NFKC_CF; 53DF           # Lo       CJK COMPATIBILITY IDEOGRAPH-2F837
2F838         ; NFKC_CF; 20B63          # Lo       CJK COMPATIBILITY IDEOGRAPH-2F838
2F839         ; NFKC_CF; 53EB           # Lo       CJK COMPATIBILITY IDEOGRAPH-2F839
2F83A         ; NFKC_CF; 53F1           # Lo       CJK COMPATIBILITY IDEOGRAPH-2F83A
2F83B         ; NFKC_CF; 5406           # Lo       CJK COMPATIBILITY IDEOGRAPH-2F83B
2F83C         ; NFKC_CF; 549E           # Lo       CJK COMPATIBILITY IDEOGRAPH-2F83C
2F83D         ; NFKC_CF; 5438           # Lo       CJK COMPATIBILITY IDEOGRAPH-2F83D
2F83E         ; NFKC_CF; 5448           # Lo       CJK COMPATIBILITY IDEOGRAPH-2F83E
2F83F         ; NFKC_CF; 5468           # Lo       CJK COMPATIBILITY IDEOGRAPH-2F83F
2F840         ; NFKC_CF; 54A2           # Lo       CJK COMPATIBILITY IDEOGRAPH-2F840
2F841         ; NFKC_CF; 54F6           # Lo       CJK COMPATIBILITY IDEOGRAPH-2F841
2F842         ; NFKC_CF; 5510           # Lo       CJK COMPATIBILITY IDEOGRAPH-2F842
2F843         ; NFKC_CF; 5553           # Lo       CJK COMPATIBILITY IDEOGRAPH-2F843
2F844         ; NFKC_CF; 5563           # Lo       CJK COMPATIBILITY IDEOGRAPH-2F844
2F845..2F846  ; NFKC_CF; 5584           # Lo   [2] CJK COMPATIBILITY IDEOGRAPH-2F845..CJK COMPATIBILITY IDEOGRAPH-2F846
2F847         ; NFKC_CF; 5599           # Lo       CJK COMPATIBILITY IDEOGRAPH-2F847
2F848         ; NFKC_CF; 55AB           # Lo       CJK COMPATIBILITY IDEOGRAPH-2F848
2F849         ; NFKC_CF; 55B3           # Lo       CJK COMPATIBILITY IDEOGRAPH-2F849
2F84A         ; NFKC_CF; 55C2           # Lo       CJK COMPATIBILITY IDEOGRAPH-2F84A
"%string.
Definition props_text_418 := "2F84B         ; NFKC_CF; 5716           # Lo       CJK COMPATIBILITY IDEOGRAPH-2F84B
2F84C         ; NFKC_CF; 5606           # Lo       CJK COMPATIBILITY IDEOGRAPH-2F84C
2F84D         ; NFKC_CF; 5717           # Lo       CJK COMPATIBILITY IDEOGRAPH-2F84D
2F84E         ; NFKC_CF; 5651           # Lo       CJK COMPATIBILITY IDEOGRAPH-2F84E
2F84F         ; NFKC_CF; 5674           # Lo       CJK COMPATIBILITY IDEOGRAPH-2F84F
2F850         ; NFKC_CF; 5207           # Lo       CJK COMPATIBILITY IDEOGRAPH-2F850
2F851         ; NFKC_CF; 58EE           # Lo       CJK COMPATIBILITY IDEOGRAPH-2F851
2F852         ; NFKC_CF; 57CE           # Lo       CJK COMPATIBILITY IDEOGRAPH-2F852
2F853         ; NFKC_CF; 57F4           # Lo       CJK COMPATIBILITY IDEOGRAPH-2F853
2F854         ; NFKC_CF; 580D           # Lo       CJK COMPATIBILITY IDEOGRAPH-2F854
2F855         ; NFKC_CF; 578B           # Lo       CJK COMPATIBILITY IDEOGRAPH-2F855
2F856         ; NFKC_CF; 5832           # Lo       CJK COMPATIBILITY IDEOGRAPH-2F856
2F857         ; NFKC_CF; 5831           # Lo       CJK COMPATIBILITY IDEOGRAPH-2F857
2F858         ; NFKC_CF; 58AC           # Lo       CJK COMPATIBILITY IDEOGRAPH-2F858
2F859         ; NFKC_CF; 214E4          # Lo       CJK COMPATIBILITY IDEOGRAPH-2F859
2F85A         ; NFKC_CF; 58F2           # Lo       CJK COMPATIBILITY IDEOGRAPH-2F85A
2F85B         ; NFKC_CF; 58F7           # Lo       CJK COMPATIBILITY IDEOGRAPH-2F85B
2F85C         ; NFKC_CF; 5906           # Lo       CJK COMPATIBILITY IDEOGRAPH-2F85C
2F85D         ; NFKC_CF; 591A           # Lo       CJK COMPATIBILITY IDEOGRAPH-2F85D
2F85E         ; NFKC_CF; 5922           # Lo       CJK COMPATIBILITY IDEOGRAPH-2F85E
"%string.
Definition props_text_419 := "2F85F         ; NFKC_CF; 5962           # Lo       CJK COMPATIBILITY IDEOGRAPH-2F85F
2F860         ; NFKC_CF; 216A8          # Lo       CJK COMPATIBILITY IDEOGRAPH-2F860
2F861         ; NFKC_CF; 216EA          # Lo       CJK COMPATIBILITY IDEOGRAPH-2F861
2F862         ; NFKC_CF; 59EC           # Lo       CJK COMPATIBILITY IDEOGRAPH-2F862
2F863         ; NFKC_CF; 5A1B           # Lo       CJK COMPATIBILITY IDEOGRAPH-2F863
2F864         ; NFKC_CF; 5A27           # Lo       CJK COMPATIBILITY IDEOGRAPH-2F864
2F865         ; NFKC_CF; 59D8           # Lo       CJK COMPATIBILITY IDEOGRAPH-2F865
2F866         ; NFKC_CF; 5A66           # Lo       CJK COMPATIBILITY IDEOGRAPH-2F866
2F867         ; NFKC_CF; 36EE           # Lo       CJK COMPATIBILITY IDEOGRAPH-2F867
2F868         ; NFKC_CF; 36FC           # Lo       CJK COMPATIBILITY IDEOGRAPH-2F868
2F869         ; NFKC_CF; 5B08           # Lo       CJK COMPATIBILITY IDEOGRAPH-2F869
2F86A..2F86B  ; NFKC_CF; 5B3E           # Lo   [2] CJK COMPATIBILITY IDEOGRAPH-2F86A..CJK COMPATIBILITY IDEOGRAPH-2F86B
2F86C         ; NFKC_CF; 219C8          # Lo       CJK COMPATIBILITY IDEOGRAPH-2F86C
2F86D         ; NFKC_CF; 5BC3           # Lo       CJK COMPATIBILITY IDEOGRAPH-2F86D
2F86E         ; NFKC_CF; 5BD8           # Lo       CJK COMPATIBILITY IDEOGRAPH-2F86E
2F86F         ; NFKC_CF; 5BE7           # Lo       CJK COMPATIBILITY IDEOGRAPH-2F86F
2F870         ; NFKC_CF; 5BF3           # Lo       CJK COMPATIBILITY IDEOGRAPH-2F870
2F871         ; NFKC_CF; 21B18          # Lo       CJK COMPATIBILITY IDEOGRAPH-2F871
2F872         ; NFKC_CF; 5BFF           # Lo       CJK COMPATIBILITY IDEOGRAPH-2F872
2F873         ; NFKC_CF; 5C06           # Lo       CJK COMPATIBILITY IDEOGRAPH-2F873
"%string.
Definition props_text_420 := "2F874         ; NFKC_CF; 5F53           # Lo       CJK COMPATIBILITY IDEOGRAPH-2F874
2F875         ; NFKC_CF; 5C22           # Lo       CJK COMPATIBILITY IDEOGRAPH-2F875
2F876         ; NFKC_CF; 3781           # Lo       CJK COMPATIBILITY IDEOGRAPH-2F876
2F877         ; NFKC_CF; 5C60           # Lo       CJK COMPATIBILITY IDEOGRAPH-2F877
2F878         ; NFKC_CF; 5C6E           # Lo       CJK COMPATIBILITY IDEOGRAPH-2F878
2F879         ; NFKC_CF; 5CC0           # Lo       CJK COMPATIBILITY IDEOGRAPH-2F879
2F87A         ; NFKC_CF; 5C8D           # Lo       CJK COMPATIBILITY IDEOGRAPH-2F87A
2F87B         ; NFKC_CF; 21DE4          # Lo       CJK COMPATIBILITY IDEOGRAPH-2F87B
2F87C         ; NFKC_CF; 5D43           # Lo       CJK COMPATIBILITY IDEOGRAPH-2F87C
2F87D         ; NFKC_CF; 21DE6          # Lo       CJK COMPATIBILITY IDEOGRAPH-2F87D
2F87E         ; NFKC_CF; 5D6E           # Lo       CJK COMPATIBILITY IDEOGRAPH-2F87E
2F87F         ; NFKC_CF; 5D6B           # Lo       CJK COMPATIBILITY IDEOGRAPH-2F87F
2F880         ; NFKC_CF; 5D7C           # Lo       CJK COMPATIBILITY IDEOGRAPH-2F880
2F881         ; NFKC_CF; 5DE1           # Lo       CJK COMPATIBILITY IDEOGRAPH-2F881
2F882         ; NFKC_CF; 5DE2           # Lo       CJK COMPATIBILITY IDEOGRAPH-2F882
2F883         ; NFKC_CF; 382F           # Lo       CJK COMPATIBILITY IDEOGRAPH-2F883
2F884         ; NFKC_CF; 5DFD           # Lo       CJK COMPATIBILITY IDEOGRAPH-2F884
2F885         ; NFKC_CF; 5E28           # Lo       CJK COMPATIBILITY IDEOGRAPH-2F885
2F886         ; NFKC_CF; 5E3D           # Lo       CJK COMPATIBILITY IDEOGRAPH-2F886
2F887         ; NFKC_CF; 5E69           # Lo       CJK COMPATIBILITY IDEOGRAPH-2F887
"%string.
Definition props_text_421 := "2F888         ; NFKC_CF; 3862           # Lo       CJK COMPATIBILITY IDEOGRAPH-2F888
2F889         ; NFKC_CF; 22183          # Lo       CJK COMPATIBILITY IDEOGRAPH-2F889
2F88A         ; NFKC_CF; 387C           # Lo       CJK COMPATIBILITY IDEOGRAPH-2F88A
2F88B         ; NFKC_CF; 5EB0           # Lo       CJK COMPATIBILITY IDEOGRAPH-2F88B
2F88C         ; NFKC_CF; 5EB3           # Lo       CJK COMPATIBILITY IDEOGRAPH-2F88C
2F88D         ; NFKC_CF; 5EB6           # Lo       CJK COMPATIBILITY IDEOGRAPH-2F88D
2F88E         ; NFKC_CF; 5ECA           # Lo       CJK COMPATIBILITY IDEOGRAPH-2F88E
2F88F         ; NFKC_CF; 2A392          # Lo       CJK COMPATIBILITY IDEOGRAPH-2F88F
2F890         ; NFKC_CF; 5EFE           # Lo       CJK COMPATIBILITY IDEOGRAPH-2F890
2F891..2F892  ; NFKC_CF; 22331          # Lo   [2] CJK COMPATIBILITY IDEOGRAPH-2F891..CJK COMPATIBILITY IDEOGRAPH-2F892
2F893         ; NFKC_CF; 8201           # Lo       CJK COMPATIBILITY IDEOGRAPH-2F893
2F894..2F895  ; NFKC_CF; 5F22           # Lo   [2] CJK COMPATIBILITY IDEOGRAPH-2F894..CJK COMPATIBILITY IDEOGRAPH-2F895
2F896         ; NFKC_CF; 38C7           # Lo       CJK COMPATIBILITY IDEOGRAPH-2F896
2F897         ; NFKC_CF; 232B8          # Lo       CJK COMPATIBILITY IDEOGRAPH-2F897
2F898         ; NFKC_CF; 261DA          # Lo       CJK COMPATIBILITY IDEOGRAPH-2F898
2F899         ; NFKC_CF; 5F62           # Lo       CJK COMPATIBILITY IDEOGRAPH-2F899
2F89A         ; NFKC_CF; 5F6B           # Lo       CJK COMPATIBILITY IDEOGRAPH-2F89A
2F89B         ; NFKC_CF; 38E3           # Lo       CJK COMPATIBILITY IDEOGRAPH-2F89B
2F89C         ; NFKC_CF; 5F9A           # Lo       CJK COMPATIBILITY IDEOGRAPH-2F89C
2F89D         ; NFKC_CF; 5FCD           # Lo       CJK COMPATIBILITY IDEOGRAPH-2F89D
"%string.
Definition props_text_422 := "2F89E         ; NFKC_CF; 5FD7           # Lo       CJK COMPATIBILITY IDEOGRAPH-2F89E
2F89F         ; NFKC_CF; 5FF9           # Lo       CJK COMPATIBILITY IDEOGRAPH-2F89F
2F8A0         ; NFKC_CF; 6081           # Lo       CJK COMPATIBILITY IDEOGRAPH-2F8A0
2F8A1         ; NFKC_CF; 393A           # Lo       CJK COMPATIBILITY IDEOGRAPH-2F8A1
2F8A2         ; NFKC_CF; 391C           # Lo       CJK COMPATIBILITY IDEOGRAPH-2F8A2
2F8A3         ; NFKC_CF; 6094           # Lo       CJK COMPATIBILITY IDEOGRAPH-2F8A3
2F8A4         ; NFKC_CF; 226D4          # Lo       CJK COMPATIBILITY IDEOGRAPH-2F8A4
2F8A5         ; NFKC_CF; 60C7           # Lo       CJK COMPATIBILITY IDEOGRAPH-2F8A5
2F8A6         ; NFKC_CF; 6148           # Lo       CJK COMPATIBILITY IDEOGRAPH-2F8A6
2F8A7         ; NFKC_CF; 614C           # Lo       CJK COMPATIBILITY IDEOGRAPH-2F8A7
2F8A8         ; NFKC_CF; 614E           # Lo       CJK COMPATIBILITY IDEOGRAPH-2F8A8
2F8A9         ; NFKC_CF; 614C           # Lo       CJK COMPATIBILITY IDEOGRAPH-2F8A9
2F8AA         ; NFKC_CF; 617A           # Lo       CJK COMPATIBILITY IDEOGRAPH-2F8AA
2F8AB         ; NFKC_CF; 618E           # Lo       CJK COMPATIBILITY IDEOGRAPH-2F8AB
2F8AC         ; NFKC_CF; 61B2           # Lo       CJK COMPATIBILITY IDEOGRAPH-2F8AC
2F8AD         ; NFKC_CF; 61A4           # Lo       CJK COMPATIBILITY IDEOGRAPH-2F8AD
2F8AE         ; NFKC_CF; 61AF           # Lo       CJK COMPATIBILITY IDEOGRAPH-2F8AE
2F8AF         ; NFKC_CF; 61DE           # Lo       CJK COMPATIBILITY IDEOGRAPH-2F8AF
2F8B0         ; NFKC_CF; 61F2           # Lo       CJK COMPATIBILITY IDEOGRAPH-2F8B0
2F8B1         ; NFKC_CF; 61F6           # Lo       CJK COMPATIBILITY IDEOGRAPH-2F8B1
"%string.
Definition props_text_423 := "2F8B2         ; NFKC_CF; 6210           # Lo       CJK COMPATIBILITY IDEOGRAPH-2F8B2
2F8B3         ; NFKC_CF; 621B           # Lo       CJK COMPATIBILITY IDEOGRAPH-2F8B3
2F8B4         ; NFKC_CF; 625D           # Lo       CJK COMPATIBILITY IDEOGRAPH-2F8B4
2F8B5         ; NFKC_CF; 62B1           # Lo       CJK COMPATIBILITY IDEOGRAPH-2F8B5
2F8B6         ; NFKC_CF; 62D4           # Lo       CJK COMPATIBILITY IDEOGRAPH-2F8B6
2F8B7         ; NFKC_CF; 6350           # Lo       CJK COMPATIBILITY IDEOGRAPH-2F8B7
2F8B8         ; NFKC_CF; 22B0C          # Lo       CJK COMPATIBILITY IDEOGRAPH-2F8B8
2F8B9         ; NFKC_CF; 633D           # Lo       CJK COMPATIBILITY IDEOGRAPH-2F8B9
2F8BA         ; NFKC_CF; 62FC           # Lo       CJK COMPATIBILITY IDEOGRAPH-2F8BA
2F8BB         ; NFKC_CF; 6368           # Lo       CJK COMPATIBILITY IDEOGRAPH-2F8BB
2F8BC         ; NFKC_CF; 6383           # Lo       CJK COMPATIBILITY IDEOGRAPH-2F8BC
2F8BD         ; NFKC_CF; 63E4           # Lo       CJK COMPATIBILITY IDEOGRAPH-2F8BD
2F8BE         ; NFKC_CF; 22BF1          # Lo       CJK COMPATIBILITY IDEOGRAPH-2F8BE
2F8BF         ; NFKC_CF; 6422           # Lo       CJK COMPATIBILITY IDEOGRAPH-2F8BF
2F8C0         ; NFKC_CF; 63C5           # Lo       CJK COMPATIBILITY IDEOGRAPH-2F8C0
2F8C1         ; NFKC_CF; 63A9           # Lo       CJK COMPATIBILITY IDEOGRAPH-2F8C1
2F8C2         ; NFKC_CF; 3A2E           # Lo       CJK COMPATIBILITY IDEOGRAPH-2F8C2
2F8C3         ; NFKC_CF; 6469           # Lo       CJK COMPATIBILITY IDEOGRAPH-2F8C3
2F8C4         ; NFKC_CF; 647E           # Lo       CJK COMPATIBILITY IDEOGRAPH-2F8C4
2F8C5         ; NFKC_CF; 649D           # Lo       CJK COMPATIBILITY IDEOGRAPH-2F8C5
"%string.
Definition props_text_424 := "2F8C6         ; NFKC_CF; 6477           # Lo       CJK COMPATIBILITY IDEOGRAPH-2F8C6
2F8C7         ; NFKC_CF; 3A6C           # Lo       CJK COMPATIBILITY IDEOGRAPH-2F8C7
2F8C8         ; NFKC_CF; 654F           # Lo       CJK COMPATIBILITY IDEOGRAPH-2F8C8
2F8C9         ; NFKC_CF; 656C           # Lo       CJK COMPATIBILITY IDEOGRAPH-2F8C9
2F8CA         ; NFKC_CF; 2300A          # Lo       CJK COMPATIBILITY IDEOGRAPH-2F8CA
2F8CB         ; NFKC_CF; 65E3           # Lo       CJK COMPATIBILITY IDEOGRAPH-2F8CB
2F8CC         ; NFKC_CF; 66F8           # Lo       CJK COMPATIBILITY IDEOGRAPH-2F8CC
2F8CD         ; NFKC_CF; 6649           # Lo       CJK COMPATIBILITY IDEOGRAPH-2F8CD
2F8CE         ; NFKC_CF; 3B19           # Lo       CJK COMPATIBILITY IDEOGRAPH-2F8CE
2F8CF         ; NFKC_CF; 6691           # Lo       CJK COMPATIBILITY IDEOGRAPH-2F8CF
2F8D0         ; NFKC_CF; 3B08           # Lo       CJK COMPATIBILITY IDEOGRAPH-2F8D0
2F8D1         ; NFKC_CF; 3AE4           # Lo       CJK COMPATIBILITY IDEOGRAPH-2F8D1
2F8D2         ; NFKC_CF; 5192           # Lo       CJK COMPATIBILITY IDEOGRAPH-2F8D2
2F8D3         ; NFKC_CF; 5195           # Lo       CJK COMPATIBILITY IDEOGRAPH-2F8D3
2F8D4         ; NFKC_CF; 6700           # Lo       CJK COMPATIBILITY IDEOGRAPH-2F8D4
2F8D5         ; NFKC_CF; 669C           # Lo       CJK COMPATIBILITY IDEOGRAPH-2F8D5
2F8D6         ; NFKC_CF; 80AD           # Lo       CJK COMPATIBILITY IDEOGRAPH-2F8D6
2F8D7         ; NFKC_CF; 43D9           # Lo       CJK COMPATIBILITY IDEOGRAPH-2F8D7
2F8D8         ; NFKC_CF; 6717           # Lo       CJK COMPATIBILITY IDEOGRAPH-2F8D8
2F8D9         ; NFKC_CF; 671B           # Lo       CJK COMPATIBILITY IDEOGRAPH-2F8D9
"%string.
Definition props_text_425 := "2F8DA         ; NFKC_CF; 6721           # Lo       CJK COMPATIBILITY IDEOGRAPH-2F8DA
2F8DB         ; NFKC_CF; 675E           # Lo       CJK COMPATIBILITY IDEOGRAPH-2F8DB
2F8DC         ; NFKC_CF; 6753           # Lo       CJK COMPATIBILITY IDEOGRAPH-2F8DC
2F8DD         ; NFKC_CF; 233C3          # Lo       CJK COMPATIBILITY IDEOGRAPH-2F8DD
2F8DE         ; NFKC_CF; 3B49           # Lo       CJK COMPATIBILITY IDEOGRAPH-2F8DE
2F8DF         ; NFKC_CF; 67FA           # Lo       CJK COMPATIBILITY IDEOGRAPH-2F8DF
2F8E0         ; NFKC_CF; 6785           # Lo       CJK COMPATIBILITY IDEOGRAPH-2F8E0
2F8E1         ; NFKC_CF; 6852           # Lo       CJK COMPATIBILITY IDEOGRAPH-2F8E1
2F8E2         ; NFKC_CF; 6885           # Lo       CJK COMPATIBILITY IDEOGRAPH-2F8E2
2F8E3         ; NFKC_CF; 2346D          # Lo       CJK COMPATIBILITY IDEOGRAPH-2F8E3
2F8E4         ; NFKC_CF; 688E           # Lo       CJK COMPATIBILITY IDEOGRAPH-2F8E4
2F8E5         ; NFKC_CF; 681F           # Lo       CJK COMPATIBILITY IDEOGRAPH-2F8E5
2F8E6         ; NFKC_CF; 6914           # Lo       CJK COMPATIBILITY IDEOGRAPH-2F8E6
2F8E7         ; NFKC_CF; 3B9D           # Lo       CJK COMPATIBILITY IDEOGRAPH-2F8E7
2F8E8         ; NFKC_CF; 6942           # Lo       CJK COMPATIBILITY IDEOGRAPH-2F8E8
2F8E9         ; NFKC_CF; 69A3           # Lo       CJK COMPATIBILITY IDEOGRAPH-2F8E9
2F8EA         ; NFKC_CF; 69EA           # Lo       CJK COMPATIBILITY IDEOGRAPH-2F8EA
2F8EB         ; NFKC_CF; 6AA8           # Lo       CJK COMPATIBILITY IDEOGRAPH-2F8EB
2F8EC         ; NFKC_CF; 236A3          # Lo       CJK COMPATIBILITY IDEOGRAPH-2F8EC
2F8ED         ; NFKC_CF; 6ADB           # Lo       CJK COMPATIBILITY IDEOGRAPH-2F8ED
"%string.
Definition props_text_426 := "2F8EE         ; NFKC_CF; 3C18           # Lo       CJK COMPATIBILITY IDEOGRAPH-2F8EE
2F8EF         ; NFKC_CF; 6B21           # Lo       CJK COMPATIBILITY IDEOGRAPH-2F8EF
2F8F0         ; NFKC_CF; 238A7          # Lo       CJK COMPATIBILITY IDEOGRAPH-2F8F0
2F8F1         ; NFKC_CF; 6B54           # Lo       CJK COMPATIBILITY IDEOGRAPH-2F8F1
2F8F2         ; NFKC_CF; 3C4E           # Lo       CJK COMPATIBILITY IDEOGRAPH-2F8F2
2F8F3         ; NFKC_CF; 6B72           # Lo       CJK COMPATIBILITY IDEOGRAPH-2F8F3
2F8F4         ; NFKC_CF; 6B9F           # Lo       CJK COMPATIBILITY IDEOGRAPH-2F8F4
2F8F5         ; NFKC_CF; 6BBA           # Lo       CJK COMPATIBILITY IDEOGRAPH-2F8F5
2F8F6         ; NFKC_CF; 6BBB           # Lo       CJK COMPATIBILITY IDEOGRAPH-2F8F6
2F8F7         ; NFKC_CF; 23A8D          # Lo       CJK COMPATIBILITY IDEOGRAPH-2F8F7
2F8F8         ; NFKC_CF; 21D0B          # Lo       CJK COMPATIBILITY IDEOGRAPH-2F8F8
2F8F9         ; NFKC_CF; 23AFA          # Lo       CJK COMPATIBILITY IDEOGRAPH-2F8F9
2F8FA         ; NFKC_CF; 6C4E           # Lo       CJK COMPATIBILITY IDEOGRAPH-2F8FA
2F8FB         ; NFKC_CF; 23CBC          # Lo       CJK COMPATIBILITY IDEOGRAPH-2F8FB
2F8FC         ; NFKC_CF; 6CBF           # Lo       CJK COMPATIBILITY IDEOGRAPH-2F8FC
2F8FD         ; NFKC_CF; 6CCD           # Lo       CJK COMPATIBILITY IDEOGRAPH-2F8FD
2F8FE         ; NFKC_CF; 6C67           # Lo       CJK COMPATIBILITY IDEOGRAPH-2F8FE
2F8FF         ; NFKC_CF; 6D16           # Lo       CJK COMPATIBILITY IDEOGRAPH-2F8FF
2F900         ; NFKC_CF; 6D3E           # Lo       CJK COMPATIBILITY IDEOGRAPH-2F900
2F901         ; NFKC_CF; 6D77           # Lo       CJK COMPATIBILITY IDEOGRAPH-2F901
"%string.
Definition props_text_427 := "2F902         ; NFKC_CF; 6D41           # Lo       CJK COMPATIBILITY IDEOGRAPH-2F902
2F903         ; NFKC_CF; 6D69           # Lo       CJK COMPATIBILITY IDEOGRAPH-2F903
2F904         ; NFKC_CF; 6D78           # Lo       CJK COMPATIBILITY IDEOGRAPH-2F904
2F905         ; NFKC_CF; 6D85           # Lo       CJK COMPATIBILITY IDEOGRAPH-2F905
2F906         ; NFKC_CF; 23D1E          # Lo       CJK COMPATIBILITY IDEOGRAPH-2F906
2F907         ; NFKC_CF; 6D34           # Lo       CJK COMPATIBILITY IDEOGRAPH-2F907
2F908         ; NFKC_CF; 6E2F           # Lo       CJK COMPATIBILITY IDEOGRAPH-2F908
2F909         ; NFKC_CF; 6E6E           # Lo       CJK COMPATIBILITY IDEOGRAPH-2F909
2F90A         ; NFKC_CF; 3D33           # Lo       CJK COMPATIBILITY IDEOGRAPH-2F90A
2F90B         ; NFKC_CF; 6ECB           # Lo       CJK COMPATIBILITY IDEOGRAPH-2F90B
2F90C         ; NFKC_CF; 6EC7           # Lo       CJK COMPATIBILITY IDEOGRAPH-2F90C
2F90D         ; NFKC_CF; 23ED1          # Lo       CJK COMPATIBILITY IDEOGRAPH-2F90D
2F90E         ; NFKC_CF; 6DF9           # Lo       CJK COMPATIBILITY IDEOGRAPH-2F90E
2F90F         ; NFKC_CF; 6F6E           # Lo       CJK COMPATIBILITY IDEOGRAPH-2F90F
2F910         ; NFKC_CF; 23F5E          # Lo       CJK COMPATIBILITY IDEOGRAPH-2F910
2F911         ; NFKC_CF; 23F8E          # Lo       CJK COMPATIBILITY IDEOGRAPH-2F911
2F912         ; NFKC_CF; 6FC6           # Lo       CJK COMPATIBILITY IDEOGRAPH-2F912
2F913         ; NFKC_CF; 7039           # Lo       CJK COMPATIBILITY IDEOGRAPH-2F913
2F914         ; NFKC_CF; 701E           # Lo       CJK COMPATIBILITY IDEOGRAPH-2F914
2F915         ; NFKC_CF; 701B           # Lo       CJK COMPATIBILITY IDEOGRAPH-2F915
"%string.
Definition props_text_428 := "2F916         ; NFKC_CF; 3D96           # Lo       CJK COMPATIBILITY IDEOGRAPH-2F916
2F917         ; NFKC_CF; 704A           # Lo       CJK COMPATIBILITY IDEOGRAPH-2F917
2F918         ; NFKC_CF; 707D           # Lo       CJK COMPATIBILITY IDEOGRAPH-2F918
2F919         ; NFKC_CF; 7077           # Lo       CJK COMPATIBILITY IDEOGRAPH-2F919
2F91A         ; NFKC_CF; 70AD           # Lo       CJK COMPATIBILITY IDEOGRAPH-2F91A
2F91B         ; NFKC_CF; 20525          # Lo       CJK COMPATIBILITY IDEOGRAPH-2F91B
2F91C         ; NFKC_CF; 7145           # Lo       CJK COMPATIBILITY IDEOGRAPH-2F91C
2F91D         ; NFKC_CF; 24263          # Lo       CJK COMPATIBILITY IDEOGRAPH-2F91D
2F91E         ; NFKC_CF; 719C           # Lo       CJK COMPATIBILITY IDEOGRAPH-2F91E
2F91F         ; NFKC_CF; 243AB          # Lo       CJK COMPATIBILITY IDEOGRAPH-2F91F
2F920         ; NFKC_CF; 7228           # Lo       CJK COMPATIBILITY IDEOGRAPH-2F920
2F921         ; NFKC_CF; 7235           # Lo       CJK COMPATIBILITY IDEOGRAPH-2F921
2F922         ; NFKC_CF; 7250           # Lo       CJK COMPATIBILITY IDEOGRAPH-2F922
2F923         ; NFKC_CF; 24608          # Lo       CJK COMPATIBILITY IDEOGRAPH-2F923
2F924         ; NFKC_CF; 7280           # Lo       CJK COMPATIBILITY IDEOGRAPH-2F924
2F925         ; NFKC_CF; 7295           # Lo       CJK COMPATIBILITY IDEOGRAPH-2F925
2F926         ; NFKC_CF; 24735          # Lo       CJK COMPATIBILITY IDEOGRAPH-2F926
2F927         ; NFKC_CF; 24814          # Lo       CJK COMPATIBILITY IDEOGRAPH-2F927
2F928         ; NFKC_CF; 737A           # Lo       CJK COMPATIBILITY IDEOGRAPH-2F928
2F929         ; NFKC_CF; 738B           # Lo       CJK COMPATIBILITY IDEOGRAPH-2F929
"%string.
Definition props_text_429 := "2F92A         ; NFKC_CF; 3EAC           # Lo       CJK COMPATIBILITY IDEOGRAPH-2F92A
2F92B         ; NFKC_CF; 73A5           # Lo       CJK COMPATIBILITY IDEOGRAPH-2F92B
2F92C..2F92D  ; NFKC_CF; 3EB8           # Lo   [2] CJK COMPATIBILITY IDEOGRAPH-2F92C..CJK COMPATIBILITY IDEOGRAPH-2F92D
2F92E         ; NFKC_CF; 7447           # Lo       CJK COMPATIBILITY IDEOGRAPH-2F92E
2F92F         ; NFKC_CF; 745C           # Lo       CJK COMPATIBILITY IDEOGRAPH-2F92F
2F930         ; NFKC_CF; 7471           # Lo       CJK COMPATIBILITY IDEOGRAPH-2F930
2F931         ; NFKC_CF; 7485           # Lo       CJK COMPATIBILITY IDEOGRAPH-2F931
2F932         ; NFKC_CF; 74CA           # Lo       CJK COMPATIBILITY IDEOGRAPH-2F932
2F933         ; NFKC_CF; 3F1B           # Lo       CJK COMPATIBILITY IDEOGRAPH-2F933
2F934         ; NFKC_CF; 7524           # Lo       CJK COMPATIBILITY IDEOGRAPH-2F934
2F935         ; NFKC_CF; 24C36          # Lo       CJK COMPATIBILITY IDEOGRAPH-2F935
2F936         ; NFKC_CF; 753E           # Lo       CJK COMPATIBILITY IDEOGRAPH-2F936
2F937         ; NFKC_CF; 24C92          # Lo       CJK COMPATIBILITY IDEOGRAPH-2F937
2F938         ; NFKC_CF; 7570           # Lo       CJK COMPATIBILITY IDEOGRAPH-2F938
2F939         ; NFKC_CF; 2219F          # Lo       CJK COMPATIBILITY IDEOGRAPH-2F939
2F93A         ; NFKC_CF; 7610           # Lo       CJK COMPATIBILITY IDEOGRAPH-2F93A
2F93B         ; NFKC_CF; 24FA1          # Lo       CJK COMPATIBILITY IDEOGRAPH-2F93B
2F93C         ; NFKC_CF; 24FB8          # Lo       CJK COMPATIBILITY IDEOGRAPH-2F93C
2F93D         ; NFKC_CF; 25044          # Lo       CJK COMPATIBILITY IDEOGRAPH-2F93D
2F93E         ; NFKC_CF; 3FFC           # Lo       CJK COMPATIBILITY IDEOGRAPH-2F93E
"%string.
Definition props_text_430 := "2F93F         ; NFKC_CF; 4008           # Lo       CJK COMPATIBILITY IDEOGRAPH-2F93F
2F940         ; NFKC_CF; 76F4           # Lo       CJK COMPATIBILITY IDEOGRAPH-2F940
2F941         ; NFKC_CF; 250F3          # Lo       CJK COMPATIBILITY IDEOGRAPH-2F941
2F942         ; NFKC_CF; 250F2          # Lo       CJK COMPATIBILITY IDEOGRAPH-2F942
2F943         ; NFKC_CF; 25119          # Lo       CJK COMPATIBILITY IDEOGRAPH-2F943
2F944         ; NFKC_CF; 25133          # Lo       CJK COMPATIBILITY IDEOGRAPH-2F944
2F945         ; NFKC_CF; 771E           # Lo       CJK COMPATIBILITY IDEOGRAPH-2F945
2F946..2F947  ; NFKC_CF; 771F           # Lo   [2] CJK COMPATIBILITY IDEOGRAPH-2F946..CJK COMPATIBILITY IDEOGRAPH-2F947
2F948         ; NFKC_CF; 774A           # Lo       CJK COMPATIBILITY IDEOGRAPH-2F948
2F949         ; NFKC_CF; 4039           # Lo       CJK COMPATIBILITY IDEOGRAPH-2F949
2F94A         ; NFKC_CF; 778B           # Lo       CJK COMPATIBILITY IDEOGRAPH-2F94A
2F94B         ; NFKC_CF; 4046           # Lo       CJK COMPATIBILITY IDEOGRAPH-2F94B
2F94C         ; NFKC_CF; 4096           # Lo       CJK COMPATIBILITY IDEOGRAPH-2F94C
2F94D         ; NFKC_CF; 2541D          # Lo       CJK COMPATIBILITY IDEOGRAPH-2F94D
2F94E         ; NFKC_CF; 784E           # Lo       CJK COMPATIBILITY IDEOGRAPH-2F94E
2F94F         ; NFKC_CF; 788C           # Lo       CJK COMPATIBILITY IDEOGRAPH-2F94F
2F950         ; NFKC_CF; 78CC           # Lo       CJK COMPATIBILITY IDEOGRAPH-2F950
2F951         ; NFKC_CF; 40E3           # Lo       CJK COMPATIBILITY IDEOGRAPH-2F951
2F952         ; NFKC_CF; 25626          # Lo       CJK COMPATIBILITY IDEOGRAPH-2F952
2F953         ; NFKC_CF; 7956           # Lo       CJK COMPATIBILITY IDEOGRAPH-2F953
"%string.
Definition props_text_431 := "2F954         ; NFKC_CF; 2569A          # Lo       CJK COMPATIBILITY IDEOGRAPH-2F954
2F955         ; NFKC_CF; 256C5          # Lo       CJK COMPATIBILITY IDEOGRAPH-2F955
2F956         ; NFKC_CF; 798F           # Lo       CJK COMPATIBILITY IDEOGRAPH-2F956
2F957         ; NFKC_CF; 79EB           # Lo       CJK COMPATIBILITY IDEOGRAPH-2F957
2F958         ; NFKC_CF; 412F           # Lo       CJK COMPATIBILITY IDEOGRAPH-2F958
2F959         ; NFKC_CF; 7A40           # Lo       CJK COMPATIBILITY IDEOGRAPH-2F959
2F95A         ; NFKC_CF; 7A4A           # Lo       CJK COMPATIBILITY IDEOGRAPH-2F95A
2F95B         ; NFKC_CF; 7A4F           # Lo       CJK COMPATIBILITY IDEOGRAPH-2F95B
2F95C         ; NFKC_CF; 2597C          # Lo       CJK COMPATIBILITY IDEOGRAPH-2F95C
2F95D..2F95E  ; NFKC_CF; 25AA7          # Lo   [2] CJK COMPATIBILITY IDEOGRAPH-2F95D..CJK COMPATIBILITY IDEOGRAPH-2F95E
2F95F         ; NFKC_CF; 7AEE           # Lo       CJK COMPATIBILITY IDEOGRAPH-2F95F
2F960         ; NFKC_CF; 4202           # Lo       CJK COMPATIBILITY IDEOGRAPH-2F960
2F961         ; NFKC_CF; 25BAB          # Lo       CJK COMPATIBILITY IDEOGRAPH-2F961
2F962         ; NFKC_CF; 7BC6           # Lo       CJK COMPATIBILITY IDEOGRAPH-2F962
2F963         ; NFKC_CF; 7BC9           # Lo       CJK COMPATIBILITY IDEOGRAPH-2F963
2F964         ; NFKC_CF; 4227           # Lo       CJK COMPATIBILITY IDEOGRAPH-2F964
2F965         ; NFKC_CF; 25C80          # Lo       CJK COMPATIBILITY IDEOGRAPH-2F965
2F966         ; NFKC_CF; 7CD2           # Lo       CJK COMPATIBILITY IDEOGRAPH-2F966
2F967         ; NFKC_CF; 42A0           # Lo       CJK COMPATIBILITY IDEOGRAPH-2F967
2F968         ; NFKC_CF; 7CE8           # Lo       CJK COMPATIBILITY IDEOGRAPH-2F968
"%string.
Definition props_text_432 := "2F969         ; NFKC_CF; 7CE3           # Lo       CJK COMPATIBILITY IDEOGRAPH-2F969
2F96A         ; NFKC_CF; 7D00           # Lo       CJK COMPATIBILITY IDEOGRAPH-2F96A
2F96B         ; NFKC_CF; 25F86          # Lo       CJK COMPATIBILITY IDEOGRAPH-2F96B
2F96C         ; NFKC_CF; 7D63           # Lo       CJK COMPATIBILITY IDEOGRAPH-2F96C
2F96D         ; NFKC_CF; 4301           # Lo       CJK COMPATIBILITY IDEOGRAPH-2F96D
2F96E         ; NFKC_CF; 7DC7           # Lo       CJK COMPATIBILITY IDEOGRAPH-2F96E
2F96F         ; NFKC_CF; 7E02           # Lo       CJK COMPATIBILITY IDEOGRAPH-2F96F
2F970         ; NFKC_CF; 7E45           # Lo       CJK COMPATIBILITY IDEOGRAPH-2F970
2F971         ; NFKC_CF; 4334           # Lo       CJK COMPATIBILITY IDEOGRAPH-2F971
2F972         ; NFKC_CF; 26228          # Lo       CJK COMPATIBILITY IDEOGRAPH-2F972
2F973         ; NFKC_CF; 26247          # Lo       CJK COMPATIBILITY IDEOGRAPH-2F973
2F974         ; NFKC_CF; 4359           # Lo       CJK COMPATIBILITY IDEOGRAPH-2F974
2F975         ; NFKC_CF; 262D9          # Lo       CJK COMPATIBILITY IDEOGRAPH-2F975
2F976         ; NFKC_CF; 7F7A           # Lo       CJK COMPATIBILITY IDEOGRAPH-2F976
2F977         ; NFKC_CF; 2633E          # Lo       CJK COMPATIBILITY IDEOGRAPH-2F977
2F978         ; NFKC_CF; 7F95           # Lo       CJK COMPATIBILITY IDEOGRAPH-2F978
2F979         ; NFKC_CF; 7FFA           # Lo       CJK COMPATIBILITY IDEOGRAPH-2F979
2F97A         ; NFKC_CF; 8005           # Lo       CJK COMPATIBILITY IDEOGRAPH-2F97A
2F97B         ; NFKC_CF; 264DA          # Lo       CJK COMPATIBILITY IDEOGRAPH-2F97B
2F97C         ; NFKC_CF; 26523          # Lo       CJK COMPATIBILITY IDEOGRAPH-2F97C
"%string.
Definition props_text_433 := "2F97D         ; NFKC_CF; 8060           # Lo       CJK COMPATIBILITY IDEOGRAPH-2F97D
2F97E         ; NFKC_CF; 265A8          # Lo       CJK COMPATIBILITY IDEOGRAPH-2F97E
2F97F         ; NFKC_CF; 8070           # Lo       CJK COMPATIBILITY IDEOGRAPH-2F97F
2F980         ; NFKC_CF; 2335F          # Lo       CJK COMPATIBILITY IDEOGRAPH-2F980
2F981         ; NFKC_CF; 43D5           # Lo       CJK COMPATIBILITY IDEOGRAPH-2F981
2F982         ; NFKC_CF; 80B2           # Lo       CJK COMPATIBILITY IDEOGRAPH-2F982
2F983         ; NFKC_CF; 8103           # Lo       CJK COMPATIBILITY IDEOGRAPH-2F983
2F984         ; NFKC_CF; 440B           # Lo       CJK COMPATIBILITY IDEOGRAPH-2F984
2F985         ; NFKC_CF; 813E           # Lo       CJK COMPATIBILITY IDEOGRAPH-2F985
2F986         ; NFKC_CF; 5AB5           # Lo       CJK COMPATIBILITY IDEOGRAPH-2F986
2F987         ; NFKC_CF; 267A7          # Lo       CJK COMPATIBILITY IDEOGRAPH-2F987
2F988         ; NFKC_CF; 267B5          # Lo       CJK COMPATIBILITY IDEOGRAPH-2F988
2F989         ; NFKC_CF; 23393          # Lo       CJK COMPATIBILITY IDEOGRAPH-2F989
2F98A         ; NFKC_CF; 2339C          # Lo       CJK COMPATIBILITY IDEOGRAPH-2F98A
2F98B         ; NFKC_CF; 8201           # Lo       CJK COMPATIBILITY IDEOGRAPH-2F98B
2F98C         ; NFKC_CF; 8204           # Lo       CJK COMPATIBILITY IDEOGRAPH-2F98C
2F98D         ; NFKC_CF; 8F9E           # Lo       CJK COMPATIBILITY IDEOGRAPH-2F98D
2F98E         ; NFKC_CF; 446B           # Lo       CJK COMPATIBILITY IDEOGRAPH-2F98E
2F98F         ; NFKC_CF; 8291           # Lo       CJK COMPATIBILITY IDEOGRAPH-2F98F
2F990         ; NFKC_CF; 828B           # Lo       CJK COMPATIBILITY IDEOGRAPH-2F990
"%string.
Definition props_text_434 := "2F991         ; NFKC_CF; 829D           # Lo       CJK COMPATIBILITY IDEOGRAPH-2F991
2F992         ; NFKC_CF; 52B3           # Lo       CJK COMPATIBILITY IDEOGRAPH-2F992
2F993         ; NFKC_CF; 82B1           # Lo       CJK COMPATIBILITY IDEOGRAPH-2F993
2F994         ; NFKC_CF; 82B3           # Lo       CJK COMPATIBILITY IDEOGRAPH-2F994
2F995         ; NFKC_CF; 82BD           # Lo       CJK COMPATIBILITY IDEOGRAPH-2F995
2F996         ; NFKC_CF; 82E6           # Lo       CJK COMPATIBILITY IDEOGRAPH-2F996
2F997         ; NFKC_CF; 26B3C          # Lo       CJK COMPATIBILITY IDEOGRAPH-2F997
2F998         ; NFKC_CF; 82E5           # Lo       CJK COMPATIBILITY IDEOGRAPH-2F998
2F999         ; NFKC_CF; 831D           # Lo       CJK COMPATIBILITY IDEOGRAPH-2F999
2F99A         ; NFKC_CF; 8363           # Lo       CJK COMPATIBILITY IDEOGRAPH-2F99A
2F99B         ; NFKC_CF; 83AD           # Lo       CJK COMPATIBILITY IDEOGRAPH-2F99B
2F99C         ; NFKC_CF; 8323           # Lo       CJK COMPATIBILITY IDEOGRAPH-2F99C
2F99D         ; NFKC_CF; 83BD           # Lo       CJK COMPATIBILITY IDEOGRAPH-2F99D
2F99E         ; NFKC_CF; 83E7           # Lo       CJK COMPATIBILITY IDEOGRAPH-2F99E
2F99F         ; NFKC_CF; 8457           # Lo       CJK COMPATIBILITY IDEOGRAPH-2F99F
2F9A0         ; NFKC_CF; 8353           # Lo       CJK COMPATIBILITY IDEOGRAPH-2F9A0
2F9A1         ; NFKC_CF; 83CA           # Lo       CJK COMPATIBILITY IDEOGRAPH-2F9A1
2F9A2         ; NFKC_CF; 83CC           # Lo       CJK COMPATIBILITY IDEOGRAPH-2F9A2
2F9A3         ; NFKC_CF; 83DC           # Lo       CJK COMPATIBILITY IDEOGRAPH-2F9A3
2F9A4         ; NFKC_CF; 26C36          # Lo       CJK COMPATIBILITY IDEOGRAPH-2F9A4
"%string.
Definition props_text_435 := "2F9A5         ; NFKC_CF; 26D6B          # Lo       CJK COMPATIBILITY IDEOGRAPH-2F9A5
2F9A6         ; NFKC_CF; 26CD5          # Lo       CJK COMPATIBILITY IDEOGRAPH-2F9A6
2F9A7         ; NFKC_CF; 452B           # Lo       CJK COMPATIBILITY IDEOGRAPH-2F9A7
2F9A8         ; NFKC_CF; 84F1           # Lo       CJK COMPATIBILITY IDEOGRAPH-2F9A8
2F9A9         ; NFKC_CF; 84F3           # Lo       CJK COMPATIBILITY IDEOGRAPH-2F9A9
2F9AA         ; NFKC_CF; 8516           # Lo       CJK COMPATIBILITY IDEOGRAPH-2F9AA
2F9AB         ; NFKC_CF; 273CA          # Lo       CJK COMPATIBILITY IDEOGRAPH-2F9AB
2F9AC         ; NFKC_CF; 8564           # Lo       CJK COMPATIBILITY IDEOGRAPH-2F9AC
2F9AD         ; NFKC_CF; 26F2C          # Lo       CJK COMPATIBILITY IDEOGRAPH-2F9AD
2F9AE         ; NFKC_CF; 455D           # Lo       CJK COMPATIBILITY IDEOGRAPH-2F9AE
2F9AF         ; NFKC_CF; 4561           # Lo       CJK COMPATIBILITY IDEOGRAPH-2F9AF
2F9B0         ; NFKC_CF; 26FB1          # Lo       CJK COMPATIBILITY IDEOGRAPH-2F9B0
2F9B1         ; NFKC_CF; 270D2          # Lo       CJK COMPATIBILITY IDEOGRAPH-2F9B1
2F9B2         ; NFKC_CF; 456B           # Lo       CJK COMPATIBILITY IDEOGRAPH-2F9B2
2F9B3         ; NFKC_CF; 8650           # Lo       CJK COMPATIBILITY IDEOGRAPH-2F9B3
2F9B4         ; NFKC_CF; 865C           # Lo       CJK COMPATIBILITY IDEOGRAPH-2F9B4
2F9B5         ; NFKC_CF; 8667           # Lo       CJK COMPATIBILITY IDEOGRAPH-2F9B5
2F9B6         ; NFKC_CF; 8669           # Lo       CJK COMPATIBILITY IDEOGRAPH-2F9B6
2F9B7         ; NFKC_CF; 86A9           # Lo       CJK COMPATIBILITY IDEOGRAPH-2F9B7
2F9B8         ; NFKC_CF; 8688           # Lo       CJK COMPATIBILITY IDEOGRAPH-2F9B8
"%string.
Definition props_text_436 := "2F9B9         ; NFKC_CF; 870E           # Lo       CJK COMPATIBILITY IDEOGRAPH-2F9B9
2F9BA         ; NFKC_CF; 86E2           # Lo       CJK COMPATIBILITY IDEOGRAPH-2F9BA
2F9BB         ; NFKC_CF; 8779           # Lo       CJK COMPATIBILITY IDEOGRAPH-2F9BB
2F9BC         ; NFKC_CF; 8728           # Lo       CJK COMPATIBILITY IDEOGRAPH-2F9BC
2F9BD         ; NFKC_CF; 876B           # Lo       CJK COMPATIBILITY IDEOGRAPH-2F9BD
2F9BE         ; NFKC_CF; 8786           # Lo       CJK COMPATIBILITY IDEOGRAPH-2F9BE
2F9BF         ; NFKC_CF; 45D7           # Lo       CJK COMPATIBILITY IDEOGRAPH-2F9BF
2F9C0         ; NFKC_CF; 87E1           # Lo       CJK COMPATIBILITY IDEOGRAPH-2F9C0
2F9C1         ; NFKC_CF; 8801           # Lo       CJK COMPATIBILITY IDEOGRAPH-2F9C1
2F9C2         ; NFKC_CF; 45F9           # Lo       CJK COMPATIBILITY IDEOGRAPH-2F9C2
2F9C3         ; NFKC_CF; 8860           # Lo       CJK COMPATIBILITY IDEOGRAPH-2F9C3
2F9C4         ; NFKC_CF; 8863           # Lo       CJK COMPATIBILITY IDEOGRAPH-2F9C4
2F9C5         ; NFKC_CF; 27667          # Lo       CJK COMPATIBILITY IDEOGRAPH-2F9C5
2F9C6         ; NFKC_CF; 88D7           # Lo       CJK COMPATIBILITY IDEOGRAPH-2F9C6
2F9C7         ; NFKC_CF; 88DE           # Lo       CJK COMPATIBILITY IDEOGRAPH-2F9C7
2F9C8         ; NFKC_CF; 4635           # Lo       CJK COMPATIBILITY IDEOGRAPH-2F9C8
2F9C9         ; NFKC_CF; 88FA           # Lo       CJK COMPATIBILITY IDEOGRAPH-2F9C9
2F9CA         ; NFKC_CF; 34BB           # Lo       CJK COMPATIBILITY IDEOGRAPH-2F9CA
2F9CB         ; NFKC_CF; 278AE          # Lo       CJK COMPATIBILITY IDEOGRAPH-2F9CB
2F9CC         ; NFKC_CF; 27966          # Lo       CJK COMPATIBILITY IDEOGRAPH-2F9CC
"%string.
Definition props_text_437 := "2F9CD         ; NFKC_CF; 46BE           # Lo       CJK COMPATIBILITY IDEOGRAPH-2F9CD
2F9CE         ; NFKC_CF; 46C7           # Lo       CJK COMPATIBILITY IDEOGRAPH-2F9CE
2F9CF         ; NFKC_CF; 8AA0           # Lo       CJK COMPATIBILITY IDEOGRAPH-2F9CF
2F9D0         ; NFKC_CF; 8AED           # Lo       CJK COMPATIBILITY IDEOGRAPH-2F9D0
2F9D1         ; NFKC_CF; 8B8A           # Lo       CJK COMPATIBILITY IDEOGRAPH-2F9D1
2F9D2         ; NFKC_CF; 8C55           # Lo       CJK COMPATIBILITY IDEOGRAPH-2F9D2
2F9D3         ; NFKC_CF; 27CA8          # Lo       CJK COMPATIBILITY IDEOGRAPH-2F9D3
2F9D4         ; NFKC_CF; 8CAB           # Lo       CJK COMPATIBILITY IDEOGRAPH-2F9D4
2F9D5         ; NFKC_CF; 8CC1           # Lo       CJK COMPATIBILITY IDEOGRAPH-2F9D5
2F9D6         ; NFKC_CF; 8D1B           # Lo       CJK COMPATIBILITY IDEOGRAPH-2F9D6
2F9D7         ; NFKC_CF; 8D77           # Lo       CJK COMPATIBILITY IDEOGRAPH-2F9D7
2F9D8         ; NFKC_CF; 27F2F          # Lo       CJK COMPATIBILITY IDEOGRAPH-2F9D8
2F9D9         ; NFKC_CF; 20804          # Lo       CJK COMPATIBILITY IDEOGRAPH-2F9D9
2F9DA         ; NFKC_CF; 8DCB           # Lo       CJK COMPATIBILITY IDEOGRAPH-2F9DA
2F9DB         ; NFKC_CF; 8DBC           # Lo       CJK COMPATIBILITY IDEOGRAPH-2F9DB
2F9DC         ; NFKC_CF; 8DF0           # Lo       CJK COMPATIBILITY IDEOGRAPH-2F9DC
2F9DD         ; NFKC_CF; 208DE          # Lo       CJK COMPATIBILITY IDEOGRAPH-2F9DD
2F9DE         ; NFKC_CF; 8ED4           # Lo       CJK COMPATIBILITY IDEOGRAPH-2F9DE
2F9DF         ; NFKC_CF; 8F38           # Lo       CJK COMPATIBILITY IDEOGRAPH-2F9DF
2F9E0         ; NFKC_CF; 285D2          # Lo       CJK COMPATIBILITY IDEOGRAPH-2F9E0
"%string.
Definition props_text_438 := "2F9E1         ; NFKC_CF; 285ED          # Lo       CJK COMPATIBILITY IDEOGRAPH-2F9E1
2F9E2         ; NFKC_CF; 9094           # Lo       CJK COMPATIBILITY IDEOGRAPH-2F9E2
2F9E3         ; NFKC_CF; 90F1           # Lo       CJK COMPATIBILITY IDEOGRAPH-2F9E3
2F9E4         ; NFKC_CF; 9111           # Lo       CJK COMPATIBILITY IDEOGRAPH-2F9E4
2F9E5         ; NFKC_CF; 2872E          # Lo       CJK COMPATIBILITY IDEOGRAPH-2F9E5
2F9E6         ; NFKC_CF; 911B           # Lo       CJK COMPATIBILITY IDEOGRAPH-2F9E6
2F9E7         ; NFKC_CF; 9238           # Lo       CJK COMPATIBILITY IDEOGRAPH-2F9E7
2F9E8         ; NFKC_CF; 92D7           # Lo       CJK COMPATIBILITY IDEOGRAPH-2F9E8
2F9E9         ; NFKC_CF; 92D8           # Lo       CJK COMPATIBILITY IDEOGRAPH-2F9E9
2F9EA         ; NFKC_CF; 927C           # Lo       CJK COMPATIBILITY IDEOGRAPH-2F9EA
2F9EB         ; NFKC_CF; 93F9           # Lo       CJK COMPATIBILITY IDEOGRAPH-2F9EB
2F9EC         ; NFKC_CF; 9415           # Lo       CJK COMPATIBILITY IDEOGRAPH-2F9EC
2F9ED         ; NFKC_CF; 28BFA          # Lo       CJK COMPATIBILITY IDEOGRAPH-2F9ED
2F9EE         ; NFKC_CF; 958B           # Lo       CJK COMPATIBILITY IDEOGRAPH-2F9EE
2F9EF         ; NFKC_CF; 4995           # Lo       CJK COMPATIBILITY IDEOGRAPH-2F9EF
2F9F0         ; NFKC_CF; 95B7           # Lo       CJK COMPATIBILITY IDEOGRAPH-2F9F0
2F9F1         ; NFKC_CF; 28D77          # Lo       CJK COMPATIBILITY IDEOGRAPH-2F9F1
2F9F2         ; NFKC_CF; 49E6           # Lo       CJK COMPATIBILITY IDEOGRAPH-2F9F2
2F9F3         ; NFKC_CF; 96C3           # Lo       CJK COMPATIBILITY IDEOGRAPH-2F9F3
2F9F4         ; NFKC_CF; 5DB2           # Lo       CJK COMPATIBILITY IDEOGRAPH-2F9F4
"%string.
Definition props_text_439 := "2F9F5         ; NFKC_CF; 9723           # Lo       CJK COMPATIBILITY IDEOGRAPH-2F9F5
2F9F6         ; NFKC_CF; 29145          # Lo       CJK COMPATIBILITY IDEOGRAPH-2F9F6
2F9F7         ; NFKC_CF; 2921A          # Lo       CJK COMPATIBILITY IDEOGRAPH-2F9F7
2F9F8         ; NFKC_CF; 4A6E           # Lo       CJK COMPATIBILITY IDEOGRAPH-2F9F8
2F9F9         ; NFKC_CF; 4A76           # Lo       CJK COMPATIBILITY IDEOGRAPH-2F9F9
2F9FA         ; NFKC_CF; 97E0           # Lo       CJK COMPATIBILITY IDEOGRAPH-2F9FA
2F9FB         ; NFKC_CF; 2940A          # Lo       CJK COMPATIBILITY IDEOGRAPH-2F9FB
2F9FC         ; NFKC_CF; 4AB2           # Lo       CJK COMPATIBILITY IDEOGRAPH-2F9FC
2F9FD         ; NFKC_CF; 29496          # Lo       CJK COMPATIBILITY IDEOGRAPH-2F9FD
2F9FE..2F9FF  ; NFKC_CF; 980B           # Lo   [2] CJK COMPATIBILITY IDEOGRAPH-2F9FE..CJK COMPATIBILITY IDEOGRAPH-2F9FF
2FA00         ; NFKC_CF; 9829           # Lo       CJK COMPATIBILITY IDEOGRAPH-2FA00
2FA01         ; NFKC_CF; 295B6          # Lo       CJK COMPATIBILITY IDEOGRAPH-2FA01
2FA02         ; NFKC_CF; 98E2           # Lo       CJK COMPATIBILITY IDEOGRAPH-2FA02
2FA03         ; NFKC_CF; 4B33           # Lo       CJK COMPATIBILITY IDEOGRAPH-2FA03
2FA04         ; NFKC_CF; 9929           # Lo       CJK COMPATIBILITY IDEOGRAPH-2FA04
2FA05         ; NFKC_CF; 99A7           # Lo       CJK COMPATIBILITY IDEOGRAPH-2FA05
2FA06         ; NFKC_CF; 99C2           # Lo       CJK COMPATIBILITY IDEOGRAPH-2FA06
2FA07         ; NFKC_CF; 99FE           # Lo       CJK COMPATIBILITY IDEOGRAPH-2FA07
2FA08         ; NFKC_CF; 4BCE           # Lo       CJK COMPATIBILITY IDEOGRAPH-2FA08
2FA09         ; NFKC_CF; 29B30          # Lo       CJK COMPATIBILITY IDEOGRAPH-2FA09
"%string.
Definition props_text_440 := "2FA0A         ; NFKC_CF; 9B12           # Lo       CJK COMPATIBILITY IDEOGRAPH-2FA0A
2FA0B         ; NFKC_CF; 9C40           # Lo       CJK COMPATIBILITY IDEOGRAPH-2FA0B
2FA0C         ; NFKC_CF; 9CFD           # Lo       CJK COMPATIBILITY IDEOGRAPH-2FA0C
2FA0D         ; NFKC_CF; 4CCE           # Lo       CJK COMPATIBILITY IDEOGRAPH-2FA0D
2FA0E         ; NFKC_CF; 4CED           # Lo       CJK COMPATIBILITY IDEOGRAPH-2FA0E
2FA0F         ; NFKC_CF; 9D67           # Lo       CJK COMPATIBILITY IDEOGRAPH-2FA0F
2FA10         ; NFKC_CF; 2A0CE          # Lo       CJK COMPATIBILITY IDEOGRAPH-2FA10
2FA11         ; NFKC_CF; 4CF8           # Lo       CJK COMPATIBILITY IDEOGRAPH-2FA11
2FA12         ; NFKC_CF; 2A105          # Lo       CJK COMPATIBILITY IDEOGRAPH-2FA12
2FA13         ; NFKC_CF; 2A20E          # Lo       CJK COMPATIBILITY IDEOGRAPH-2FA13
2FA14         ; NFKC_CF; 2A291          # Lo       CJK COMPATIBILITY IDEOGRAPH-2FA14
2FA15         ; NFKC_CF; 9EBB           # Lo       CJK COMPATIBILITY IDEOGRAPH-2FA15
2FA16         ; NFKC_CF; 4D56           # Lo       CJK COMPATIBILITY IDEOGRAPH-2FA16
2FA17         ; NFKC_CF; 9EF9           # Lo       CJK COMPATIBILITY IDEOGRAPH-2FA17
2FA18         ; NFKC_CF; 9EFE           # Lo       CJK COMPATIBILITY IDEOGRAPH-2FA18
2FA19         ; NFKC_CF; 9F05           # Lo       CJK COMPATIBILITY IDEOGRAPH-2FA19
2FA1A         ; NFKC_CF; 9F0F           # Lo       CJK COMPATIBILITY IDEOGRAPH-2FA1A
2FA1B         ; NFKC_CF; 9F16           # Lo       CJK COMPATIBILITY IDEOGRAPH-2FA1B
2FA1C         ; NFKC_CF; 9F3B           # Lo       CJK COMPATIBILITY IDEOGRAPH-2FA1C
2FA1D         ; NFKC_CF; 2A600          # Lo       CJK COMPATIBILITY IDEOGRAPH-2FA1D
"%string.
Definition props_text_441 := "E0000         ; NFKC_CF;                # Cn       <reserved-E0000>
E0001         ; NFKC_CF;                # Cf       LANGUAGE TAG
E0002..E001F  ; NFKC_CF;                # Cn  [30] <reserved-E0002>..<reserved-E001F>
E0020..E007F  ; NFKC_CF;                # Cf  [96] TAG SPACE..CANCEL TAG
E0080..E00FF  ; NFKC_CF;                # Cn [128] <reserved-E0080>..<reserved-E00FF>
E0100..E01EF  ; NFKC_CF;                # Mn [240] VARIATION SELECTOR-17..VARIATION SELECTOR-256
E01F0..E0FFF  ; NFKC_CF;                # Cn [3600] <reserved-E01F0>..<reserved-E0FFF>

# Total code points: 10329

# ================================================

# Derived Property:   Changes_When_NFKC_Casefolded (CWKCF)
#  Characters that are not stable under an NFKC_Casefold mapping.
#  As defined by cp != NFKC_Casefold(cp)

0041..005A    ; Changes_When_NFKC_Casefolded # L&  [26] LATIN CAPITAL LETTER A..LATIN CAPITAL LETTER Z
00A0          ; Changes_When_NFKC_Casefolded # Zs       NO-BREAK SPACE
00A8          ; Changes_When_NFKC_Casefolded # Sk       DIAERESIS
00AA          ; Changes_When_NFKC_Casefolded # Lo       FEMININE ORDINAL INDICATOR
"%string.
Definition props_text_442 := "00AD          ; Changes_When_NFKC_Casefolded # Cf       SOFT HYPHEN
00AF          ; Changes_When_NFKC_Casefolded # Sk       MACRON
00B2..00B3    ; Changes_When_NFKC_Casefolded # No   [2] SUPERSCRIPT TWO..SUPERSCRIPT THREE
00B4          ; Changes_When_NFKC_Casefolded # Sk       ACUTE ACCENT
00B5          ; Changes_When_NFKC_Casefolded # L&       MICRO SIGN
00B8          ; Changes_When_NFKC_Casefolded # Sk       CEDILLA
00B9          ; Changes_When_NFKC_Casefolded # No       SUPERSCRIPT ONE
00BA          ; Changes_When_NFKC_Casefolded # Lo       MASCULINE ORDINAL INDICATOR
00BC..00BE    ; Changes_When_NFKC_Casefolded # No   [3] VULGAR FRACTION ONE QUARTER..VULGAR FRACTION THREE QUARTERS
00C0..00D6    ; Changes_When_NFKC_Casefolded # L&  [23] LATIN CAPITAL LETTER A WITH GRAVE..LATIN CAPITAL LETTER O WITH DIAERESIS
00D8..00DF    ; Changes_When_NFKC_Casefolded # L&   [8] LATIN CAPITAL LETTER O WITH STROKE..LATIN SMALL LETTER SHARP S
0100          ; Changes_When_NFKC_Casefolded # L&       LATIN CAPITAL LETTER A WITH MACRON
0102          ; Changes_When_NFKC_Casefolded # L&       LATIN CAPITAL LETTER A WITH BREVE
0104          ; Changes_When_NFKC_Casefolded # L&       LATIN CAPITAL LETTER A WITH OGONEK
0106          ; Changes_When_NFKC_Casefolded # L&       LATIN CAPITAL LETTER C WITH ACUTE
0108          ; Changes_When_NFKC_Casefolded # L&       LATIN CAPITAL LETTER C WITH CIRCUMFLEX
010A          ; Changes_When_NFKC_Casefolded # L&       LATIN CAPITAL LETTER C WITH DOT ABOVE
010C          ; Changes_When_NFKC_Casefolded # L&       LATIN CAPITAL LETTER C WITH CARON
010E          ; Changes_When_NFKC_Casefolded # L&       LATIN CAPITAL LETTER D WITH CARON
0110          ; Changes_When_NFKC_Casefolded # L&       LATIN CAPITAL LETTER D WITH STROKE
"%string.
Definition props_text_443 := "0112          ; Changes_When_NFKC_Casefolded # L&       LATIN CAPITAL LETTER E WITH MACRON
0114          ; Changes_When_NFKC_Casefolded # L&       LATIN CAPITAL LETTER E WITH BREVE
0116          ; Changes_When_NFKC_Casefolded # L&       LATIN CAPITAL LETTER E WITH DOT ABOVE
0118          ; Changes_When_NFKC_Casefolded # L&       LATIN CAPITAL LETTER E WITH OGONEK
011A          ; Changes_When_NFKC_Casefolded # L&       LATIN CAPITAL LETTER E WITH CARON
011C          ; Changes_When_NFKC_Casefolded # L&       LATIN CAPITAL LETTER G WITH CIRCUMFLEX
011E          ; Changes_When_NFKC_Casefolded # L&       LATIN CAPITAL LETTER G WITH BREVE
0120          ; Changes_When_NFKC_Casefolded # L&       LATIN CAPITAL LETTER G WITH DOT ABOVE
0122          ; Changes_When_NFKC_Casefolded # L&       LATIN CAPITAL LETTER G WITH CEDILLA
0124          ; Changes_When_NFKC_Casefolded # L&       LATIN CAPITAL LETTER H WITH CIRCUMFLEX
0126          ; Changes_When_NFKC_Casefolded # L&       LATIN CAPITAL LETTER H WITH STROKE
0128          ; Changes_When_NFKC_Casefolded # L&       LATIN CAPITAL LETTER I WITH TILDE
012A          ; Changes_When_NFKC_Casefolded # L&       LATIN CAPITAL LETTER I WITH MACRON
012C          ; Changes_When_NFKC_Casefolded # L&       LATIN CAPITAL LETTER I WITH BREVE
012E          ; Changes_When_NFKC_Casefolded # L&       LATIN CAPITAL LETTER I WITH OGONEK
0130          ; Changes_When_NFKC_Casefolded # L&       LATIN CAPITAL LETTER I WITH DOT ABOVE
0132..0134    ; Changes_When_NFKC_Casefolded # L&   [3] LATIN CAPITAL LIGATURE IJ..LATIN CAPITAL LETTER J WITH CIRCUMFLEX
0136          ; Changes_When_NFKC_Casefolded # L&       LATIN CAPITAL LETTER K WITH CEDILLA
0139          ; Changes_When_NFKC_Casefolded # L&       LATIN CAPITAL LETTER L WITH ACUTE
013B          ; Changes_When_NFKC_Casefolded # L&       LATIN CAPITAL LETTER L WITH CEDILLA
"%string.
Definition props_text_444 := "013D          ; Changes_When_NFKC_Casefolded # L&       LATIN CAPITAL LETTER L WITH CARON
013F..0141    ; Changes_When_NFKC_Casefolded # L&   [3] LATIN CAPITAL LETTER L WITH MIDDLE DOT..LATIN CAPITAL LETTER L WITH STROKE
0143          ; Changes_When_NFKC_Casefolded # L&       LATIN CAPITAL LETTER N WITH ACUTE
0145          ; Changes_When_NFKC_Casefolded # L&       LATIN CAPITAL LETTER N WITH CEDILLA
0147          ; Changes_When_NFKC_Casefolded # L&       LATIN CAPITAL LETTER N WITH CARON
0149..014A    ; Changes_When_NFKC_Casefolded # L&   [2] LATIN SMALL LETTER N PRECEDED BY APOSTROPHE..LATIN CAPITAL LETTER ENG
014C          ; Changes_When_NFKC_Casefolded # L&       LATIN CAPITAL LETTER O WITH MACRON
014E          ; Changes_When_NFKC_Casefolded # L&       LATIN CAPITAL LETTER O WITH BREVE
0150          ; Changes_When_NFKC_Casefolded # L&       LATIN CAPITAL LETTER O WITH DOUBLE ACUTE
0152          ; Changes_When_NFKC_Casefolded # L&       LATIN CAPITAL LIGATURE OE
0154          ; Changes_When_NFKC_Casefolded # L&       LATIN CAPITAL LETTER R WITH ACUTE
0156          ; Changes_When_NFKC_Casefolded # L&       LATIN CAPITAL LETTER R WITH CEDILLA
0158          ; Changes_When_NFKC_Casefolded # L&       LATIN CAPITAL LETTER R WITH CARON
015A          ; Changes_When_NFKC_Casefolded # L&       LATIN CAPITAL LETTER S WITH ACUTE
015C          ; Changes_When_NFKC_Casefolded # L&       LATIN CAPITAL LETTER S WITH CIRCUMFLEX
015E          ; Changes_When_NFKC_Casefolded # L&       LATIN CAPITAL LETTER S WITH CEDILLA
0160          ; Changes_When_NFKC_Casefolded # L&       LATIN CAPITAL LETTER S WITH CARON
0162          ; Changes_When_NFKC_Casefolded # L&       LATIN CAPITAL LETTER T WITH CEDILLA
0164          ; Changes_When_NFKC_Casefolded # L&       LATIN CAPITAL LETTER T WITH CARON
0166          ; Changes_When_NFKC_Casefolded # L&       LATIN CAPITAL LETTER T WITH STROKE
"%string.
Definition props_text_445 := "0168          ; Changes_When_NFKC_Casefolded # L&       LATIN CAPITAL LETTER U WITH TILDE
016A          ; Changes_When_NFKC_Casefolded # L&       LATIN CAPITAL LETTER U WITH MACRON
016C          ; Changes_When_NFKC_Casefolded # L&       LATIN CAPITAL LETTER U WITH BREVE
016E          ; Changes_When_NFKC_Casefolded # L&       LATIN CAPITAL LETTER U WITH RING ABOVE
0170          ; Changes_When_NFKC_Casefolded # L&       LATIN CAPITAL LETTER U WITH DOUBLE ACUTE
0172          ; Changes_When_NFKC_Casefolded # L&       LATIN CAPITAL LETTER U WITH OGONEK
0174          ; Changes_When_NFKC_Casefolded # L&       LATIN CAPITAL LETTER W WITH CIRCUMFLEX
0176          ; Changes_When_NFKC_Casefolded # L&       LATIN CAPITAL LETTER Y WITH CIRCUMFLEX
0178..0179    ; Changes_When_NFKC_Casefolded # L&   [2] LATIN CAPITAL LETTER Y WITH DIAERESIS..LATIN CAPITAL LETTER Z WITH ACUTE
017B          ; Changes_When_NFKC_Casefolded # L&       LATIN CAPITAL LETTER Z WITH DOT ABOVE
017D          ; Changes_When_NFKC_Casefolded # L&       LATIN CAPITAL LETTER Z WITH CARON
017F          ; Changes_When_NFKC_Casefolded # L&       LATIN SMALL LETTER LONG S
0181..0182    ; Changes_When_NFKC_Casefolded # L&   [2] LATIN CAPITAL LETTER B WITH HOOK..LATIN CAPITAL LETTER B WITH TOPBAR
0184          ; Changes_When_NFKC_Casefolded # L&       LATIN CAPITAL LETTER TONE SIX
0186..0187    ; Changes_When_NFKC_Casefolded # L&   [2] LATIN CAPITAL LETTER OPEN O..LATIN CAPITAL LETTER C WITH HOOK
0189..018B    ; Changes_When_NFKC_Casefolded # L&   [3] LATIN CAPITAL LETTER AFRICAN D..LATIN CAPITAL LETTER D WITH TOPBAR
018E..0191    ; Changes_When_NFKC_Casefolded # L&   [4] LATIN CAPITAL LETTER REVERSED E..LATIN CAPITAL LETTER F WITH HOOK
0193..0194    ; Changes_When_NFKC_Casefolded # L&   [2] LATIN CAPITAL LETTER G WITH HOOK..LATIN CAPITAL LETTER GAMMA
0196..0198    ; Changes_When_NFKC_Casefolded # L&   [3] LATIN CAPITAL LETTER IOTA..LATIN CAPITAL LETTER K WITH HOOK
019C..019D    ; Changes_When_NFKC_Casefolded # L&   [2] LATIN CAPITAL LETTER TURNED M..LATIN CAPITAL LETTER N WITH LEFT HOOK
"%string.
Definition props_text_446 := "019F..01A0    ; Changes_When_NFKC_Casefolded # L&   [2] LATIN CAPITAL LETTER O WITH MIDDLE TILDE..LATIN CAPITAL LETTER O WITH HORN
01A2          ; Changes_When_NFKC_Casefolded # L&       LATIN CAPITAL LETTER OI
01A4          ; Changes_When_NFKC_Casefolded # L&       LATIN CAPITAL LETTER P WITH HOOK
01A6..01A7    ; Changes_When_NFKC_Casefolded # L&   [2] LATIN LETTER YR..LATIN CAPITAL LETTER TONE TWO
01A9          ; Changes_When_NFKC_Casefolded # L&       LATIN CAPITAL LETTER ESH
01AC          ; Changes_When_NFKC_Casefolded # L&       LATIN CAPITAL LETTER T WITH HOOK
01AE..01AF    ; Changes_When_NFKC_Casefolded # L&   [2] LATIN CAPITAL LETTER T WITH RETROFLEX HOOK..LATIN CAPITAL LETTER U WITH HORN
01B1..01B3    ; Changes_When_NFKC_Casefolded # L&   [3] LATIN CAPITAL LETTER UPSILON..LATIN CAPITAL LETTER Y WITH HOOK
01B5          ; Changes_When_NFKC_Casefolded # L&       LATIN CAPITAL LETTER Z WITH STROKE
01B7..01B8    ; Changes_When_NFKC_Casefolded # L&   [2] LATIN CAPITAL LETTER EZH..LATIN CAPITAL LETTER EZH REVERSED
01BC          ; Changes_When_NFKC_Casefolded # L&       LATIN CAPITAL LETTER TONE FIVE
01C4..01CD    ; Changes_When_NFKC_Casefolded # L&  [10] LATIN CAPITAL LETTER DZ WITH CARON..LATIN CAPITAL LETTER A WITH CARON
01CF          ; Changes_When_NFKC_Casefolded # L&       LATIN CAPITAL LETTER I WITH CARON
01D1          ; Changes_When_NFKC_Casefolded # L&       LATIN CAPITAL LETTER O WITH CARON
01D3          ; Changes_When_NFKC_Casefolded # L&       LATIN CAPITAL LETTER U WITH CARON
01D5          ; Changes_When_NFKC_Casefolded # L&       LATIN CAPITAL LETTER U WITH DIAERESIS AND MACRON
01D7          ; Changes_When_NFKC_Casefolded # L&       LATIN CAPITAL LETTER U WITH DIAERESIS AND ACUTE
01D9          ; Changes_When_NFKC_Casefolded # L&       LATIN CAPITAL LETTER U WITH DIAERESIS AND CARON
01DB          ; Changes_When_NFKC_Casefolded # L&       LATIN CAPITAL LETTER U WITH DIAERESIS AND GRAVE
01DE          ; Changes_When_NFKC_Casefolded # L&       LATIN CAPITAL LETTER A WITH DIAERESIS AND MACRON
"%string.
Definition props_text_447 := "01E0          ; Changes_When_NFKC_Casefolded # L&       LATIN CAPITAL LETTER A WITH DOT ABOVE AND MACRON
01E2          ; Changes_When_NFKC_Casefolded # L&       LATIN CAPITAL LETTER AE WITH MACRON
01E4          ; Changes_When_NFKC_Casefolded # L&       LATIN CAPITAL LETTER G WITH STROKE
01E6          ; Changes_When_NFKC_Casefolded # L&       LATIN CAPITAL LETTER G WITH CARON
01E8          ; Changes_When_NFKC_Casefolded # L&       LATIN CAPITAL LETTER K WITH CARON
01EA          ; Changes_When_NFKC_Casefolded # L&       LATIN CAPITAL LETTER O WITH OGONEK
01EC          ; Changes_When_NFKC_Casefolded # L&       LATIN CAPITAL LETTER O WITH OGONEK AND MACRON
01EE          ; Changes_When_NFKC_Casefolded # L&       LATIN CAPITAL LETTER EZH WITH CARON
01F1..01F4    ; Changes_When_NFKC_Casefolded # L&   [4] LATIN CAPITAL LETTER DZ..LATIN CAPITAL LETTER G WITH ACUTE
01F6..01F8    ; Changes_When_NFKC_Casefolded # L&   [3] LATIN CAPITAL LETTER HWAIR..LATIN CAPITAL LETTER N WITH GRAVE
01FA          ; Changes_When_NFKC_Casefolded # L&       LATIN CAPITAL LETTER A WITH RING ABOVE AND ACUTE
01FC          ; Changes_When_NFKC_Casefolded # L&       LATIN CAPITAL LETTER AE WITH ACUTE
01FE          ; Changes_When_NFKC_Casefolded # L&       LATIN CAPITAL LETTER O WITH STROKE AND ACUTE
0200          ; Changes_When_NFKC_Casefolded # L&       LATIN CAPITAL LETTER A WITH DOUBLE GRAVE
0202          ; Changes_When_NFKC_Casefolded # L&       LATIN CAPITAL LETTER A WITH INVERTED BREVE
0204          ; Changes_When_NFKC_Casefolded # L&       LATIN CAPITAL LETTER E WITH DOUBLE GRAVE
0206          ; Changes_When_NFKC_Casefolded # L&       LATIN CAPITAL LETTER E WITH INVERTED BREVE
0208          ; Changes_When_NFKC_Casefolded # L&       LATIN CAPITAL LETTER I WITH DOUBLE GRAVE
020A          ; Changes_When_NFKC_Casefolded # L&       LATIN CAPITAL LETTER I WITH INVERTED BREVE
020C          ; Changes_When_NFKC_Casefolded # L&       LATIN CAPITAL LETTER O WITH DOUBLE GRAVE
"%string.
Definition props_text_448 := "020E          ; Changes_When_NFKC_Casefolded # L&       LATIN CAPITAL LETTER O WITH INVERTED BREVE
0210          ; Changes_When_NFKC_Casefolded # L&       LATIN CAPITAL LETTER R WITH DOUBLE GRAVE
0212          ; Changes_When_NFKC_Casefolded # L&       LATIN CAPITAL LETTER R WITH INVERTED BREVE
0214          ; Changes_When_NFKC_Casefolded # L&       LATIN CAPITAL LETTER U WITH DOUBLE GRAVE
0216          ; Changes_When_NFKC_Casefolded # L&       LATIN CAPITAL LETTER U WITH INVERTED BREVE
0218          ; Changes_When_NFKC_Casefolded # L&       LATIN CAPITAL LETTER S WITH COMMA BELOW
021A          ; Changes_When_NFKC_Casefolded # L&       LATIN CAPITAL LETTER T WITH COMMA BELOW
021C          ; Changes_When_NFKC_Casefolded # L&       LATIN CAPITAL LETTER YOGH
021E          ; Changes_When_NFKC_Casefolded # L&       LATIN CAPITAL LETTER H WITH CARON
0220          ; Changes_When_NFKC_Casefolded # L&       LATIN CAPITAL LETTER N WITH LONG RIGHT LEG
0222          ; Changes_When_NFKC_Casefolded # L&       LATIN CAPITAL LETTER OU
0224          ; Changes_When_NFKC_Casefolded # L&       LATIN CAPITAL LETTER Z WITH HOOK
0226          ; Changes_When_NFKC_Casefolded # L&       LATIN CAPITAL LETTER A WITH DOT ABOVE
0228          ; Changes_When_NFKC_Casefolded # L&       LATIN CAPITAL LETTER E WITH CEDILLA
022A          ; Changes_When_NFKC_Casefolded # L&       LATIN CAPITAL LETTER O WITH DIAERESIS AND MACRON
022C          ; Changes_When_NFKC_Casefolded # L&       LATIN CAPITAL LETTER O WITH TILDE AND MACRON
022E          ; Changes_When_NFKC_Casefolded # L&       LATIN CAPITAL LETTER O WITH DOT ABOVE
0230          ; Changes_When_NFKC_Casefolded # L&       LATIN CAPITAL LETTER O WITH DOT ABOVE AND MACRON
0232          ; Changes_When_NFKC_Casefolded # L&       LATIN CAPITAL LETTER Y WITH MACRON
023A..023B    ; Changes_When_NFKC_Casefolded # L&   [2] LATIN CAPITAL LETTER A WITH STROKE..LATIN CAPITAL LETTER C WITH STROKE
"%string.
Definition props_text_449 := "023D..023E    ; Changes_When_NFKC_Casefolded # L&   [2] LATIN CAPITAL LETTER L WITH BAR..LATIN CAPITAL LETTER T WITH DIAGONAL STROKE
0241          ; Changes_When_NFKC_Casefolded # L&       LATIN CAPITAL LETTER GLOTTAL STOP
0243..0246    ; Changes_When_NFKC_Casefolded # L&   [4] LATIN CAPITAL LETTER B WITH STROKE..LATIN CAPITAL LETTER E WITH STROKE
0248          ; Changes_When_NFKC_Casefolded # L&       LATIN CAPITAL LETTER J WITH STROKE
024A          ; Changes_When_NFKC_Casefolded # L&       LATIN CAPITAL LETTER SMALL Q WITH HOOK TAIL
024C          ; Changes_When_NFKC_Casefolded # L&       LATIN CAPITAL LETTER R WITH STROKE
024E          ; Changes_When_NFKC_Casefolded # L&       LATIN CAPITAL LETTER Y WITH STROKE
02B0..02B8    ; Changes_When_NFKC_Casefolded # Lm   [9] MODIFIER LETTER SMALL H..MODIFIER LETTER SMALL Y
02D8..02DD    ; Changes_When_NFKC_Casefolded # Sk   [6] BREVE..DOUBLE ACUTE ACCENT
02E0..02E4    ; Changes_When_NFKC_Casefolded # Lm   [5] MODIFIER LETTER SMALL GAMMA..MODIFIER LETTER SMALL REVERSED GLOTTAL STOP
0340..0341    ; Changes_When_NFKC_Casefolded # Mn   [2] COMBINING GRAVE TONE MARK..COMBINING ACUTE TONE MARK
0343..0345    ; Changes_When_NFKC_Casefolded # Mn   [3] COMBINING GREEK KORONIS..COMBINING GREEK YPOGEGRAMMENI
034F          ; Changes_When_NFKC_Casefolded # Mn       COMBINING GRAPHEME JOINER
0370          ; Changes_When_NFKC_Casefolded # L&       GREEK CAPITAL LETTER HETA
0372          ; Changes_When_NFKC_Casefolded # L&       GREEK CAPITAL LETTER ARCHAIC SAMPI
0374          ; Changes_When_NFKC_Casefolded # Lm       GREEK NUMERAL SIGN
0376          ; Changes_When_NFKC_Casefolded # L&       GREEK CAPITAL LETTER PAMPHYLIAN DIGAMMA
037A          ; Changes_When_NFKC_Casefolded # Lm       GREEK YPOGEGRAMMENI
037E          ; Changes_When_NFKC_Casefolded # Po       GREEK QUESTION MARK
037F          ; Changes_When_NFKC_Casefolded # L&       GREEK CAPITAL LETTER YOT
"%string.
Definition props_text_450 := "0384..0385    ; Changes_When_NFKC_Casefolded # Sk   [2] GREEK TONOS..GREEK DIALYTIKA TONOS
0386          ; Changes_When_NFKC_Casefolded # L&       GREEK CAPITAL LETTER ALPHA WITH TONOS
0387          ; Changes_When_NFKC_Casefolded # Po       GREEK ANO TELEIA
0388..038A    ; Changes_When_NFKC_Casefolded # L&   [3] GREEK CAPITAL LETTER EPSILON WITH TONOS..GREEK CAPITAL LETTER IOTA WITH TONOS
038C          ; Changes_When_NFKC_Casefolded # L&       GREEK CAPITAL LETTER OMICRON WITH TONOS
038E..038F    ; Changes_When_NFKC_Casefolded # L&   [2] GREEK CAPITAL LETTER UPSILON WITH TONOS..GREEK CAPITAL LETTER OMEGA WITH TONOS
0391..03A1    ; Changes_When_NFKC_Casefolded # L&  [17] GREEK CAPITAL LETTER ALPHA..GREEK CAPITAL LETTER RHO
03A3..03AB    ; Changes_When_NFKC_Casefolded # L&   [9] GREEK CAPITAL LETTER SIGMA..GREEK CAPITAL LETTER UPSILON WITH DIALYTIKA
03C2          ; Changes_When_NFKC_Casefolded # L&       GREEK SMALL LETTER FINAL SIGMA
03CF..03D6    ; Changes_When_NFKC_Casefolded # L&   [8] GREEK CAPITAL KAI SYMBOL..GREEK PI SYMBOL
03D8          ; Changes_When_NFKC_Casefolded # L&       GREEK LETTER ARCHAIC KOPPA
03DA          ; Changes_When_NFKC_Casefolded # L&       GREEK LETTER STIGMA
03DC          ; Changes_When_NFKC_Casefolded # L&       GREEK LETTER DIGAMMA
03DE          ; Changes_When_NFKC_Casefolded # L&       GREEK LETTER KOPPA
03E0          ; Changes_When_NFKC_Casefolded # L&       GREEK LETTER SAMPI
03E2          ; Changes_When_NFKC_Casefolded # L&       COPTIC CAPITAL LETTER SHEI
03E4          ; Changes_When_NFKC_Casefolded # L&       COPTIC CAPITAL LETTER FEI
03E6          ; Changes_When_NFKC_Casefolded # L&       COPTIC CAPITAL LETTER KHEI
03E8          ; Changes_When_NFKC_Casefolded # L&       COPTIC CAPITAL LETTER HORI
03EA          ; Changes_When_NFKC_Casefolded # L&       COPTIC CAPITAL LETTER GANGIA
"%string.
Definition props_text_451 := "03EC          ; Changes_When_NFKC_Casefolded # L&       COPTIC CAPITAL LETTER SHIMA
03EE          ; Changes_When_NFKC_Casefolded # L&       COPTIC CAPITAL LETTER DEI
03F0..03F2    ; Changes_When_NFKC_Casefolded # L&   [3] GREEK KAPPA SYMBOL..GREEK LUNATE SIGMA SYMBOL
03F4..03F5    ; Changes_When_NFKC_Casefolded # L&   [2] GREEK CAPITAL THETA SYMBOL..GREEK LUNATE EPSILON SYMBOL
03F7          ; Changes_When_NFKC_Casefolded # L&       GREEK CAPITAL LETTER SHO
03F9..03FA    ; Changes_When_NFKC_Casefolded # L&   [2] GREEK CAPITAL LUNATE SIGMA SYMBOL..GREEK CAPITAL LETTER SAN
03FD..042F    ; Changes_When_NFKC_Casefolded # L&  [51] GREEK CAPITAL REVERSED LUNATE SIGMA SYMBOL..CYRILLIC CAPITAL LETTER YA
0460          ; Changes_When_NFKC_Casefolded # L&       CYRILLIC CAPITAL LETTER OMEGA
0462          ; Changes_When_NFKC_Casefolded # L&       CYRILLIC CAPITAL LETTER YAT
0464          ; Changes_When_NFKC_Casefolded # L&       CYRILLIC CAPITAL LETTER IOTIFIED E
0466          ; Changes_When_NFKC_Casefolded # L&       CYRILLIC CAPITAL LETTER LITTLE YUS
0468          ; Changes_When_NFKC_Casefolded # L&       CYRILLIC CAPITAL LETTER IOTIFIED LITTLE YUS
046A          ; Changes_When_NFKC_Casefolded # L&       CYRILLIC CAPITAL LETTER BIG YUS
046C          ; Changes_When_NFKC_Casefolded # L&       CYRILLIC CAPITAL LETTER IOTIFIED BIG YUS
046E          ; Changes_When_NFKC_Casefolded # L&       CYRILLIC CAPITAL LETTER KSI
0470          ; Changes_When_NFKC_Casefolded # L&       CYRILLIC CAPITAL LETTER PSI
0472          ; Changes_When_NFKC_Casefolded # L&       CYRILLIC CAPITAL LETTER FITA
0474          ; Changes_When_NFKC_Casefolded # L&       CYRILLIC CAPITAL LETTER IZHITSA
0476          ; Changes_When_NFKC_Casefolded # L&       CYRILLIC CAPITAL LETTER IZHITSA WITH DOUBLE GRAVE ACCENT
0478          ; Changes_When_NFKC_Casefolded # L&       CYRILLIC CAPITAL LETTER UK
"%string.
Definition props_text_452 := "047A          ; Changes_When_NFKC_Casefolded # L&       CYRILLIC CAPITAL LETTER ROUND OMEGA
047C          ; Changes_When_NFKC_Casefolded # L&       CYRILLIC CAPITAL LETTER OMEGA WITH TITLO
047E          ; Changes_When_NFKC_Casefolded # L&       CYRILLIC CAPITAL LETTER OT
0480          ; Changes_When_NFKC_Casefolded # L&       CYRILLIC CAPITAL LETTER KOPPA
048A          ; Changes_When_NFKC_Casefolded # L&       CYRILLIC CAPITAL LETTER SHORT I WITH TAIL
048C          ; Changes_When_NFKC_Casefolded # L&       CYRILLIC CAPITAL LETTER SEMISOFT SIGN
048E          ; Changes_When_NFKC_Casefolded # L&       CYRILLIC CAPITAL LETTER ER WITH TICK
0490          ; Changes_When_NFKC_Casefolded # L&       CYRILLIC CAPITAL LETTER GHE WITH UPTURN
0492          ; Changes_When_NFKC_Casefolded # L&       CYRILLIC CAPITAL LETTER GHE WITH STROKE
0494          ; Changes_When_NFKC_Casefolded # L&       CYRILLIC CAPITAL LETTER GHE WITH MIDDLE HOOK
0496          ; Changes_When_NFKC_Casefolded # L&       CYRILLIC CAPITAL LETTER ZHE WITH DESCENDER
0498          ; Changes_When_NFKC_Casefolded # L&       CYRILLIC CAPITAL LETTER ZE WITH DESCENDER
049A          ; Changes_When_NFKC_Casefolded # L&       CYRILLIC CAPITAL LETTER KA WITH DESCENDER
049C          ; Changes_When_NFKC_Casefolded # L&       CYRILLIC CAPITAL LETTER KA WITH VERTICAL STROKE
049E          ; Changes_When_NFKC_Casefolded # L&       CYRILLIC CAPITAL LETTER KA WITH STROKE
04A0          ; Changes_When_NFKC_Casefolded # L&       CYRILLIC CAPITAL LETTER BASHKIR KA
04A2          ; Changes_When_NFKC_Casefolded # L&       CYRILLIC CAPITAL LETTER EN WITH DESCENDER
04A4          ; Changes_When_NFKC_Casefolded # L&       CYRILLIC CAPITAL LIGATURE EN GHE
04A6          ; Changes_When_NFKC_Casefolded # L&       CYRILLIC CAPITAL LETTER PE WITH MIDDLE HOOK
04A8          ; Changes_When_NFKC_Casefolded # L&       CYRILLIC CAPITAL LETTER ABKHASIAN HA
"%string.
Definition props_text_453 := "04AA          ; Changes_When_NFKC_Casefolded # L&       CYRILLIC CAPITAL LETTER ES WITH DESCENDER
04AC          ; Changes_When_NFKC_Casefolded # L&       CYRILLIC CAPITAL LETTER TE WITH DESCENDER
04AE          ; Changes_When_NFKC_Casefolded # L&       CYRILLIC CAPITAL LETTER STRAIGHT U
04B0          ; Changes_When_NFKC_Casefolded # L&       CYRILLIC CAPITAL LETTER STRAIGHT U WITH STROKE
04B2          ; Changes_When_NFKC_Casefolded # L&       CYRILLIC CAPITAL LETTER HA WITH DESCENDER
04B4          ; Changes_When_NFKC_Casefolded # L&       CYRILLIC CAPITAL LIGATURE TE TSE
04B6          ; Changes_When_NFKC_Casefolded # L&       CYRILLIC CAPITAL LETTER CHE WITH DESCENDER
04B8          ; Changes_When_NFKC_Casefolded # L&       CYRILLIC CAPITAL LETTER CHE WITH VERTICAL STROKE
04BA          ; Changes_When_NFKC_Casefolded # L&       CYRILLIC CAPITAL LETTER SHHA
04BC          ; Changes_When_NFKC_Casefolded # L&       CYRILLIC CAPITAL LETTER ABKHASIAN CHE
04BE          ; Changes_When_NFKC_Casefolded # L&       CYRILLIC CAPITAL LETTER ABKHASIAN CHE WITH DESCENDER
04C0..04C1    ; Changes_When_NFKC_Casefolded # L&   [2] CYRILLIC LETTER PALOCHKA..CYRILLIC CAPITAL LETTER ZHE WITH BREVE
04C3          ; Changes_When_NFKC_Casefolded # L&       CYRILLIC CAPITAL LETTER KA WITH HOOK
04C5          ; Changes_When_NFKC_Casefolded # L&       CYRILLIC CAPITAL LETTER EL WITH TAIL
04C7          ; Changes_When_NFKC_Casefolded # L&       CYRILLIC CAPITAL LETTER EN WITH HOOK
04C9          ; Changes_When_NFKC_Casefolded # L&       CYRILLIC CAPITAL LETTER EN WITH TAIL
04CB          ; Changes_When_NFKC_Casefolded # L&       CYRILLIC CAPITAL LETTER KHAKASSIAN CHE
04CD          ; Changes_When_NFKC_Casefolded # L&       CYRILLIC CAPITAL LETTER EM WITH TAIL
04D0          ; Changes_When_NFKC_Casefolded # L&       CYRILLIC CAPITAL LETTER A WITH BREVE
04D2          ; Changes_When_NFKC_Casefolded # L&       CYRILLIC CAPITAL LETTER A WITH DIAERESIS
"%string.
Definition props_text_454 := "04D4          ; Changes_When_NFKC_Casefolded # L&       CYRILLIC CAPITAL LIGATURE A IE
04D6          ; Changes_When_NFKC_Casefolded # L&       CYRILLIC CAPITAL LETTER IE WITH BREVE
04D8          ; Changes_When_NFKC_Casefolded # L&       CYRILLIC CAPITAL LETTER SCHWA
04DA          ; Changes_When_NFKC_Casefolded # L&       CYRILLIC CAPITAL LETTER SCHWA WITH DIAERESIS
04DC          ; Changes_When_NFKC_Casefolded # L&       CYRILLIC CAPITAL LETTER ZHE WITH DIAERESIS
04DE          ; Changes_When_NFKC_Casefolded # L&       CYRILLIC CAPITAL LETTER ZE WITH DIAERESIS
04E0          ; Changes_When_NFKC_Casefolded # L&       CYRILLIC CAPITAL LETTER ABKHASIAN DZE
04E2          ; Changes_When_NFKC_Casefolded # L&       CYRILLIC CAPITAL LETTER I WITH MACRON
04E4          ; Changes_When_NFKC_Casefolded # L&       CYRILLIC CAPITAL LETTER I WITH DIAERESIS
04E6          ; Changes_When_NFKC_Casefolded # L&       CYRILLIC CAPITAL LETTER O WITH DIAERESIS
04E8          ; Changes_When_NFKC_Casefolded # L&       CYRILLIC CAPITAL LETTER BARRED O
04EA          ; Changes_When_NFKC_Casefolded # L&       CYRILLIC CAPITAL LETTER BARRED O WITH DIAERESIS
04EC          ; Changes_When_NFKC_Casefolded # L&       CYRILLIC CAPITAL LETTER E WITH DIAERESIS
04EE          ; Changes_When_NFKC_Casefolded # L&       CYRILLIC CAPITAL LETTER U WITH MACRON
04F0          ; Changes_When_NFKC_Casefolded # L&       CYRILLIC CAPITAL LETTER U WITH DIAERESIS
04F2          ; Changes_When_NFKC_Casefolded # L&       CYRILLIC CAPITAL LETTER U WITH DOUBLE ACUTE
04F4          ; Changes_When_NFKC_Casefolded # L&       CYRILLIC CAPITAL LETTER CHE WITH DIAERESIS
04F6          ; Changes_When_NFKC_Casefolded # L&       CYRILLIC CAPITAL LETTER GHE WITH DESCENDER
04F8          ; Changes_When_NFKC_Casefolded # L&       CYRILLIC CAPITAL LETTER YERU WITH DIAERESIS
04FA          ; Changes_When_NFKC_Casefolded # L&       CYRILLIC CAPITAL LETTER GHE WITH STROKE AND HOOK
"%string.
Definition props_text_455 := "04FC          ; Changes_When_NFKC_Casefolded # L&       CYRILLIC CAPITAL LETTER HA WITH HOOK
04FE          ; Changes_When_NFKC_Casefolded # L&       CYRILLIC CAPITAL LETTER HA WITH STROKE
0500          ; Changes_When_NFKC_Casefolded # L&       CYRILLIC CAPITAL LETTER KOMI DE
0502          ; Changes_When_NFKC_Casefolded # L&       CYRILLIC CAPITAL LETTER KOMI DJE
0504          ; Changes_When_NFKC_Casefolded # L&       CYRILLIC CAPITAL LETTER KOMI ZJE
0506          ; Changes_When_NFKC_Casefolded # L&       CYRILLIC CAPITAL LETTER KOMI DZJE
0508          ; Changes_When_NFKC_Casefolded # L&       CYRILLIC CAPITAL LETTER KOMI LJE
050A          ; Changes_When_NFKC_Casefolded # L&       CYRILLIC CAPITAL LETTER KOMI NJE
050C          ; Changes_When_NFKC_Casefolded # L&       CYRILLIC CAPITAL LETTER KOMI SJE
050E          ; Changes_When_NFKC_Casefolded # L&       CYRILLIC CAPITAL LETTER KOMI TJE
0510          ; Changes_When_NFKC_Casefolded # L&       CYRILLIC CAPITAL LETTER REVERSED ZE
0512          ; Changes_When_NFKC_Casefolded # L&       CYRILLIC CAPITAL LETTER EL WITH HOOK
0514          ; Changes_When_NFKC_Casefolded # L&       CYRILLIC CAPITAL LETTER LHA
0516          ; Changes_When_NFKC_Casefolded # L&       CYRILLIC CAPITAL LETTER RHA
0518          ; Changes_When_NFKC_Casefolded # L&       CYRILLIC CAPITAL LETTER YAE
051A          ; Changes_When_NFKC_Casefolded # L&       CYRILLIC CAPITAL LETTER QA
051C          ; Changes_When_NFKC_Casefolded # L&       CYRILLIC CAPITAL LETTER WE
051E          ; Changes_When_NFKC_Casefolded # L&       CYRILLIC CAPITAL LETTER ALEUT KA
0520          ; Changes_When_NFKC_Casefolded # L&       CYRILLIC CAPITAL LETTER EL WITH MIDDLE HOOK
0522          ; Changes_When_NFKC_Casefolded # L&       CYRILLIC CAPITAL LETTER EN WITH MIDDLE HOOK
"%string.
Definition props_text_456 := "0524          ; Changes_When_NFKC_Casefolded # L&       CYRILLIC CAPITAL LETTER PE WITH DESCENDER
0526          ; Changes_When_NFKC_Casefolded # L&       CYRILLIC CAPITAL LETTER SHHA WITH DESCENDER
0528          ; Changes_When_NFKC_Casefolded # L&       CYRILLIC CAPITAL LETTER EN WITH LEFT HOOK
052A          ; Changes_When_NFKC_Casefolded # L&       CYRILLIC CAPITAL LETTER DZZHE
052C          ; Changes_When_NFKC_Casefolded # L&       CYRILLIC CAPITAL LETTER DCHE
052E          ; Changes_When_NFKC_Casefolded # L&       CYRILLIC CAPITAL LETTER EL WITH DESCENDER
0531..0556    ; Changes_When_NFKC_Casefolded # L&  [38] ARMENIAN CAPITAL LETTER AYB..ARMENIAN CAPITAL LETTER FEH
0587          ; Changes_When_NFKC_Casefolded # L&       ARMENIAN SMALL LIGATURE ECH YIWN
061C          ; Changes_When_NFKC_Casefolded # Cf       ARABIC LETTER MARK
0675..0678    ; Changes_When_NFKC_Casefolded # Lo   [4] ARABIC LETTER HIGH HAMZA ALEF..ARABIC LETTER HIGH HAMZA YEH
0958..095F    ; Changes_When_NFKC_Casefolded # Lo   [8] DEVANAGARI LETTER QA..DEVANAGARI LETTER YYA
09DC..09DD    ; Changes_When_NFKC_Casefolded # Lo   [2] BENGALI LETTER RRA..BENGALI LETTER RHA
09DF          ; Changes_When_NFKC_Casefolded # Lo       BENGALI LETTER YYA
0A33          ; Changes_When_NFKC_Casefolded # Lo       GURMUKHI LETTER LLA
0A36          ; Changes_When_NFKC_Casefolded # Lo       GURMUKHI LETTER SHA
0A59..0A5B    ; Changes_When_NFKC_Casefolded # Lo   [3] GURMUKHI LETTER KHHA..GURMUKHI LETTER ZA
0A5E          ; Changes_When_NFKC_Casefolded # Lo       GURMUKHI LETTER FA
0B5C..0B5D    ; Changes_When_NFKC_Casefolded # Lo   [2] ORIYA LETTER RRA..ORIYA LETTER RHA
0E33          ; Changes_When_NFKC_Casefolded # Lo       THAI CHARACTER SARA AM
0EB3          ; Changes_When_NFKC_Casefolded # Lo       LAO VOWEL SIGN AM
"%string.
Definition props_text_457 := "0EDC..0EDD    ; Changes_When_NFKC_Casefolded # Lo   [2] LAO HO NO..LAO HO MO
0F0C          ; Changes_When_NFKC_Casefolded # Po       TIBETAN MARK DELIMITER TSHEG BSTAR
0F43          ; Changes_When_NFKC_Casefolded # Lo       TIBETAN LETTER GHA
0F4D          ; Changes_When_NFKC_Casefolded # Lo       TIBETAN LETTER DDHA
0F52          ; Changes_When_NFKC_Casefolded # Lo       TIBETAN LETTER DHA
0F57          ; Changes_When_NFKC_Casefolded # Lo       TIBETAN LETTER BHA
0F5C          ; Changes_When_NFKC_Casefolded # Lo       TIBETAN LETTER DZHA
0F69          ; Changes_When_NFKC_Casefolded # Lo       TIBETAN LETTER KSSA
0F73          ; Changes_When_NFKC_Casefolded # Mn       TIBETAN VOWEL SIGN II
0F75..0F79    ; Changes_When_NFKC_Casefolded # Mn   [5] TIBETAN VOWEL SIGN UU..TIBETAN VOWEL SIGN VOCALIC LL
0F81          ; Changes_When_NFKC_Casefolded # Mn       TIBETAN VOWEL SIGN REVERSED II
0F93          ; Changes_When_NFKC_Casefolded # Mn       TIBETAN SUBJOINED LETTER GHA
0F9D          ; Changes_When_NFKC_Casefolded # Mn       TIBETAN SUBJOINED LETTER DDHA
0FA2          ; Changes_When_NFKC_Casefolded # Mn       TIBETAN SUBJOINED LETTER DHA
0FA7          ; Changes_When_NFKC_Casefolded # Mn       TIBETAN SUBJOINED LETTER BHA
0FAC          ; Changes_When_NFKC_Casefolded # Mn       TIBETAN SUBJOINED LETTER DZHA
0FB9          ; Changes_When_NFKC_Casefolded # Mn       TIBETAN SUBJOINED LETTER KSSA
10A0..10C5    ; Changes_When_NFKC_Casefolded # L&  [38] GEORGIAN CAPITAL LETTER AN..GEORGIAN CAPITAL LETTER HOE
10C7          ; Changes_When_NFKC_Casefolded # L&       GEORGIAN CAPITAL LETTER YN
10CD          ; Changes_When_NFKC_Casefolded # L&       GEORGIAN CAPITAL LETTER AEN
"%string.
Definition props_text_458 := "10FC          ; Changes_When_NFKC_Casefolded # Lm       MODIFIER LETTER GEORGIAN NAR
115F..1160    ; Changes_When_NFKC_Casefolded # Lo   [2] HANGUL CHOSEONG FILLER..HANGUL JUNGSEONG FILLER
13F8..13FD    ; Changes_When_NFKC_Casefolded # L&   [6] CHEROKEE SMALL LETTER YE..CHEROKEE SMALL LETTER MV
17B4..17B5    ; Changes_When_NFKC_Casefolded # Mn   [2] KHMER VOWEL INHERENT AQ..KHMER VOWEL INHERENT AA
180B..180D    ; Changes_When_NFKC_Casefolded # Mn   [3] MONGOLIAN FREE VARIATION SELECTOR ONE..MONGOLIAN FREE VARIATION SELECTOR THREE
180E          ; Changes_When_NFKC_Casefolded # Cf       MONGOLIAN VOWEL SEPARATOR
1C80..1C88    ; Changes_When_NFKC_Casefolded # L&   [9] CYRILLIC SMALL LETTER ROUNDED VE..CYRILLIC SMALL LETTER UNBLENDED UK
1C90..1CBA    ; Changes_When_NFKC_Casefolded # L&  [43] GEORGIAN MTAVRULI CAPITAL LETTER AN..GEORGIAN MTAVRULI CAPITAL LETTER AIN
1CBD..1CBF    ; Changes_When_NFKC_Casefolded # L&   [3] GEORGIAN MTAVRULI CAPITAL LETTER AEN..GEORGIAN MTAVRULI CAPITAL LETTER LABIAL SIGN
1D2C..1D2E    ; Changes_When_NFKC_Casefolded # Lm   [3] MODIFIER LETTER CAPITAL A..MODIFIER LETTER CAPITAL B
1D30..1D3A    ; Changes_When_NFKC_Casefolded # Lm  [11] MODIFIER LETTER CAPITAL D..MODIFIER LETTER CAPITAL N
1D3C..1D4D    ; Changes_When_NFKC_Casefolded # Lm  [18] MODIFIER LETTER CAPITAL O..MODIFIER LETTER SMALL G
1D4F..1D6A    ; Changes_When_NFKC_Casefolded # Lm  [28] MODIFIER LETTER SMALL K..GREEK SUBSCRIPT SMALL LETTER CHI
1D78          ; Changes_When_NFKC_Casefolded # Lm       MODIFIER LETTER CYRILLIC EN
1D9B..1DBF    ; Changes_When_NFKC_Casefolded # Lm  [37] MODIFIER LETTER SMALL TURNED ALPHA..MODIFIER LETTER SMALL THETA
1E00          ; Changes_When_NFKC_Casefolded # L&       LATIN CAPITAL LETTER A WITH RING BELOW
1E02          ; Changes_When_NFKC_Casefolded # L&       LATIN CAPITAL LETTER B WITH DOT ABOVE
1E04          ; Changes_When_NFKC_Casefolded # L&       LATIN CAPITAL LETTER B WITH DOT BELOW
1E06          ; Changes_When_NFKC_Casefolded # L&       LATIN CAPITAL LETTER B WITH LINE BELOW
1E08          ; Changes_When_NFKC_Casefolded # L&       LATIN CAPITAL LETTER C WITH CEDILLA AND ACUTE
"%string.
Definition props_text_459 := "1E0A          ; Changes_When_NFKC_Casefolded # L&       LATIN CAPITAL LETTER D WITH DOT ABOVE
1E0C          ; Changes_When_NFKC_Casefolded # L&       LATIN CAPITAL LETTER D WITH DOT BELOW
1E0E          ; Changes_When_NFKC_Casefolded # L&       LATIN CAPITAL LETTER D WITH LINE BELOW
1E10          ; Changes_When_NFKC_Casefolded # L&       LATIN CAPITAL LETTER D WITH CEDILLA
1E12          ; Changes_When_NFKC_Casefolded # L&       LATIN CAPITAL LETTER D WITH CIRCUMFLEX BELOW
1E14          ; Changes_When_NFKC_Casefolded # L&       LATIN CAPITAL LETTER E WITH MACRON AND GRAVE
1E16          ; Changes_When_NFKC_Casefolded # L&       LATIN CAPITAL LETTER E WITH MACRON AND ACUTE
1E18          ; Changes_When_NFKC_Casefolded # L&       LATIN CAPITAL LETTER E WITH CIRCUMFLEX BELOW
1E1A          ; Changes_When_NFKC_Casefolded # L&       LATIN CAPITAL LETTER E WITH TILDE BELOW
1E1C          ; Changes_When_NFKC_Casefolded # L&       LATIN CAPITAL LETTER E WITH CEDILLA AND BREVE
1E1E          ; Changes_When_NFKC_Casefolded # L&       LATIN CAPITAL LETTER F WITH DOT ABOVE
1E20          ; Changes_When_NFKC_Casefolded # L&       LATIN CAPITAL LETTER G WITH MACRON
1E22          ; Changes_When_NFKC_Casefolded # L&       LATIN CAPITAL LETTER H WITH DOT ABOVE
1E24          ; Changes_When_NFKC_Casefolded # L&       LATIN CAPITAL LETTER H WITH DOT BELOW
1E26          ; Changes_When_NFKC_Casefolded # L&       LATIN CAPITAL LETTER H WITH DIAERESIS
1E28          ; Changes_When_NFKC_Casefolded # L&       LATIN CAPITAL LETTER H WITH CEDILLA
1E2A          ; Changes_When_NFKC_Casefolded # L&       LATIN CAPITAL LETTER H WITH BREVE BELOW
1E2C          ; Changes_When_NFKC_Casefolded # L&       LATIN CAPITAL LETTER I WITH TILDE BELOW
1E2E          ; Changes_When_NFKC_Casefolded # L&       LATIN CAPITAL LETTER I WITH DIAERESIS AND ACUTE
1E30          ; Changes_When_NFKC_Casefolded # L&       LATIN CAPITAL LETTER K WITH ACUTE
"%string.
Definition props_text_460 := "1E32          ; Changes_When_NFKC_Casefolded # L&       LATIN CAPITAL LETTER K WITH DOT BELOW
1E34          ; Changes_When_NFKC_Casefolded # L&       LATIN CAPITAL LETTER K WITH LINE BELOW
1E36          ; Changes_When_NFKC_Casefolded # L&       LATIN CAPITAL LETTER L WITH DOT BELOW
1E38          ; Changes_When_NFKC_Casefolded # L&       LATIN CAPITAL LETTER L WITH DOT BELOW AND MACRON
1E3A          ; Changes_When_NFKC_Casefolded # L&       LATIN CAPITAL LETTER L WITH LINE BELOW
1E3C          ; Changes_When_NFKC_Casefolded # L&       LATIN CAPITAL LETTER L WITH CIRCUMFLEX BELOW
1E3E          ; Changes_When_NFKC_Casefolded # L&       LATIN CAPITAL LETTER M WITH ACUTE
1E40          ; Changes_When_NFKC_Casefolded # L&       LATIN CAPITAL LETTER M WITH DOT ABOVE
1E42          ; Changes_When_NFKC_Casefolded # L&       LATIN CAPITAL LETTER M WITH DOT BELOW
1E44          ; Changes_When_NFKC_Casefolded # L&       LATIN CAPITAL LETTER N WITH DOT ABOVE
1E46          ; Changes_When_NFKC_Casefolded # L&       LATIN CAPITAL LETTER N WITH DOT BELOW
1E48          ; Changes_When_NFKC_Casefolded # L&       LATIN CAPITAL LETTER N WITH LINE BELOW
1E4A          ; Changes_When_NFKC_Casefolded # L&       LATIN CAPITAL LETTER N WITH CIRCUMFLEX BELOW
1E4C          ; Changes_When_NFKC_Casefolded # L&       LATIN CAPITAL LETTER O WITH TILDE AND ACUTE
1E4E          ; Changes_When_NFKC_Casefolded # L&       LATIN CAPITAL LETTER O WITH TILDE AND DIAERESIS
1E50          ; Changes_When_NFKC_Casefolded # L&       LATIN CAPITAL LETTER O WITH MACRON AND GRAVE
1E52          ; Changes_When_NFKC_Casefolded # L&       LATIN CAPITAL LETTER O WITH MACRON AND ACUTE
1E54          ; Changes_When_NFKC_Casefolded # L&       LATIN CAPITAL LETTER P WITH ACUTE
1E56          ; Changes_When_NFKC_Casefolded # L&       LATIN CAPITAL LETTER P WITH DOT ABOVE
1E58          ; Changes_When_NFKC_Casefolded # L&       LATIN CAPITAL LETTER R WITH DOT ABOVE
"%string.
Definition props_text_461 := "1E5A          ; Changes_When_NFKC_Casefolded # L&       LATIN CAPITAL LETTER R WITH DOT BELOW
1E5C          ; Changes_When_NFKC_Casefolded # L&       LATIN CAPITAL LETTER R WITH DOT BELOW AND MACRON
1E5E          ; Changes_When_NFKC_Casefolded # L&       LATIN CAPITAL LETTER R WITH LINE BELOW
1E60          ; Changes_When_NFKC_Casefolded # L&       LATIN CAPITAL LETTER S WITH DOT ABOVE
1E62          ; Changes_When_NFKC_Casefolded # L&       LATIN CAPITAL LETTER S WITH DOT BELOW
1E64          ; Changes_When_NFKC_Casefolded # L&       LATIN CAPITAL LETTER S WITH ACUTE AND DOT ABOVE
1E66          ; Changes_When_NFKC_Casefolded # L&       LATIN CAPITAL LETTER S WITH CARON AND DOT ABOVE
1E68          ; Changes_When_NFKC_Casefolded # L&       LATIN CAPITAL LETTER S WITH DOT BELOW AND DOT ABOVE
1E6A          ; Changes_When_NFKC_Casefolded # L&       LATIN CAPITAL LETTER T WITH DOT ABOVE
1E6C          ; Changes_When_NFKC_Casefolded # L&       LATIN CAPITAL LETTER T WITH DOT BELOW
1E6E          ; Changes_When_NFKC_Casefolded # L&       LATIN CAPITAL LETTER T WITH LINE BELOW
1E70          ; Changes_When_NFKC_Casefolded # L&       LATIN CAPITAL LETTER T WITH CIRCUMFLEX BELOW
1E72          ; Changes_When_NFKC_Casefolded # L&       LATIN CAPITAL LETTER U WITH DIAERESIS BELOW
1E74          ; Changes_When_NFKC_Casefolded # L&       LATIN CAPITAL LETTER U WITH TILDE BELOW
1E76          ; Changes_When_NFKC_Casefolded # L&       LATIN CAPITAL LETTER U WITH CIRCUMFLEX BELOW
1E78          ; Changes_When_NFKC_Casefolded # L&       LATIN CAPITAL LETTER U WITH TILDE AND ACUTE
1E7A          ; Changes_When_NFKC_Casefolded # L&       LATIN CAPITAL LETTER U WITH MACRON AND DIAERESIS
1E7C          ; Changes_When_NFKC_Casefolded # L&       LATIN CAPITAL LETTER V WITH TILDE
1E7E          ; Changes_When_NFKC_Casefolded # L&       LATIN CAPITAL LETTER V WITH DOT BELOW
1E80          ; Changes_When_NFKC_Casefolded # L&       LATIN CAPITAL LETTER W WITH GRAVE
"%string.
Definition props_text_462 := "1E82          ; Changes_When_NFKC_Casefolded # L&       LATIN CAPITAL LETTER W WITH ACUTE
1E84          ; Changes_When_NFKC_Casefolded # L&       LATIN CAPITAL LETTER W WITH DIAERESIS
1E86          ; Changes_When_NFKC_Casefolded # L&       LATIN CAPITAL LETTER W WITH DOT ABOVE
1E88          ; Changes_When_NFKC_Casefolded # L&       LATIN CAPITAL LETTER W WITH DOT BELOW
1E8A          ; Changes_When_NFKC_Casefolded # L&       LATIN CAPITAL LETTER X WITH DOT ABOVE
1E8C          ; Changes_When_NFKC_Casefolded # L&       LATIN CAPITAL LETTER X WITH DIAERESIS
1E8E          ; Changes_When_NFKC_Casefolded # L&       LATIN CAPITAL LETTER Y WITH DOT ABOVE
1E90          ; Changes_When_NFKC_Casefolded # L&       LATIN CAPITAL LETTER Z WITH CIRCUMFLEX
1E92          ; Changes_When_NFKC_Casefolded # L&       LATIN CAPITAL LETTER Z WITH DOT BELOW
1E94          ; Changes_When_NFKC_Casefolded # L&       LATIN CAPITAL LETTER Z WITH LINE BELOW
1E9A..1E9B    ; Changes_When_NFKC_Casefolded # L&   [2] LATIN SMALL LETTER A WITH RIGHT HALF RING..LATIN SMALL LETTER LONG S WITH DOT ABOVE
1E9E          ; Changes_When_NFKC_Casefolded # L&       LATIN CAPITAL LETTER SHARP S
1EA0          ; Changes_When_NFKC_Casefolded # L&       LATIN CAPITAL LETTER A WITH DOT BELOW
1EA2          ; Changes_When_NFKC_Casefolded # L&       LATIN CAPITAL LETTER A WITH HOOK ABOVE
1EA4          ; Changes_When_NFKC_Casefolded # L&       LATIN CAPITAL LETTER A WITH CIRCUMFLEX AND ACUTE
1EA6          ; Changes_When_NFKC_Casefolded # L&       LATIN CAPITAL LETTER A WITH CIRCUMFLEX AND GRAVE
1EA8          ; Changes_When_NFKC_Casefolded # L&       LATIN CAPITAL LETTER A WITH CIRCUMFLEX AND HOOK ABOVE
1EAA          ; Changes_When_NFKC_Casefolded # L&       LATIN CAPITAL LETTER A WITH CIRCUMFLEX AND TILDE
1EAC          ; Changes_When_NFKC_Casefolded # L&       LATIN CAPITAL LETTER A WITH CIRCUMFLEX AND DOT BELOW
1EAE          ; Changes_When_NFKC_Casefolded # L&       LATIN CAPITAL LETTER A WITH BREVE AND ACUTE
"%string.
Definition props_text_463 := "1EB0          ; Changes_When_NFKC_Casefolded # L&       LATIN CAPITAL LETTER A WITH BREVE AND GRAVE
1EB2          ; Changes_When_NFKC_Casefolded # L&       LATIN CAPITAL LETTER A WITH BREVE AND HOOK ABOVE
1EB4          ; Changes_When_NFKC_Casefolded # L&       LATIN CAPITAL LETTER A WITH BREVE AND TILDE
1EB6          ; Changes_When_NFKC_Casefolded # L&       LATIN CAPITAL LETTER A WITH BREVE AND DOT BELOW
1EB8          ; Changes_When_NFKC_Casefolded # L&       LATIN CAPITAL LETTER E WITH DOT BELOW
1EBA          ; Changes_When_NFKC_Casefolded # L&       LATIN CAPITAL LETTER E WITH HOOK ABOVE
1EBC          ; Changes_When_NFKC_Casefolded # L&       LATIN CAPITAL LETTER E WITH TILDE
1EBE          ; Changes_When_NFKC_Casefolded # L&       LATIN CAPITAL LETTER E WITH CIRCUMFLEX AND ACUTE
1EC0          ; Changes_When_NFKC_Casefolded # L&       LATIN CAPITAL LETTER E WITH CIRCUMFLEX AND GRAVE
1EC2          ; Changes_When_NFKC_Casefolded # L&       LATIN CAPITAL LETTER E WITH CIRCUMFLEX AND HOOK ABOVE
1EC4          ; Changes_When_NFKC_Casefolded # L&       LATIN CAPITAL LETTER E WITH CIRCUMFLEX AND TILDE
1EC6          ; Changes_When_NFKC_Casefolded # L&       LATIN CAPITAL LETTER E WITH CIRCUMFLEX AND DOT BELOW
1EC8          ; Changes_When_NFKC_Casefolded # L&       LATIN CAPITAL LETTER I WITH HOOK ABOVE
1ECA          ; Changes_When_NFKC_Casefolded # L&       LATIN CAPITAL LETTER I WITH DOT BELOW
1ECC          ; Changes_When_NFKC_Casefolded # L&       LATIN CAPITAL LETTER O WITH DOT BELOW
1ECE          ; Changes_When_NFKC_Casefolded # L&       LATIN CAPITAL LETTER O WITH HOOK ABOVE
1ED0          ; Changes_When_NFKC_Casefolded # L&       LATIN CAPITAL LETTER O WITH CIRCUMFLEX AND ACUTE
1ED2          ; Changes_When_NFKC_Casefolded # L&       LATIN CAPITAL LETTER O WITH CIRCUMFLEX AND GRAVE
1ED4          ; Changes_When_NFKC_Casefolded # L&       LATIN CAPITAL LETTER O WITH CIRCUMFLEX AND HOOK ABOVE
1ED6          ; Changes_When_NFKC_Casefolded # L&       LATIN CAPITAL LETTER O WITH CIRCUMFLEX AND TILDE
"%string.
Definition props_text_464 := "1ED8          ; Changes_When_NFKC_Casefolded # L&       LATIN CAPITAL LETTER O WITH CIRCUMFLEX AND DOT BELOW
1EDA          ; Changes_When_NFKC_Casefolded # L&       LATIN CAPITAL LETTER O WITH HORN AND ACUTE
1EDC          ; Changes_When_NFKC_Casefolded # L&       LATIN CAPITAL LETTER O WITH HORN AND GRAVE
1EDE          ; Changes_When_NFKC_Casefolded # L&       LATIN CAPITAL LETTER O WITH HORN AND HOOK ABOVE
1EE0          ; Changes_When_NFKC_Casefolded # L&       LATIN CAPITAL LETTER O WITH HORN AND TILDE
1EE2          ; Changes_When_NFKC_Casefolded # L&       LATIN CAPITAL LETTER O WITH HORN AND DOT BELOW
1EE4          ; Changes_When_NFKC_Casefolded # L&       LATIN CAPITAL LETTER U WITH DOT BELOW
1EE6          ; Changes_When_NFKC_Casefolded # L&       LATIN CAPITAL LETTER U WITH HOOK ABOVE
1EE8          ; Changes_When_NFKC_Casefolded # L&       LATIN CAPITAL LETTER U WITH HORN AND ACUTE
1EEA          ; Changes_When_NFKC_Casefolded # L&       LATIN CAPITAL LETTER U WITH HORN AND GRAVE
1EEC          ; Changes_When_NFKC_Casefolded # L&       LATIN CAPITAL LETTER U WITH HORN AND HOOK ABOVE
1EEE          ; Changes_When_NFKC_Casefolded # L&       LATIN CAPITAL LETTER U WITH HORN AND TILDE
1EF0          ; Changes_When_NFKC_Casefolded # L&       LATIN CAPITAL LETTER U WITH HORN AND DOT BELOW
1EF2          ; Changes_When_NFKC_Casefolded # L&       LATIN CAPITAL LETTER Y WITH GRAVE
1EF4          ; Changes_When_NFKC_Casefolded # L&       LATIN CAPITAL LETTER Y WITH DOT BELOW
1EF6          ; Changes_When_NFKC_Casefolded # L&       LATIN CAPITAL LETTER Y WITH HOOK ABOVE
1EF8          ; Changes_When_NFKC_Casefolded # L&       LATIN CAPITAL LETTER Y WITH TILDE
1EFA          ; Changes_When_NFKC_Casefolded # L&       LATIN CAPITAL LETTER MIDDLE-WELSH LL
1EFC          ; Changes_When_NFKC_Casefolded # L&       LATIN CAPITAL LETTER MIDDLE-WELSH V
1EFE          ; Changes_When_NFKC_Casefolded # L&       LATIN CAPITAL LETTER Y WITH LOOP
"%string.
Definition props_text_465 := "1F08..1F0F    ; Changes_When_NFKC_Casefolded # L&   [8] GREEK CAPITAL LETTER ALPHA WITH PSILI..GREEK CAPITAL LETTER ALPHA WITH DASIA AND PERISPOMENI
1F18..1F1D    ; Changes_When_NFKC_Casefolded # L&   [6] GREEK CAPITAL LETTER EPSILON WITH PSILI..GREEK CAPITAL LETTER EPSILON WITH DASIA AND OXIA
1F28..1F2F    ; Changes_When_NFKC_Casefolded # L&   [8] GREEK CAPITAL LETTER ETA WITH PSILI..GREEK CAPITAL LETTER ETA WITH DASIA AND PERISPOMENI
1F38..1F3F    ; Changes_When_NFKC_Casefolded # L&   [8] GREEK CAPITAL LETTER IOTA WITH PSILI..GREEK CAPITAL LETTER IOTA WITH DASIA AND PERISPOMENI
1F48..1F4D    ; Changes_When_NFKC_Casefolded # L&   [6] GREEK CAPITAL LETTER OMICRON WITH PSILI..GREEK CAPITAL LETTER OMICRON WITH DASIA AND OXIA
1F59          ; Changes_When_NFKC_Casefolded # L&       GREEK CAPITAL LETTER UPSILON WITH DASIA
1F5B          ; Changes_When_NFKC_Casefolded # L&       GREEK CAPITAL LETTER UPSILON WITH DASIA AND VARIA
1F5D          ; Changes_When_NFKC_Casefolded # L&       GREEK CAPITAL LETTER UPSILON WITH DASIA AND OXIA
1F5F          ; Changes_When_NFKC_Casefolded # L&       GREEK CAPITAL LETTER UPSILON WITH DASIA AND PERISPOMENI
1F68..1F6F    ; Changes_When_NFKC_Casefolded # L&   [8] GREEK CAPITAL LETTER OMEGA WITH PSILI..GREEK CAPITAL LETTER OMEGA WITH DASIA AND PERISPOMENI
1F71          ; Changes_When_NFKC_Casefolded # L&       GREEK SMALL LETTER ALPHA WITH OXIA
1F73          ; Changes_When_NFKC_Casefolded # L&       GREEK SMALL LETTER EPSILON WITH OXIA
1F75          ; Changes_When_NFKC_Casefolded # L&       GREEK SMALL LETTER ETA WITH OXIA
1F77          ; Changes_When_NFKC_Casefolded # L&       GREEK SMALL LETTER IOTA WITH OXIA
1F79          ; Changes_When_NFKC_Casefolded # L&       GREEK SMALL LETTER OMICRON WITH OXIA
1F7B          ; Changes_When_NFKC_Casefolded # L&       GREEK SMALL LETTER UPSILON WITH OXIA
1F7D          ; Changes_When_NFKC_Casefolded # L&       GREEK SMALL LETTER OMEGA WITH OXIA
1F80..1FAF    ; Changes_When_NFKC_Casefolded # L&  [48] GREEK SMALL LETTER ALPHA WITH PSILI AND YPOGEGRAMMENI..GREEK CAPITAL LETTER OMEGA WITH DASIA AND PERISPOMENI AND PROSGEGRAMMENI
1FB2..1FB4    ; Changes_When_NFKC_Casefolded # L&   [3] GREEK SMALL LETTER ALPHA WITH VARIA AND YPOGEGRAMMENI..GREEK SMALL LETTER ALPHA WITH OXIA AND YPOGEGRAMMENI
1FB7..1FBC    ; Changes_When_NFKC_Casefolded # L&   [6] GREEK SMALL LETTER ALPHA WITH PERISPOMENI AND YPOGEGRAMMENI..GREEK CAPITAL LETTER ALPHA WITH PROSGEGRAMMENI
"%string.
Definition props_text_466 := "1FBD          ; Changes_When_NFKC_Casefolded # Sk       GREEK KORONIS
1FBE          ; Changes_When_NFKC_Casefolded # L&       GREEK PROSGEGRAMMENI
1FBF..1FC1    ; Changes_When_NFKC_Casefolded # Sk   [3] GREEK PSILI..GREEK DIALYTIKA AND PERISPOMENI
1FC2..1FC4    ; Changes_When_NFKC_Casefolded # L&   [3] GREEK SMALL LETTER ETA WITH VARIA AND YPOGEGRAMMENI..GREEK SMALL LETTER ETA WITH OXIA AND YPOGEGRAMMENI
1FC7..1FCC    ; Changes_When_NFKC_Casefolded # L&   [6] GREEK SMALL LETTER ETA WITH PERISPOMENI AND YPOGEGRAMMENI..GREEK CAPITAL LETTER ETA WITH PROSGEGRAMMENI
1FCD..1FCF    ; Changes_When_NFKC_Casefolded # Sk   [3] GREEK PSILI AND VARIA..GREEK PSILI AND PERISPOMENI
1FD3          ; Changes_When_NFKC_Casefolded # L&       GREEK SMALL LETTER IOTA WITH DIALYTIKA AND OXIA
1FD8..1FDB    ; Changes_When_NFKC_Casefolded # L&   [4] GREEK CAPITAL LETTER IOTA WITH VRACHY..GREEK CAPITAL LETTER IOTA WITH OXIA
1FDD..1FDF    ; Changes_When_NFKC_Casefolded # Sk   [3] GREEK DASIA AND VARIA..GREEK DASIA AND PERISPOMENI
1FE3          ; Changes_When_NFKC_Casefolded # L&       GREEK SMALL LETTER UPSILON WITH DIALYTIKA AND OXIA
1FE8..1FEC    ; Changes_When_NFKC_Casefolded # L&   [5] GREEK CAPITAL LETTER UPSILON WITH VRACHY..GREEK CAPITAL LETTER RHO WITH DASIA
1FED..1FEF    ; Changes_When_NFKC_Casefolded # Sk   [3] GREEK DIALYTIKA AND VARIA..GREEK VARIA
1FF2..1FF4    ; Changes_When_NFKC_Casefolded # L&   [3] GREEK SMALL LETTER OMEGA WITH VARIA AND YPOGEGRAMMENI..GREEK SMALL LETTER OMEGA WITH OXIA AND YPOGEGRAMMENI
1FF7..1FFC    ; Changes_When_NFKC_Casefolded # L&   [6] GREEK SMALL LETTER OMEGA WITH PERISPOMENI AND YPOGEGRAMMENI..GREEK CAPITAL LETTER OMEGA WITH PROSGEGRAMMENI
1FFD..1FFE    ; Changes_When_NFKC_Casefolded # Sk   [2] GREEK OXIA..GREEK DASIA
2000..200A    ; Changes_When_NFKC_Casefolded # Zs  [11] EN QUAD..HAIR SPACE
200B..200F    ; Changes_When_NFKC_Casefolded # Cf   [5] ZERO WIDTH SPACE..RIGHT-TO-LEFT MARK
2011          ; Changes_When_NFKC_Casefolded # Pd       NON-BREAKING HYPHEN
2017          ; Changes_When_NFKC_Casefolded # Po       DOUBLE LOW LINE
2024..2026    ; Changes_When_NFKC_Casefolded # Po   [3] ONE DOT LEADER..HORIZONTAL ELLIPSIS
"%string.
Definition props_text_467 := "202A..202E    ; Changes_When_NFKC_Casefolded # Cf   [5] LEFT-TO-RIGHT EMBEDDING..RIGHT-TO-LEFT OVERRIDE
202F          ; Changes_When_NFKC_Casefolded # Zs       NARROW NO-BREAK SPACE
2033..2034    ; Changes_When_NFKC_Casefolded # Po   [2] DOUBLE PRIME..TRIPLE PRIME
2036..2037    ; Changes_When_NFKC_Casefolded # Po   [2] REVERSED DOUBLE PRIME..REVERSED TRIPLE PRIME
203C          ; Changes_When_NFKC_Casefolded # Po       DOUBLE EXCLAMATION MARK
203E          ; Changes_When_NFKC_Casefolded # Po       OVERLINE
2047..2049    ; Changes_When_NFKC_Casefolded # Po   [3] DOUBLE QUESTION MARK..EXCLAMATION QUESTION MARK
2057          ; Changes_When_NFKC_Casefolded # Po       QUADRUPLE PRIME
205F          ; Changes_When_NFKC_Casefolded # Zs       MEDIUM MATHEMATICAL SPACE
2060..2064    ; Changes_When_NFKC_Casefolded # Cf   [5] WORD JOINER..INVISIBLE PLUS
2065          ; Changes_When_NFKC_Casefolded # Cn       <reserved-2065>
2066..206F    ; Changes_When_NFKC_Casefolded # Cf  [10] LEFT-TO-RIGHT ISOLATE..NOMINAL DIGIT SHAPES
2070          ; Changes_When_NFKC_Casefolded # No       SUPERSCRIPT ZERO
2071          ; Changes_When_NFKC_Casefolded # Lm       SUPERSCRIPT LATIN SMALL LETTER I
2074..2079    ; Changes_When_NFKC_Casefolded # No   [6] SUPERSCRIPT FOUR..SUPERSCRIPT NINE
207A..207C    ; Changes_When_NFKC_Casefolded # Sm   [3] SUPERSCRIPT PLUS SIGN..SUPERSCRIPT EQUALS SIGN
207D          ; Changes_When_NFKC_Casefolded # Ps       SUPERSCRIPT LEFT PARENTHESIS
207E          ; Changes_When_NFKC_Casefolded # Pe       SUPERSCRIPT RIGHT PARENTHESIS
207F          ; Changes_When_NFKC_Casefolded # Lm       SUPERSCRIPT LATIN SMALL LETTER N
2080..2089    ; Changes_When_NFKC_Casefolded # No  [10] SUBSCRIPT ZERO..SUBSCRIPT NINE
"%string.
Definition props_text_468 := "208A..208C    ; Changes_When_NFKC_Casefolded # Sm   [3] SUBSCRIPT PLUS SIGN..SUBSCRIPT EQUALS SIGN
208D          ; Changes_When_NFKC_Casefolded # Ps       SUBSCRIPT LEFT PARENTHESIS
208E          ; Changes_When_NFKC_Casefolded # Pe       SUBSCRIPT RIGHT PARENTHESIS
2090..209C    ; Changes_When_NFKC_Casefolded # Lm  [13] LATIN SUBSCRIPT SMALL LETTER A..LATIN SUBSCRIPT SMALL LETTER T
20A8          ; Changes_When_NFKC_Casefolded # Sc       RUPEE SIGN
2100..2101    ; Changes_When_NFKC_Casefolded # So   [2] ACCOUNT OF..ADDRESSED TO THE SUBJECT
2102          ; Changes_When_NFKC_Casefolded # L&       DOUBLE-STRUCK CAPITAL C
2103          ; Changes_When_NFKC_Casefolded # So       DEGREE CELSIUS
2105..2106    ; Changes_When_NFKC_Casefolded # So   [2] CARE OF..CADA UNA
2107          ; Changes_When_NFKC_Casefolded # L&       EULER CONSTANT
2109          ; Changes_When_NFKC_Casefolded # So       DEGREE FAHRENHEIT
210A..2113    ; Changes_When_NFKC_Casefolded # L&  [10] SCRIPT SMALL G..SCRIPT SMALL L
2115          ; Changes_When_NFKC_Casefolded # L&       DOUBLE-STRUCK CAPITAL N
2116          ; Changes_When_NFKC_Casefolded # So       NUMERO SIGN
2119..211D    ; Changes_When_NFKC_Casefolded # L&   [5] DOUBLE-STRUCK CAPITAL P..DOUBLE-STRUCK CAPITAL R
2120..2122    ; Changes_When_NFKC_Casefolded # So   [3] SERVICE MARK..TRADE MARK SIGN
2124          ; Changes_When_NFKC_Casefolded # L&       DOUBLE-STRUCK CAPITAL Z
2126          ; Changes_When_NFKC_Casefolded # L&       OHM SIGN
2128          ; Changes_When_NFKC_Casefolded # L&       BLACK-LETTER CAPITAL Z
212A..212D    ; Changes_When_NFKC_Casefolded # L&   [4] KELVIN SIGN..BLACK-LETTER CAPITAL C
"%string.
Definition props_text_469 := "212F..2134    ; Changes_When_NFKC_Casefolded # L&   [6] SCRIPT SMALL E..SCRIPT SMALL O
2135..2138    ; Changes_When_NFKC_Casefolded # Lo   [4] ALEF SYMBOL..DALET SYMBOL
2139          ; Changes_When_NFKC_Casefolded # L&       INFORMATION SOURCE
213B          ; Changes_When_NFKC_Casefolded # So       FACSIMILE SIGN
213C..213F    ; Changes_When_NFKC_Casefolded # L&   [4] DOUBLE-STRUCK SMALL PI..DOUBLE-STRUCK CAPITAL PI
2140          ; Changes_When_NFKC_Casefolded # Sm       DOUBLE-STRUCK N-ARY SUMMATION
2145..2149    ; Changes_When_NFKC_Casefolded # L&   [5] DOUBLE-STRUCK ITALIC CAPITAL D..DOUBLE-STRUCK ITALIC SMALL J
2150..215F    ; Changes_When_NFKC_Casefolded # No  [16] VULGAR FRACTION ONE SEVENTH..FRACTION NUMERATOR ONE
2160..217F    ; Changes_When_NFKC_Casefolded # Nl  [32] ROMAN NUMERAL ONE..SMALL ROMAN NUMERAL ONE THOUSAND
2183          ; Changes_When_NFKC_Casefolded # L&       ROMAN NUMERAL REVERSED ONE HUNDRED
2189          ; Changes_When_NFKC_Casefolded # No       VULGAR FRACTION ZERO THIRDS
222C..222D    ; Changes_When_NFKC_Casefolded # Sm   [2] DOUBLE INTEGRAL..TRIPLE INTEGRAL
222F..2230    ; Changes_When_NFKC_Casefolded # Sm   [2] SURFACE INTEGRAL..VOLUME INTEGRAL
2329          ; Changes_When_NFKC_Casefolded # Ps       LEFT-POINTING ANGLE BRACKET
232A          ; Changes_When_NFKC_Casefolded # Pe       RIGHT-POINTING ANGLE BRACKET
2460..249B    ; Changes_When_NFKC_Casefolded # No  [60] CIRCLED DIGIT ONE..NUMBER TWENTY FULL STOP
249C..24E9    ; Changes_When_NFKC_Casefolded # So  [78] PARENTHESIZED LATIN SMALL LETTER A..CIRCLED LATIN SMALL LETTER Z
24EA          ; Changes_When_NFKC_Casefolded # No       CIRCLED DIGIT ZERO
2A0C          ; Changes_When_NFKC_Casefolded # Sm       QUADRUPLE INTEGRAL OPERATOR
2A74..2A76    ; Changes_When_NFKC_Casefolded # Sm   [3] DOUBLE COLON EQUAL..THREE CONSECUTIVE EQUALS SIGNS
"%string.
Definition props_text_470 := "2ADC          ; Changes_When_NFKC_Casefolded # Sm       FORKING
2C00..2C2E    ; Changes_When_NFKC_Casefolded # L&  [47] GLAGOLITIC CAPITAL LETTER AZU..GLAGOLITIC CAPITAL LETTER LATINATE MYSLITE
2C60          ; Changes_When_NFKC_Casefolded # L&       LATIN CAPITAL LETTER L WITH DOUBLE BAR
2C62..2C64    ; Changes_When_NFKC_Casefolded # L&   [3] LATIN CAPITAL LETTER L WITH MIDDLE TILDE..LATIN CAPITAL LETTER R WITH TAIL
2C67          ; Changes_When_NFKC_Casefolded # L&       LATIN CAPITAL LETTER H WITH DESCENDER
2C69          ; Changes_When_NFKC_Casefolded # L&       LATIN CAPITAL LETTER K WITH DESCENDER
2C6B          ; Changes_When_NFKC_Casefolded # L&       LATIN CAPITAL LETTER Z WITH DESCENDER
2C6D..2C70    ; Changes_When_NFKC_Casefolded # L&   [4] LATIN CAPITAL LETTER ALPHA..LATIN CAPITAL LETTER TURNED ALPHA
2C72          ; Changes_When_NFKC_Casefolded # L&       LATIN CAPITAL LETTER W WITH HOOK
2C75          ; Changes_When_NFKC_Casefolded # L&       LATIN CAPITAL LETTER HALF H
2C7C..2C7D    ; Changes_When_NFKC_Casefolded # Lm   [2] LATIN SUBSCRIPT SMALL LETTER J..MODIFIER LETTER CAPITAL V
2C7E..2C80    ; Changes_When_NFKC_Casefolded # L&   [3] LATIN CAPITAL LETTER S WITH SWASH TAIL..COPTIC CAPITAL LETTER ALFA
2C82          ; Changes_When_NFKC_Casefolded # L&       COPTIC CAPITAL LETTER VIDA
2C84          ; Changes_When_NFKC_Casefolded # L&       COPTIC CAPITAL LETTER GAMMA
2C86          ; Changes_When_NFKC_Casefolded # L&       COPTIC CAPITAL LETTER DALDA
2C88          ; Changes_When_NFKC_Casefolded # L&       COPTIC CAPITAL LETTER EIE
2C8A          ; Changes_When_NFKC_Casefolded # L&       COPTIC CAPITAL LETTER SOU
2C8C          ; Changes_When_NFKC_Casefolded # L&       COPTIC CAPITAL LETTER ZATA
2C8E          ; Changes_When_NFKC_Casefolded # L&       COPTIC CAPITAL LETTER HATE
2C90          ; Changes_When_NFKC_Casefolded # L&       COPTIC CAPITAL LETTER THETHE
"%string.
Definition props_text_471 := "2C92          ; Changes_When_NFKC_Casefolded # L&       COPTIC CAPITAL LETTER IAUDA
2C94          ; Changes_When_NFKC_Casefolded # L&       COPTIC CAPITAL LETTER KAPA
2C96          ; Changes_When_NFKC_Casefolded # L&       COPTIC CAPITAL LETTER LAULA
2C98          ; Changes_When_NFKC_Casefolded # L&       COPTIC CAPITAL LETTER MI
2C9A          ; Changes_When_NFKC_Casefolded # L&       COPTIC CAPITAL LETTER NI
2C9C          ; Changes_When_NFKC_Casefolded # L&       COPTIC CAPITAL LETTER KSI
2C9E          ; Changes_When_NFKC_Casefolded # L&       COPTIC CAPITAL LETTER O
2CA0          ; Changes_When_NFKC_Casefolded # L&       COPTIC CAPITAL LETTER PI
2CA2          ; Changes_When_NFKC_Casefolded # L&       COPTIC CAPITAL LETTER RO
2CA4          ; Changes_When_NFKC_Casefolded # L&       COPTIC CAPITAL LETTER SIMA
2CA6          ; Changes_When_NFKC_Casefolded # L&       COPTIC CAPITAL LETTER TAU
2CA8          ; Changes_When_NFKC_Casefolded # L&       COPTIC CAPITAL LETTER UA
2CAA          ; Changes_When_NFKC_Casefolded # L&       COPTIC CAPITAL LETTER FI
2CAC          ; Changes_When_NFKC_Casefolded # L&       COPTIC CAPITAL LETTER KHI
2CAE          ; Changes_When_NFKC_Casefolded # L&       COPTIC CAPITAL LETTER PSI
2CB0          ; Changes_When_NFKC_Casefolded # L&       COPTIC CAPITAL LETTER OOU
2CB2          ; Changes_When_NFKC_Casefolded # L&       COPTIC CAPITAL LETTER DIALECT-P ALEF
2CB4          ; Changes_When_NFKC_Casefolded # L&       COPTIC CAPITAL LETTER OLD COPTIC AIN
2CB6          ; Changes_When_NFKC_Casefolded # L&       COPTIC CAPITAL LETTER CRYPTOGRAMMIC EIE
2CB8          ; Changes_When_NFKC_Casefolded # L&       COPTIC CAPITAL LETTER DIALECT-P KAPA
"%string.
Definition props_text_472 := "2CBA          ; Changes_When_NFKC_Casefolded # L&       COPTIC CAPITAL LETTER DIALECT-P NI
2CBC          ; Changes_When_NFKC_Casefolded # L&       COPTIC CAPITAL LETTER CRYPTOGRAMMIC NI
2CBE          ; Changes_When_NFKC_Casefolded # L&       COPTIC CAPITAL LETTER OLD COPTIC OOU
2CC0          ; Changes_When_NFKC_Casefolded # L&       COPTIC CAPITAL LETTER SAMPI
2CC2          ; Changes_When_NFKC_Casefolded # L&       COPTIC CAPITAL LETTER CROSSED SHEI
2CC4          ; Changes_When_NFKC_Casefolded # L&       COPTIC CAPITAL LETTER OLD COPTIC SHEI
2CC6          ; Changes_When_NFKC_Casefolded # L&       COPTIC CAPITAL LETTER OLD COPTIC ESH
2CC8          ; Changes_When_NFKC_Casefolded # L&       COPTIC CAPITAL LETTER AKHMIMIC KHEI
2CCA          ; Changes_When_NFKC_Casefolded # L&       COPTIC CAPITAL LETTER DIALECT-P HORI
2CCC          ; Changes_When_NFKC_Casefolded # L&       COPTIC CAPITAL LETTER OLD COPTIC HORI
2CCE          ; Changes_When_NFKC_Casefolded # L&       COPTIC CAPITAL LETTER OLD COPTIC HA
2CD0          ; Changes_When_NFKC_Casefolded # L&       COPTIC CAPITAL LETTER L-SHAPED HA
2CD2          ; Changes_When_NFKC_Casefolded # L&       COPTIC CAPITAL LETTER OLD COPTIC HEI
2CD4          ; Changes_When_NFKC_Casefolded # L&       COPTIC CAPITAL LETTER OLD COPTIC HAT
2CD6          ; Changes_When_NFKC_Casefolded # L&       COPTIC CAPITAL LETTER OLD COPTIC GANGIA
2CD8          ; Changes_When_NFKC_Casefolded # L&       COPTIC CAPITAL LETTER OLD COPTIC DJA
2CDA          ; Changes_When_NFKC_Casefolded # L&       COPTIC CAPITAL LETTER OLD COPTIC SHIMA
2CDC          ; Changes_When_NFKC_Casefolded # L&       COPTIC CAPITAL LETTER OLD NUBIAN SHIMA
2CDE          ; Changes_When_NFKC_Casefolded # L&       COPTIC CAPITAL LETTER OLD NUBIAN NGI
2CE0          ; Changes_When_NFKC_Casefolded # L&       COPTIC CAPITAL LETTER OLD NUBIAN NYI
"%string.
Definition props_text_473 := "2CE2          ; Changes_When_NFKC_Casefolded # L&       COPTIC CAPITAL LETTER OLD NUBIAN WAU
2CEB          ; Changes_When_NFKC_Casefolded # L&       COPTIC CAPITAL LETTER CRYPTOGRAMMIC SHEI
2CED          ; Changes_When_NFKC_Casefolded # L&       COPTIC CAPITAL LETTER CRYPTOGRAMMIC GANGIA
2CF2          ; Changes_When_NFKC_Casefolded # L&       COPTIC CAPITAL LETTER BOHAIRIC KHEI
2D6F          ; Changes_When_NFKC_Casefolded # Lm       TIFINAGH MODIFIER LETTER LABIALIZATION MARK
2E9F          ; Changes_When_NFKC_Casefolded # So       CJK RADICAL MOTHER
2EF3          ; Changes_When_NFKC_Casefolded # So       CJK RADICAL C-SIMPLIFIED TURTLE
2F00..2FD5    ; Changes_When_NFKC_Casefolded # So [214] KANGXI RADICAL ONE..KANGXI RADICAL FLUTE
3000          ; Changes_When_NFKC_Casefolded # Zs       IDEOGRAPHIC SPACE
3036          ; Changes_When_NFKC_Casefolded # So       CIRCLED POSTAL MARK
3038..303A    ; Changes_When_NFKC_Casefolded # Nl   [3] HANGZHOU NUMERAL TEN..HANGZHOU NUMERAL THIRTY
309B..309C    ; Changes_When_NFKC_Casefolded # Sk   [2] KATAKANA-HIRAGANA VOICED SOUND MARK..KATAKANA-HIRAGANA SEMI-VOICED SOUND MARK
309F          ; Changes_When_NFKC_Casefolded # Lo       HIRAGANA DIGRAPH YORI
30FF          ; Changes_When_NFKC_Casefolded # Lo       KATAKANA DIGRAPH KOTO
3131..318E    ; Changes_When_NFKC_Casefolded # Lo  [94] HANGUL LETTER KIYEOK..HANGUL LETTER ARAEAE
3192..3195    ; Changes_When_NFKC_Casefolded # No   [4] IDEOGRAPHIC ANNOTATION ONE MARK..IDEOGRAPHIC ANNOTATION FOUR MARK
3196..319F    ; Changes_When_NFKC_Casefolded # So  [10] IDEOGRAPHIC ANNOTATION TOP MARK..IDEOGRAPHIC ANNOTATION MAN MARK
3200..321E    ; Changes_When_NFKC_Casefolded # So  [31] PARENTHESIZED HANGUL KIYEOK..PARENTHESIZED KOREAN CHARACTER O HU
3220..3229    ; Changes_When_NFKC_Casefolded # No  [10] PARENTHESIZED IDEOGRAPH ONE..PARENTHESIZED IDEOGRAPH TEN
322A..3247    ; Changes_When_NFKC_Casefolded # So  [30] PARENTHESIZED IDEOGRAPH MOON..CIRCLED IDEOGRAPH KOTO
"%string.
Definition props_text_474 := "3250          ; Changes_When_NFKC_Casefolded # So       PARTNERSHIP SIGN
3251..325F    ; Changes_When_NFKC_Casefolded # No  [15] CIRCLED NUMBER TWENTY ONE..CIRCLED NUMBER THIRTY FIVE
3260..327E    ; Changes_When_NFKC_Casefolded # So  [31] CIRCLED HANGUL KIYEOK..CIRCLED HANGUL IEUNG U
3280..3289    ; Changes_When_NFKC_Casefolded # No  [10] CIRCLED IDEOGRAPH ONE..CIRCLED IDEOGRAPH TEN
328A..32B0    ; Changes_When_NFKC_Casefolded # So  [39] CIRCLED IDEOGRAPH MOON..CIRCLED IDEOGRAPH NIGHT
32B1..32BF    ; Changes_When_NFKC_Casefolded # No  [15] CIRCLED NUMBER THIRTY SIX..CIRCLED NUMBER FIFTY
32C0..33FF    ; Changes_When_NFKC_Casefolded # So [320] IDEOGRAPHIC TELEGRAPH SYMBOL FOR JANUARY..SQUARE GAL
A640          ; Changes_When_NFKC_Casefolded # L&       CYRILLIC CAPITAL LETTER ZEMLYA
A642          ; Changes_When_NFKC_Casefolded # L&       CYRILLIC CAPITAL LETTER DZELO
A644          ; Changes_When_NFKC_Casefolded # L&       CYRILLIC CAPITAL LETTER REVERSED DZE
A646          ; Changes_When_NFKC_Casefolded # L&       CYRILLIC CAPITAL LETTER IOTA
A648          ; Changes_When_NFKC_Casefolded # L&       CYRILLIC CAPITAL LETTER DJERV
A64A          ; Changes_When_NFKC_Casefolded # L&       CYRILLIC CAPITAL LETTER MONOGRAPH UK
A64C          ; Changes_When_NFKC_Casefolded # L&       CYRILLIC CAPITAL LETTER BROAD OMEGA
A64E          ; Changes_When_NFKC_Casefolded # L&       CYRILLIC CAPITAL LETTER NEUTRAL YER
A650          ; Changes_When_NFKC_Casefolded # L&       CYRILLIC CAPITAL LETTER YERU WITH BACK YER
A652          ; Changes_When_NFKC_Casefolded # L&       CYRILLIC CAPITAL LETTER IOTIFIED YAT
A654          ; Changes_When_NFKC_Casefolded # L&       CYRILLIC CAPITAL LETTER REVERSED YU
A656          ; Changes_When_NFKC_Casefolded # L&       CYRILLIC CAPITAL LETTER IOTIFIED A
A658          ; Changes_When_NFKC_Casefolded # L&       CYRILLIC CAPITAL LETTER CLOSED LITTLE YUS
"%string.
Definition props_text_475 := "A65A          ; Changes_When_NFKC_Casefolded # L&       CYRILLIC CAPITAL LETTER BLENDED YUS
A65C          ; Changes_When_NFKC_Casefolded # L&       CYRILLIC CAPITAL LETTER IOTIFIED CLOSED LITTLE YUS
A65E          ; Changes_When_NFKC_Casefolded # L&       CYRILLIC CAPITAL LETTER YN
A660          ; Changes_When_NFKC_Casefolded # L&       CYRILLIC CAPITAL LETTER REVERSED TSE
A662          ; Changes_When_NFKC_Casefolded # L&       CYRILLIC CAPITAL LETTER SOFT DE
A664          ; Changes_When_NFKC_Casefolded # L&       CYRILLIC CAPITAL LETTER SOFT EL
A666          ; Changes_When_NFKC_Casefolded # L&       CYRILLIC CAPITAL LETTER SOFT EM
A668          ; Changes_When_NFKC_Casefolded # L&       CYRILLIC CAPITAL LETTER MONOCULAR O
A66A          ; Changes_When_NFKC_Casefolded # L&       CYRILLIC CAPITAL LETTER BINOCULAR O
A66C          ; Changes_When_NFKC_Casefolded # L&       CYRILLIC CAPITAL LETTER DOUBLE MONOCULAR O
A680          ; Changes_When_NFKC_Casefolded # L&       CYRILLIC CAPITAL LETTER DWE
A682          ; Changes_When_NFKC_Casefolded # L&       CYRILLIC CAPITAL LETTER DZWE
A684          ; Changes_When_NFKC_Casefolded # L&       CYRILLIC CAPITAL LETTER ZHWE
A686          ; Changes_When_NFKC_Casefolded # L&       CYRILLIC CAPITAL LETTER CCHE
A688          ; Changes_When_NFKC_Casefolded # L&       CYRILLIC CAPITAL LETTER DZZE
A68A          ; Changes_When_NFKC_Casefolded # L&       CYRILLIC CAPITAL LETTER TE WITH MIDDLE HOOK
A68C          ; Changes_When_NFKC_Casefolded # L&       CYRILLIC CAPITAL LETTER TWE
A68E          ; Changes_When_NFKC_Casefolded # L&       CYRILLIC CAPITAL LETTER TSWE
A690          ; Changes_When_NFKC_Casefolded # L&       CYRILLIC CAPITAL LETTER TSSE
A692          ; Changes_When_NFKC_Casefolded # L&       CYRILLIC CAPITAL LETTER TCHE
"%string.
Definition props_text_476 := "A694          ; Changes_When_NFKC_Casefolded # L&       CYRILLIC CAPITAL LETTER HWE
A696          ; Changes_When_NFKC_Casefolded # L&       CYRILLIC CAPITAL LETTER SHWE
A698          ; Changes_When_NFKC_Casefolded # L&       CYRILLIC CAPITAL LETTER DOUBLE O
A69A          ; Changes_When_NFKC_Casefolded # L&       CYRILLIC CAPITAL LETTER CROSSED O
A69C..A69D    ; Changes_When_NFKC_Casefolded # Lm   [2] MODIFIER LETTER CYRILLIC HARD SIGN..MODIFIER LETTER CYRILLIC SOFT SIGN
A722          ; Changes_When_NFKC_Casefolded # L&       LATIN CAPITAL LETTER EGYPTOLOGICAL ALEF
A724          ; Changes_When_NFKC_Casefolded # L&       LATIN CAPITAL LETTER EGYPTOLOGICAL AIN
A726          ; Changes_When_NFKC_Casefolded # L&       LATIN CAPITAL LETTER HENG
A728          ; Changes_When_NFKC_Casefolded # L&       LATIN CAPITAL LETTER TZ
A72A          ; Changes_When_NFKC_Casefolded # L&       LATIN CAPITAL LETTER TRESILLO
A72C          ; Changes_When_NFKC_Casefolded # L&       LATIN CAPITAL LETTER CUATRILLO
A72E          ; Changes_When_NFKC_Casefolded # L&       LATIN CAPITAL LETTER CUATRILLO WITH COMMA
A732          ; Changes_When_NFKC_Casefolded # L&       LATIN CAPITAL LETTER AA
A734          ; Changes_When_NFKC_Casefolded # L&       LATIN CAPITAL LETTER AO
A736          ; Changes_When_NFKC_Casefolded # L&       LATIN CAPITAL LETTER AU
A738          ; Changes_When_NFKC_Casefolded # L&       LATIN CAPITAL LETTER AV
A73A          ; Changes_When_NFKC_Casefolded # L&       LATIN CAPITAL LETTER AV WITH HORIZONTAL BAR
A73C          ; Changes_When_NFKC_Casefolded # L&       LATIN CAPITAL LETTER AY
A73E          ; Changes_When_NFKC_Casefolded # L&       LATIN CAPITAL LETTER REVERSED C WITH DOT
A740          ; Changes_When_NFKC_Casefolded # L&       LATIN CAPITAL LETTER K WITH STROKE
"%string.
Definition props_text_477 := "A742          ; Changes_When_NFKC_Casefolded # L&       LATIN CAPITAL LETTER K WITH DIAGONAL STROKE
A744          ; Changes_When_NFKC_Casefolded # L&       LATIN CAPITAL LETTER K WITH STROKE AND DIAGONAL STROKE
A746          ; Changes_When_NFKC_Casefolded # L&       LATIN CAPITAL LETTER BROKEN L
A748          ; Changes_When_NFKC_Casefolded # L&       LATIN CAPITAL LETTER L WITH HIGH STROKE
A74A          ; Changes_When_NFKC_Casefolded # L&       LATIN CAPITAL LETTER O WITH LONG STROKE OVERLAY
A74C          ; Changes_When_NFKC_Casefolded # L&       LATIN CAPITAL LETTER O WITH LOOP
A74E          ; Changes_When_NFKC_Casefolded # L&       LATIN CAPITAL LETTER OO
A750          ; Changes_When_NFKC_Casefolded # L&       LATIN CAPITAL LETTER P WITH STROKE THROUGH DESCENDER
A752          ; Changes_When_NFKC_Casefolded # L&       LATIN CAPITAL LETTER P WITH FLOURISH
A754          ; Changes_When_NFKC_Casefolded # L&       LATIN CAPITAL LETTER P WITH SQUIRREL TAIL
A756          ; Changes_When_NFKC_Casefolded # L&       LATIN CAPITAL LETTER Q WITH STROKE THROUGH DESCENDER
A758          ; Changes_When_NFKC_Casefolded # L&       LATIN CAPITAL LETTER Q WITH DIAGONAL STROKE
A75A          ; Changes_When_NFKC_Casefolded # L&       LATIN CAPITAL LETTER R ROTUNDA
A75C          ; Changes_When_NFKC_Casefolded # L&       LATIN CAPITAL LETTER RUM ROTUNDA
A75E          ; Changes_When_NFKC_Casefolded # L&       LATIN CAPITAL LETTER V WITH DIAGONAL STROKE
A760          ; Changes_When_NFKC_Casefolded # L&       LATIN CAPITAL LETTER VY
A762          ; Changes_When_NFKC_Casefolded # L&       LATIN CAPITAL LETTER VISIGOTHIC Z
A764          ; Changes_When_NFKC_Casefolded # L&       LATIN CAPITAL LETTER THORN WITH STROKE
A766          ; Changes_When_NFKC_Casefolded # L&       LATIN CAPITAL LETTER THORN WITH STROKE THROUGH DESCENDER
A768          ; Changes_When_NFKC_Casefolded # L&       LATIN CAPITAL LETTER VEND
"%string.
Definition props_text_478 := "A76A          ; Changes_When_NFKC_Casefolded # L&       LATIN CAPITAL LETTER ET
A76C          ; Changes_When_NFKC_Casefolded # L&       LATIN CAPITAL LETTER IS
A76E          ; Changes_When_NFKC_Casefolded # L&       LATIN CAPITAL LETTER CON
A770          ; Changes_When_NFKC_Casefolded # Lm       MODIFIER LETTER US
A779          ; Changes_When_NFKC_Casefolded # L&       LATIN CAPITAL LETTER INSULAR D
A77B          ; Changes_When_NFKC_Casefolded # L&       LATIN CAPITAL LETTER INSULAR F
A77D..A77E    ; Changes_When_NFKC_Casefolded # L&   [2] LATIN CAPITAL LETTER INSULAR G..LATIN CAPITAL LETTER TURNED INSULAR G
A780          ; Changes_When_NFKC_Casefolded # L&       LATIN CAPITAL LETTER TURNED L
A782          ; Changes_When_NFKC_Casefolded # L&       LATIN CAPITAL LETTER INSULAR R
A784          ; Changes_When_NFKC_Casefolded # L&       LATIN CAPITAL LETTER INSULAR S
A786          ; Changes_When_NFKC_Casefolded # L&       LATIN CAPITAL LETTER INSULAR T
A78B          ; Changes_When_NFKC_Casefolded # L&       LATIN CAPITAL LETTER SALTILLO
A78D          ; Changes_When_NFKC_Casefolded # L&       LATIN CAPITAL LETTER TURNED H
A790          ; Changes_When_NFKC_Casefolded # L&       LATIN CAPITAL LETTER N WITH DESCENDER
A792          ; Changes_When_NFKC_Casefolded # L&       LATIN CAPITAL LETTER C WITH BAR
A796          ; Changes_When_NFKC_Casefolded # L&       LATIN CAPITAL LETTER B WITH FLOURISH
A798          ; Changes_When_NFKC_Casefolded # L&       LATIN CAPITAL LETTER F WITH STROKE
A79A          ; Changes_When_NFKC_Casefolded # L&       LATIN CAPITAL LETTER VOLAPUK AE
A79C          ; Changes_When_NFKC_Casefolded # L&       LATIN CAPITAL LETTER VOLAPUK OE
A79E          ; Changes_When_NFKC_Casefolded # L&       LATIN CAPITAL LETTER VOLAPUK UE
"%string.
Definition props_text_479 := "A7A0          ; Changes_When_NFKC_Casefolded # L&       LATIN CAPITAL LETTER G WITH OBLIQUE STROKE
A7A2          ; Changes_When_NFKC_Casefolded # L&       LATIN CAPITAL LETTER K WITH OBLIQUE STROKE
A7A4          ; Changes_When_NFKC_Casefolded # L&       LATIN CAPITAL LETTER N WITH OBLIQUE STROKE
A7A6          ; Changes_When_NFKC_Casefolded # L&       LATIN CAPITAL LETTER R WITH OBLIQUE STROKE
A7A8          ; Changes_When_NFKC_Casefolded # L&       LATIN CAPITAL LETTER S WITH OBLIQUE STROKE
A7AA..A7AE    ; Changes_When_NFKC_Casefolded # L&   [5] LATIN CAPITAL LETTER H WITH HOOK..LATIN CAPITAL LETTER SMALL CAPITAL I
A7B0..A7B4    ; Changes_When_NFKC_Casefolded # L&   [5] LATIN CAPITAL LETTER TURNED K..LATIN CAPITAL LETTER BETA
A7B6          ; Changes_When_NFKC_Casefolded # L&       LATIN CAPITAL LETTER OMEGA
A7B8          ; Changes_When_NFKC_Casefolded # L&       LATIN CAPITAL LETTER U WITH STROKE
A7BA          ; Changes_When_NFKC_Casefolded # L&       LATIN CAPITAL LETTER GLOTTAL A
A7BC          ; Changes_When_NFKC_Casefolded # L&       LATIN CAPITAL LETTER GLOTTAL I
A7BE          ; Changes_When_NFKC_Casefolded # L&       LATIN CAPITAL LETTER GLOTTAL U
A7C2          ; Changes_When_NFKC_Casefolded # L&       LATIN CAPITAL LETTER ANGLICANA W
A7C4..A7C7    ; Changes_When_NFKC_Casefolded # L&   [4] LATIN CAPITAL LETTER C WITH PALATAL HOOK..LATIN CAPITAL LETTER D WITH SHORT STROKE OVERLAY
A7C9          ; Changes_When_NFKC_Casefolded # L&       LATIN CAPITAL LETTER S WITH SHORT STROKE OVERLAY
A7F5          ; Changes_When_NFKC_Casefolded # L&       LATIN CAPITAL LETTER REVERSED HALF H
A7F8..A7F9    ; Changes_When_NFKC_Casefolded # Lm   [2] MODIFIER LETTER CAPITAL H WITH STROKE..MODIFIER LETTER SMALL LIGATURE OE
AB5C..AB5F    ; Changes_When_NFKC_Casefolded # Lm   [4] MODIFIER LETTER SMALL HENG..MODIFIER LETTER SMALL U WITH LEFT HOOK
AB69          ; Changes_When_NFKC_Casefolded # Lm       MODIFIER LETTER SMALL TURNED W
AB70..ABBF    ; Changes_When_NFKC_Casefolded # L&  [80] CHEROKEE SMALL LETTER A..CHEROKEE SMALL LETTER YA
"%string.
Definition props_text_480 := "F900..FA0D    ; Changes_When_NFKC_Casefolded # Lo [270] CJK COMPATIBILITY IDEOGRAPH-F900..CJK COMPATIBILITY IDEOGRAPH-FA0D
FA10          ; Changes_When_NFKC_Casefolded # Lo       CJK COMPATIBILITY IDEOGRAPH-FA10
FA12          ; Changes_When_NFKC_Casefolded # Lo       CJK COMPATIBILITY IDEOGRAPH-FA12
FA15..FA1E    ; Changes_When_NFKC_Casefolded # Lo  [10] CJK COMPATIBILITY IDEOGRAPH-FA15..CJK COMPATIBILITY IDEOGRAPH-FA1E
FA20          ; Changes_When_NFKC_Casefolded # Lo       CJK COMPATIBILITY IDEOGRAPH-FA20
FA22          ; Changes_When_NFKC_Casefolded # Lo       CJK COMPATIBILITY IDEOGRAPH-FA22
FA25..FA26    ; Changes_When_NFKC_Casefolded # Lo   [2] CJK COMPATIBILITY IDEOGRAPH-FA25..CJK COMPATIBILITY IDEOGRAPH-FA26
FA2A..FA6D    ; Changes_When_NFKC_Casefolded # Lo  [68] CJK COMPATIBILITY IDEOGRAPH-FA2A..CJK COMPATIBILITY IDEOGRAPH-FA6D
FA70..FAD9    ; Changes_When_NFKC_Casefolded # Lo [106] CJK COMPATIBILITY IDEOGRAPH-FA70..CJK COMPATIBILITY IDEOGRAPH-FAD9
FB00..FB06    ; Changes_When_NFKC_Casefolded # L&   [7] LATIN SMALL LIGATURE FF..LATIN SMALL LIGATURE ST
FB13..FB17    ; Changes_When_NFKC_Casefolded # L&   [5] ARMENIAN SMALL LIGATURE MEN NOW..ARMENIAN SMALL LIGATURE MEN XEH
FB1D          ; Changes_When_NFKC_Casefolded # Lo       HEBREW LETTER YOD WITH HIRIQ
FB1F..FB28    ; Changes_When_NFKC_Casefolded # Lo  [10] HEBREW LIGATURE YIDDISH YOD YOD PATAH..HEBREW LETTER WIDE TAV
FB29          ; Changes_When_NFKC_Casefolded # Sm       HEBREW LETTER ALTERNATIVE PLUS SIGN
FB2A..FB36    ; Changes_When_NFKC_Casefolded # Lo  [13] HEBREW LETTER SHIN WITH SHIN DOT..HEBREW LETTER ZAYIN WITH DAGESH
FB38..FB3C    ; Changes_When_NFKC_Casefolded # Lo   [5] HEBREW LETTER TET WITH DAGESH..HEBREW LETTER LAMED WITH DAGESH
FB3E          ; Changes_When_NFKC_Casefolded # Lo       HEBREW LETTER MEM WITH DAGESH
FB40..FB41    ; Changes_When_NFKC_Casefolded # Lo   [2] HEBREW LETTER NUN WITH DAGESH..HEBREW LETTER SAMEKH WITH DAGESH
FB43..FB44    ; Changes_When_NFKC_Casefolded # Lo   [2] HEBREW LETTER FINAL PE WITH DAGESH..HEBREW LETTER PE WITH DAGESH
FB46..FBB1    ; Changes_When_NFKC_Casefolded # Lo [108] HEBREW LETTER TSADI WITH DAGESH..ARABIC LETTER YEH BARREE WITH HAMZA ABOVE FINAL FORM
"%string.
Definition props_text_481 := "FBD3..FD3D    ; Changes_When_NFKC_Casefolded # Lo [363] ARABIC LETTER NG ISOLATED FORM..ARABIC LIGATURE ALEF WITH FATHATAN ISOLATED FORM
FD50..FD8F    ; Changes_When_NFKC_Casefolded # Lo  [64] ARABIC LIGATURE TEH WITH JEEM WITH MEEM INITIAL FORM..ARABIC LIGATURE MEEM WITH KHAH WITH MEEM INITIAL FORM
FD92..FDC7    ; Changes_When_NFKC_Casefolded # Lo  [54] ARABIC LIGATURE MEEM WITH JEEM WITH KHAH INITIAL FORM..ARABIC LIGATURE NOON WITH JEEM WITH YEH FINAL FORM
FDF0..FDFB    ; Changes_When_NFKC_Casefolded # Lo  [12] ARABIC LIGATURE SALLA USED AS KORANIC STOP SIGN ISOLATED FORM..ARABIC LIGATURE JALLAJALALOUHOU
FDFC          ; Changes_When_NFKC_Casefolded # Sc       RIAL SIGN
FE00..FE0F    ; Changes_When_NFKC_Casefolded # Mn  [16] VARIATION SELECTOR-1..VARIATION SELECTOR-16
FE10..FE16    ; Changes_When_NFKC_Casefolded # Po   [7] PRESENTATION FORM FOR VERTICAL COMMA..PRESENTATION FORM FOR VERTICAL QUESTION MARK
FE17          ; Changes_When_NFKC_Casefolded # Ps       PRESENTATION FORM FOR VERTICAL LEFT WHITE LENTICULAR BRACKET
FE18          ; Changes_When_NFKC_Casefolded # Pe       PRESENTATION FORM FOR VERTICAL RIGHT WHITE LENTICULAR BRAKCET
FE19          ; Changes_When_NFKC_Casefolded # Po       PRESENTATION FORM FOR VERTICAL HORIZONTAL ELLIPSIS
FE30          ; Changes_When_NFKC_Casefolded # Po       PRESENTATION FORM FOR VERTICAL TWO DOT LEADER
FE31..FE32    ; Changes_When_NFKC_Casefolded # Pd   [2] PRESENTATION FORM FOR VERTICAL EM DASH..PRESENTATION FORM FOR VERTICAL EN DASH
FE33..FE34    ; Changes_When_NFKC_Casefolded # Pc   [2] PRESENTATION FORM FOR VERTICAL LOW LINE..PRESENTATION FORM FOR VERTICAL WAVY LOW LINE
FE35          ; Changes_When_NFKC_Casefolded # Ps       PRESENTATION FORM FOR VERTICAL LEFT PARENTHESIS
FE36          ; Changes_When_NFKC_Casefolded # Pe       PRESENTATION FORM FOR VERTICAL RIGHT PARENTHESIS
FE37          ; Changes_When_NFKC_Casefolded # Ps       PRESENTATION FORM FOR VERTICAL LEFT CURLY BRACKET
FE38          ; Changes_When_NFKC_Casefolded # Pe       PRESENTATION FORM FOR VERTICAL RIGHT CURLY BRACKET
FE39          ; Changes_When_NFKC_Casefolded # Ps       PRESENTATION FORM FOR VERTICAL LEFT TORTOISE SHELL BRACKET
FE3A          ; Changes_When_NFKC_Casefolded # Pe       PRESENTATION FORM FOR VERTICAL RIGHT TORTOISE SHELL BRACKET
FE3B          ; Changes_When_NFKC_Casefolded # Ps       PRESENTATION FORM FOR VERTICAL LEFT BLACK LENTICULAR BRACKET
"%string.
Definition props_text_482 := "FE3C          ; Changes_When_NFKC_Casefolded # Pe       PRESENTATION FORM FOR VERTICAL RIGHT BLACK LENTICULAR BRACKET
FE3D          ; Changes_When_NFKC_Casefolded # Ps       PRESENTATION FORM FOR VERTICAL LEFT DOUBLE ANGLE BRACKET
FE3E          ; Changes_When_NFKC_Casefolded # Pe       PRESENTATION FORM FOR VERTICAL RIGHT DOUBLE ANGLE BRACKET
FE3F          ; Changes_When_NFKC_Casefolded # Ps       PRESENTATION FORM FOR VERTICAL LEFT ANGLE BRACKET
FE40          ; Changes_When_NFKC_Casefolded # Pe       PRESENTATION FORM FOR VERTICAL RIGHT ANGLE BRACKET
FE41          ; Changes_When_NFKC_Casefolded # Ps       PRESENTATION FORM FOR VERTICAL LEFT CORNER BRACKET
FE42          ; Changes_When_NFKC_Casefolded # Pe       PRESENTATION FORM FOR VERTICAL RIGHT CORNER BRACKET
FE43          ; Changes_When_NFKC_Casefolded # Ps       PRESENTATION FORM FOR VERTICAL LEFT WHITE CORNER BRACKET
FE44          ; Changes_When_NFKC_Casefolded # Pe       PRESENTATION FORM FOR VERTICAL RIGHT WHITE CORNER BRACKET
FE47          ; Changes_When_NFKC_Casefolded # Ps       PRESENTATION FORM FOR VERTICAL LEFT SQUARE BRACKET
FE48          ; Changes_When_NFKC_Casefolded # Pe       PRESENTATION FORM FOR VERTICAL RIGHT SQUARE BRACKET
FE49..FE4C    ; Changes_When_NFKC_Casefolded # Po   [4] DASHED OVERLINE..DOUBLE WAVY OVERLINE
FE4D..FE4F    ; Changes_When_NFKC_Casefolded # Pc   [3] DASHED LOW LINE..WAVY LOW LINE
FE50..FE52    ; Changes_When_NFKC_Casefolded # Po   [3] SMALL COMMA..SMALL FULL STOP
FE54..FE57    ; Changes_When_NFKC_Casefolded # Po   [4] SMALL SEMICOLON..SMALL EXCLAMATION MARK
FE58          ; Changes_When_NFKC_Casefolded # Pd       SMALL EM DASH
FE59          ; Changes_When_NFKC_Casefolded # Ps       SMALL LEFT PARENTHESIS
FE5A          ; Changes_When_NFKC_Casefolded # Pe       SMALL RIGHT PARENTHESIS
FE5B          ; Changes_When_NFKC_Casefolded # Ps       SMALL LEFT CURLY BRACKET
FE5C          ; Changes_When_NFKC_Casefolded # Pe       SMALL RIGHT CURLY BRACKET
"%string.
Definition props_text_483 := "FE5D          ; Changes_When_NFKC_Casefolded # Ps       SMALL LEFT TORTOISE SHELL BRACKET
FE5E          ; Changes_When_NFKC_Casefolded # Pe       SMALL RIGHT TORTOISE SHELL BRACKET
FE5F..FE61    ; Changes_When_NFKC_Casefolded # Po   [3] SMALL NUMBER SIGN..SMALL ASTERISK
FE62          ; Changes_When_NFKC_Casefolded # Sm       SMALL PLUS SIGN
FE63          ; Changes_When_NFKC_Casefolded # Pd       SMALL HYPHEN-MINUS
FE64..FE66    ; Changes_When_NFKC_Casefolded # Sm   [3] SMALL LESS-THAN SIGN..SMALL EQUALS SIGN
FE68          ; Changes_When_NFKC_Casefolded # Po       SMALL REVERSE SOLIDUS
FE69          ; Changes_When_NFKC_Casefolded # Sc       SMALL DOLLAR SIGN
FE6A..FE6B    ; Changes_When_NFKC_Casefolded # Po   [2] SMALL PERCENT SIGN..SMALL COMMERCIAL AT
FE70..FE72    ; Changes_When_NFKC_Casefolded # Lo   [3] ARABIC FATHATAN ISOLATED FORM..ARABIC DAMMATAN ISOLATED FORM
FE74          ; Changes_When_NFKC_Casefolded # Lo       ARABIC KASRATAN ISOLATED FORM
FE76..FEFC    ; Changes_When_NFKC_Casefolded # Lo [135] ARABIC FATHA ISOLATED FORM..ARABIC LIGATURE LAM WITH ALEF FINAL FORM
FEFF          ; Changes_When_NFKC_Casefolded # Cf       ZERO WIDTH NO-BREAK SPACE
FF01..FF03    ; Changes_When_NFKC_Casefolded # Po   [3] FULLWIDTH EXCLAMATION MARK..FULLWIDTH NUMBER SIGN
FF04          ; Changes_When_NFKC_Casefolded # Sc       FULLWIDTH DOLLAR SIGN
FF05..FF07    ; Changes_When_NFKC_Casefolded # Po   [3] FULLWIDTH PERCENT SIGN..FULLWIDTH APOSTROPHE
FF08          ; Changes_When_NFKC_Casefolded # Ps       FULLWIDTH LEFT PARENTHESIS
FF09          ; Changes_When_NFKC_Casefolded # Pe       FULLWIDTH RIGHT PARENTHESIS
FF0A          ; Changes_When_NFKC_Casefolded # Po       FULLWIDTH ASTERISK
FF0B          ; Changes_When_NFKC_Casefolded # Sm       FULLWIDTH PLUS SIGN
"%string.
Definition props_text_484 := "FF0C          ; Changes_When_NFKC_Casefolded # Po       FULLWIDTH COMMA
FF0D          ; Changes_When_NFKC_Casefolded # Pd       FULLWIDTH HYPHEN-MINUS
FF0E..FF0F    ; Changes_When_NFKC_Casefolded # Po   [2] FULLWIDTH FULL STOP..FULLWIDTH SOLIDUS
FF10..FF19    ; Changes_When_NFKC_Casefolded # Nd  [10] FULLWIDTH DIGIT ZERO..FULLWIDTH DIGIT NINE
FF1A..FF1B    ; Changes_When_NFKC_Casefolded # Po   [2] FULLWIDTH COLON..FULLWIDTH SEMICOLON
FF1C..FF1E    ; Changes_When_NFKC_Casefolded # Sm   [3] FULLWIDTH LESS-THAN SIGN..FULLWIDTH GREATER-THAN SIGN
FF1F..FF20    ; Changes_When_NFKC_Casefolded # Po   [2] FULLWIDTH QUESTION MARK..FULLWIDTH COMMERCIAL AT
FF21..FF3A    ; Changes_When_NFKC_Casefolded # L&  [26] FULLWIDTH LATIN CAPITAL LETTER A..FULLWIDTH LATIN CAPITAL LETTER Z
FF3B          ; Changes_When_NFKC_Casefolded # Ps       FULLWIDTH LEFT SQUARE BRACKET
FF3C          ; Changes_When_NFKC_Casefolded # Po       FULLWIDTH REVERSE SOLIDUS
FF3D          ; Changes_When_NFKC_Casefolded # Pe       FULLWIDTH RIGHT SQUARE BRACKET
FF3E          ; Changes_When_NFKC_Casefolded # Sk       FULLWIDTH CIRCUMFLEX ACCENT
FF3F          ; Changes_When_NFKC_Casefolded # Pc       FULLWIDTH LOW LINE
FF40          ; Changes_When_NFKC_Casefolded # Sk       FULLWIDTH GRAVE ACCENT
FF41..FF5A    ; Changes_When_NFKC_Casefolded # L&  [26] FULLWIDTH LATIN SMALL LETTER A..FULLWIDTH LATIN SMALL LETTER Z
FF5B          ; Changes_When_NFKC_Casefolded # Ps       FULLWIDTH LEFT CURLY BRACKET
FF5C          ; Changes_When_NFKC_Casefolded # Sm       FULLWIDTH VERTICAL LINE
FF5D          ; Changes_When_NFKC_Casefolded # Pe       FULLWIDTH RIGHT CURLY BRACKET
FF5E          ; Changes_When_NFKC_Casefolded # Sm       FULLWIDTH TILDE
FF5F          ; Changes_When_NFKC_Casefolded # Ps       FULLWIDTH LEFT WHITE PARENTHESIS
"%string.
Definition props_text_485 := "FF60          ; Changes_When_NFKC_Casefolded # Pe       FULLWIDTH RIGHT WHITE PARENTHESIS
FF61          ; Changes_When_NFKC_Casefolded # Po       HALFWIDTH IDEOGRAPHIC FULL STOP
FF62          ; Changes_When_NFKC_Casefolded # Ps       HALFWIDTH LEFT CORNER BRACKET
FF63          ; Changes_When_NFKC_Casefolded # Pe       HALFWIDTH RIGHT CORNER BRACKET
FF64..FF65    ; Changes_When_NFKC_Casefolded # Po   [2] HALFWIDTH IDEOGRAPHIC COMMA..HALFWIDTH KATAKANA MIDDLE DOT
FF66..FF6F    ; Changes_When_NFKC_Casefolded # Lo  [10] HALFWIDTH KATAKANA LETTER WO..HALFWIDTH KATAKANA LETTER SMALL TU
FF70          ; Changes_When_NFKC_Casefolded # Lm       HALFWIDTH KATAKANA-HIRAGANA PROLONGED SOUND MARK
FF71..FF9D    ; Changes_When_NFKC_Casefolded # Lo  [45] HALFWIDTH KATAKANA LETTER A..HALFWIDTH KATAKANA LETTER N
FF9E..FF9F    ; Changes_When_NFKC_Casefolded # Lm   [2] HALFWIDTH KATAKANA VOICED SOUND MARK..HALFWIDTH KATAKANA SEMI-VOICED SOUND MARK
FFA0..FFBE    ; Changes_When_NFKC_Casefolded # Lo  [31] HALFWIDTH HANGUL FILLER..HALFWIDTH HANGUL LETTER HIEUH
FFC2..FFC7    ; Changes_When_NFKC_Casefolded # Lo   [6] HALFWIDTH HANGUL LETTER A..HALFWIDTH HANGUL LETTER E
FFCA..FFCF    ; Changes_When_NFKC_Casefolded # Lo   [6] HALFWIDTH HANGUL LETTER YEO..HALFWIDTH HANGUL LETTER OE
FFD2..FFD7    ; Changes_When_NFKC_Casefolded # Lo   [6] HALFWIDTH HANGUL LETTER YO..HALFWIDTH HANGUL LETTER YU
FFDA..FFDC    ; Changes_When_NFKC_Casefolded # Lo   [3] HALFWIDTH HANGUL LETTER EU..HALFWIDTH HANGUL LETTER I
FFE0..FFE1    ; Changes_When_NFKC_Casefolded # Sc   [2] FULLWIDTH CENT SIGN..FULLWIDTH POUND SIGN
FFE2          ; Changes_When_NFKC_Casefolded # Sm       FULLWIDTH NOT SIGN
FFE3          ; Changes_When_NFKC_Casefolded # Sk       FULLWIDTH MACRON
FFE4          ; Changes_When_NFKC_Casefolded # So       FULLWIDTH BROKEN BAR
FFE5..FFE6    ; Changes_When_NFKC_Casefolded # Sc   [2] FULLWIDTH YEN SIGN..FULLWIDTH WON SIGN
FFE8          ; Changes_When_NFKC_Casefolded # So       HALFWIDTH FORMS LIGHT VERTICAL
"%string.
Definition props_text_486 := "FFE9..FFEC    ; Changes_When_NFKC_Casefolded # Sm   [4] HALFWIDTH LEFTWARDS ARROW..HALFWIDTH DOWNWARDS ARROW
FFED..FFEE    ; Changes_When_NFKC_Casefolded # So   [2] HALFWIDTH BLACK SQUARE..HALFWIDTH WHITE CIRCLE
FFF0..FFF8    ; Changes_When_NFKC_Casefolded # Cn   [9] <reserved-FFF0>..<reserved-FFF8>
10400..10427  ; Changes_When_NFKC_Casefolded # L&  [40] DESERET CAPITAL LETTER LONG I..DESERET CAPITAL LETTER EW
104B0..104D3  ; Changes_When_NFKC_Casefolded # L&  [36] OSAGE CAPITAL LETTER A..OSAGE CAPITAL LETTER ZHA
10C80..10CB2  ; Changes_When_NFKC_Casefolded # L&  [51] OLD HUNGARIAN CAPITAL LETTER A..OLD HUNGARIAN CAPITAL LETTER US
118A0..118BF  ; Changes_When_NFKC_Casefolded # L&  [32] WARANG CITI CAPITAL LETTER NGAA..WARANG CITI CAPITAL LETTER VIYO
16E40..16E5F  ; Changes_When_NFKC_Casefolded # L&  [32] MEDEFAIDRIN CAPITAL LETTER M..MEDEFAIDRIN CAPITAL LETTER Y
1BCA0..1BCA3  ; Changes_When_NFKC_Casefolded # Cf   [4] SHORTHAND FORMAT LETTER OVERLAP..SHORTHAND FORMAT UP STEP
1D15E..1D164  ; Changes_When_NFKC_Casefolded # So   [7] MUSICAL SYMBOL HALF NOTE..MUSICAL SYMBOL ONE HUNDRED TWENTY-EIGHTH NOTE
1D173..1D17A  ; Changes_When_NFKC_Casefolded # Cf   [8] MUSICAL SYMBOL BEGIN BEAM..MUSICAL SYMBOL END PHRASE
1D1BB..1D1C0  ; Changes_When_NFKC_Casefolded # So   [6] MUSICAL SYMBOL MINIMA..MUSICAL SYMBOL FUSA BLACK
1D400..1D454  ; Changes_When_NFKC_Casefolded # L&  [85] MATHEMATICAL BOLD CAPITAL A..MATHEMATICAL ITALIC SMALL G
1D456..1D49C  ; Changes_When_NFKC_Casefolded # L&  [71] MATHEMATICAL ITALIC SMALL I..MATHEMATICAL SCRIPT CAPITAL A
1D49E..1D49F  ; Changes_When_NFKC_Casefolded # L&   [2] MATHEMATICAL SCRIPT CAPITAL C..MATHEMATICAL SCRIPT CAPITAL D
1D4A2         ; Changes_When_NFKC_Casefolded # L&       MATHEMATICAL SCRIPT CAPITAL G
1D4A5..1D4A6  ; Changes_When_NFKC_Casefolded # L&   [2] MATHEMATICAL SCRIPT CAPITAL J..MATHEMATICAL SCRIPT CAPITAL K
1D4A9..1D4AC  ; Changes_When_NFKC_Casefolded # L&   [4] MATHEMATICAL SCRIPT CAPITAL N..MATHEMATICAL SCRIPT CAPITAL Q
1D4AE..1D4B9  ; Changes_When_NFKC_Casefolded # L&  [12] MATHEMATICAL SCRIPT CAPITAL S..MATHEMATICAL SCRIPT SMALL D
1D4BB         ; Changes_When_NFKC_Casefolded # L&       MATHEMATICAL SCRIPT SMALL F
"%string.
Definition props_text_487 := "1D4BD..1D4C3  ; Changes_When_NFKC_Casefolded # L&   [7] MATHEMATICAL SCRIPT SMALL H..MATHEMATICAL SCRIPT SMALL N
1D4C5..1D505  ; Changes_When_NFKC_Casefolded # L&  [65] MATHEMATICAL SCRIPT SMALL P..MATHEMATICAL FRAKTUR CAPITAL B
1D507..1D50A  ; Changes_When_NFKC_Casefolded # L&   [4] MATHEMATICAL FRAKTUR CAPITAL D..MATHEMATICAL FRAKTUR CAPITAL G
1D50D..1D514  ; Changes_When_NFKC_Casefolded # L&   [8] MATHEMATICAL FRAKTUR CAPITAL J..MATHEMATICAL FRAKTUR CAPITAL Q
1D516..1D51C  ; Changes_When_NFKC_Casefolded # L&   [7] MATHEMATICAL FRAKTUR CAPITAL S..MATHEMATICAL FRAKTUR CAPITAL Y
1D51E..1D539  ; Changes_When_NFKC_Casefolded # L&  [28] MATHEMATICAL FRAKTUR SMALL A..MATHEMATICAL DOUBLE-STRUCK CAPITAL B
1D53B..1D53E  ; Changes_When_NFKC_Casefolded # L&   [4] MATHEMATICAL DOUBLE-STRUCK CAPITAL D..MATHEMATICAL DOUBLE-STRUCK CAPITAL G
1D540..1D544  ; Changes_When_NFKC_Casefolded # L&   [5] MATHEMATICAL DOUBLE-STRUCK CAPITAL I..MATHEMATICAL DOUBLE-STRUCK CAPITAL M
1D546         ; Changes_When_NFKC_Casefolded # L&       MATHEMATICAL DOUBLE-STRUCK CAPITAL O
1D54A..1D550  ; Changes_When_NFKC_Casefolded # L&   [7] MATHEMATICAL DOUBLE-STRUCK CAPITAL S..MATHEMATICAL DOUBLE-STRUCK CAPITAL Y
1D552..1D6A5  ; Changes_When_NFKC_Casefolded # L& [340] MATHEMATICAL DOUBLE-STRUCK SMALL A..MATHEMATICAL ITALIC SMALL DOTLESS J
1D6A8..1D6C0  ; Changes_When_NFKC_Casefolded # L&  [25] MATHEMATICAL BOLD CAPITAL ALPHA..MATHEMATICAL BOLD CAPITAL OMEGA
1D6C1         ; Changes_When_NFKC_Casefolded # Sm       MATHEMATICAL BOLD NABLA
1D6C2..1D6DA  ; Changes_When_NFKC_Casefolded # L&  [25] MATHEMATICAL BOLD SMALL ALPHA..MATHEMATICAL BOLD SMALL OMEGA
1D6DB         ; Changes_When_NFKC_Casefolded # Sm       MATHEMATICAL BOLD PARTIAL DIFFERENTIAL
1D6DC..1D6FA  ; Changes_When_NFKC_Casefolded # L&  [31] MATHEMATICAL BOLD EPSILON SYMBOL..MATHEMATICAL ITALIC CAPITAL OMEGA
1D6FB         ; Changes_When_NFKC_Casefolded # Sm       MATHEMATICAL ITALIC NABLA
1D6FC..1D714  ; Changes_When_NFKC_Casefolded # L&  [25] MATHEMATICAL ITALIC SMALL ALPHA..MATHEMATICAL ITALIC SMALL OMEGA
1D715         ; Changes_When_NFKC_Casefolded # Sm       MATHEMATICAL ITALIC PARTIAL DIFFERENTIAL
1D716..1D734  ; Changes_When_NFKC_Casefolded # L&  [31] MATHEMATICAL ITALIC EPSILON SYMBOL..MATHEMATICAL BOLD ITALIC CAPITAL OMEGA
"%string.
Definition props_text_488 := "1D735         ; Changes_When_NFKC_Casefolded # Sm       MATHEMATICAL BOLD ITALIC NABLA
1D736..1D74E  ; Changes_When_NFKC_Casefolded # L&  [25] MATHEMATICAL BOLD ITALIC SMALL ALPHA..MATHEMATICAL BOLD ITALIC SMALL OMEGA
1D74F         ; Changes_When_NFKC_Casefolded # Sm       MATHEMATICAL BOLD ITALIC PARTIAL DIFFERENTIAL
1D750..1D76E  ; Changes_When_NFKC_Casefolded # L&  [31] MATHEMATICAL BOLD ITALIC EPSILON SYMBOL..MATHEMATICAL SANS-SERIF BOLD CAPITAL OMEGA
1D76F         ; Changes_When_NFKC_Casefolded # Sm       MATHEMATICAL SANS-SERIF BOLD NABLA
1D770..1D788  ; Changes_When_NFKC_Casefolded # L&  [25] MATHEMATICAL SANS-SERIF BOLD SMALL ALPHA..MATHEMATICAL SANS-SERIF BOLD SMALL OMEGA
1D789         ; Changes_When_NFKC_Casefolded # Sm       MATHEMATICAL SANS-SERIF BOLD PARTIAL DIFFERENTIAL
1D78A..1D7A8  ; Changes_When_NFKC_Casefolded # L&  [31] MATHEMATICAL SANS-SERIF BOLD EPSILON SYMBOL..MATHEMATICAL SANS-SERIF BOLD ITALIC CAPITAL OMEGA
1D7A9         ; Changes_When_NFKC_Casefolded # Sm       MATHEMATICAL SANS-SERIF BOLD ITALIC NABLA
1D7AA..1D7C2  ; Changes_When_NFKC_Casefolded # L&  [25] MATHEMATICAL SANS-SERIF BOLD ITALIC SMALL ALPHA..MATHEMATICAL SANS-SERIF BOLD ITALIC SMALL OMEGA
1D7C3         ; Changes_When_NFKC_Casefolded # Sm       MATHEMATICAL SANS-SERIF BOLD ITALIC PARTIAL DIFFERENTIAL
1D7C4..1D7CB  ; Changes_When_NFKC_Casefolded # L&   [8] MATHEMATICAL SANS-SERIF BOLD ITALIC EPSILON SYMBOL..MATHEMATICAL BOLD SMALL DIGAMMA
1D7CE..1D7FF  ; Changes_When_NFKC_Casefolded # Nd  [50] MATHEMATICAL BOLD DIGIT ZERO..MATHEMATICAL MONOSPACE DIGIT NINE
1E900..1E921  ; Changes_When_NFKC_Casefolded # L&  [34] ADLAM CAPITAL LETTER ALIF..ADLAM CAPITAL LETTER SHA
1EE00..1EE03  ; Changes_When_NFKC_Casefolded # Lo   [4] ARABIC MATHEMATICAL ALEF..ARABIC MATHEMATICAL DAL
1EE05..1EE1F  ; Changes_When_NFKC_Casefolded # Lo  [27] ARABIC MATHEMATICAL WAW..ARABIC MATHEMATICAL DOTLESS QAF
1EE21..1EE22  ; Changes_When_NFKC_Casefolded # Lo   [2] ARABIC MATHEMATICAL INITIAL BEH..ARABIC MATHEMATICAL INITIAL JEEM
1EE24         ; Changes_When_NFKC_Casefolded # Lo       ARABIC MATHEMATICAL INITIAL HEH
1EE27         ; Changes_When_NFKC_Casefolded # Lo       ARABIC MATHEMATICAL INITIAL HAH
1EE29..1EE32  ; Changes_When_NFKC_Casefolded # Lo  [10] ARABIC MATHEMATICAL INITIAL YEH..ARABIC MATHEMATICAL INITIAL QAF
"%string.
Definition props_text_489 := "1EE34..1EE37  ; Changes_When_NFKC_Casefolded # Lo   [4] ARABIC MATHEMATICAL INITIAL SHEEN..ARABIC MATHEMATICAL INITIAL KHAH
1EE39         ; Changes_When_NFKC_Casefolded # Lo       ARABIC MATHEMATICAL INITIAL DAD
1EE3B         ; Changes_When_NFKC_Casefolded # Lo       ARABIC MATHEMATICAL INITIAL GHAIN
1EE42         ; Changes_When_NFKC_Casefolded # Lo       ARABIC MATHEMATICAL TAILED JEEM
1EE47         ; Changes_When_NFKC_Casefolded # Lo       ARABIC MATHEMATICAL TAILED HAH
1EE49         ; Changes_When_NFKC_Casefolded # Lo       ARABIC MATHEMATICAL TAILED YEH
1EE4B         ; Changes_When_NFKC_Casefolded # Lo       ARABIC MATHEMATICAL TAILED LAM
1EE4D..1EE4F  ; Changes_When_NFKC_Casefolded # Lo   [3] ARABIC MATHEMATICAL TAILED NOON..ARABIC MATHEMATICAL TAILED AIN
1EE51..1EE52  ; Changes_When_NFKC_Casefolded # Lo   [2] ARABIC MATHEMATICAL TAILED SAD..ARABIC MATHEMATICAL TAILED QAF
1EE54         ; Changes_When_NFKC_Casefolded # Lo       ARABIC MATHEMATICAL TAILED SHEEN
1EE57         ; Changes_When_NFKC_Casefolded # Lo       ARABIC MATHEMATICAL TAILED KHAH
1EE59         ; Changes_When_NFKC_Casefolded # Lo       ARABIC MATHEMATICAL TAILED DAD
1EE5B         ; Changes_When_NFKC_Casefolded # Lo       ARABIC MATHEMATICAL TAILED GHAIN
1EE5D         ; Changes_When_NFKC_Casefolded # Lo       ARABIC MATHEMATICAL TAILED DOTLESS NOON
1EE5F         ; Changes_When_NFKC_Casefolded # Lo       ARABIC MATHEMATICAL TAILED DOTLESS QAF
1EE61..1EE62  ; Changes_When_NFKC_Casefolded # Lo   [2] ARABIC MATHEMATICAL STRETCHED BEH..ARABIC MATHEMATICAL STRETCHED JEEM
1EE64         ; Changes_When_NFKC_Casefolded # Lo       ARABIC MATHEMATICAL STRETCHED HEH
1EE67..1EE6A  ; Changes_When_NFKC_Casefolded # Lo   [4] ARABIC MATHEMATICAL STRETCHED HAH..ARABIC MATHEMATICAL STRETCHED KAF
1EE6C..1EE72  ; Changes_When_NFKC_Casefolded # Lo   [7] ARABIC MATHEMATICAL STRETCHED MEEM..ARABIC MATHEMATICAL STRETCHED QAF
1EE74..1EE77  ; Changes_When_NFKC_Casefolded # Lo   [4] ARABIC MATHEMATICAL STRETCHED SHEEN..ARABIC MATHEMATICAL STRETCHED KHAH
"%string.
Definition props_text_490 := "1EE79..1EE7C  ; Changes_When_NFKC_Casefolded # Lo   [4] ARABIC MATHEMATICAL STRETCHED DAD..ARABIC MATHEMATICAL STRETCHED DOTLESS BEH
1EE7E         ; Changes_When_NFKC_Casefolded # Lo       ARABIC MATHEMATICAL STRETCHED DOTLESS FEH
1EE80..1EE89  ; Changes_When_NFKC_Casefolded # Lo  [10] ARABIC MATHEMATICAL LOOPED ALEF..ARABIC MATHEMATICAL LOOPED YEH
1EE8B..1EE9B  ; Changes_When_NFKC_Casefolded # Lo  [17] ARABIC MATHEMATICAL LOOPED LAM..ARABIC MATHEMATICAL LOOPED GHAIN
1EEA1..1EEA3  ; Changes_When_NFKC_Casefolded # Lo   [3] ARABIC MATHEMATICAL DOUBLE-STRUCK BEH..ARABIC MATHEMATICAL DOUBLE-STRUCK DAL
1EEA5..1EEA9  ; Changes_When_NFKC_Casefolded # Lo   [5] ARABIC MATHEMATICAL DOUBLE-STRUCK WAW..ARABIC MATHEMATICAL DOUBLE-STRUCK YEH
1EEAB..1EEBB  ; Changes_When_NFKC_Casefolded # Lo  [17] ARABIC MATHEMATICAL DOUBLE-STRUCK LAM..ARABIC MATHEMATICAL DOUBLE-STRUCK GHAIN
1F100..1F10A  ; Changes_When_NFKC_Casefolded # No  [11] DIGIT ZERO FULL STOP..DIGIT NINE COMMA
1F110..1F12E  ; Changes_When_NFKC_Casefolded # So  [31] PARENTHESIZED LATIN CAPITAL LETTER A..CIRCLED WZ
1F130..1F14F  ; Changes_When_NFKC_Casefolded # So  [32] SQUARED LATIN CAPITAL LETTER A..SQUARED WC
1F16A..1F16C  ; Changes_When_NFKC_Casefolded # So   [3] RAISED MC SIGN..RAISED MR SIGN
1F190         ; Changes_When_NFKC_Casefolded # So       SQUARE DJ
1F200..1F202  ; Changes_When_NFKC_Casefolded # So   [3] SQUARE HIRAGANA HOKA..SQUARED KATAKANA SA
1F210..1F23B  ; Changes_When_NFKC_Casefolded # So  [44] SQUARED CJK UNIFIED IDEOGRAPH-624B..SQUARED CJK UNIFIED IDEOGRAPH-914D
1F240..1F248  ; Changes_When_NFKC_Casefolded # So   [9] TORTOISE SHELL BRACKETED CJK UNIFIED IDEOGRAPH-672C..TORTOISE SHELL BRACKETED CJK UNIFIED IDEOGRAPH-6557
1F250..1F251  ; Changes_When_NFKC_Casefolded # So   [2] CIRCLED IDEOGRAPH ADVANTAGE..CIRCLED IDEOGRAPH ACCEPT
1FBF0..1FBF9  ; Changes_When_NFKC_Casefolded # Nd  [10] SEGMENTED DIGIT ZERO..SEGMENTED DIGIT NINE
2F800..2FA1D  ; Changes_When_NFKC_Casefolded # Lo [542] CJK COMPATIBILITY IDEOGRAPH-2F800..CJK COMPATIBILITY IDEOGRAPH-2FA1D
E0000         ; Changes_When_NFKC_Casefolded # Cn       <reserved-E0000>
E0001         ; Changes_When_NFKC_Casefolded # Cf       LANGUAGE TAG
"%string.
Definition props_text_491 := "E0002..E001F  ; Changes_When_NFKC_Casefolded # Cn  [30] <reserved-E0002>..<reserved-E001F>
E0020..E007F  ; Changes_When_NFKC_Casefolded # Cf  [96] TAG SPACE..CANCEL TAG
E0080..E00FF  ; Changes_When_NFKC_Casefolded # Cn [128] <reserved-E0080>..<reserved-E00FF>
E0100..E01EF  ; Changes_When_NFKC_Casefolded # Mn [240] VARIATION SELECTOR-17..VARIATION SELECTOR-256
E01F0..E0FFF  ; Changes_When_NFKC_Casefolded # Cn [3600] <reserved-E01F0>..<reserved-E0FFF>

# Total code points: 10329

# EOF
"%string.
Definition props_text : list Z := concat [text props_text_0; text props_text_1; text props_text_2; text props_text_3; text props_text_4; text props_text_5; text props_text_6; text props_text_7; text props_text_8; text props_text_9; text props_text_10; text props_text_11; text props_text_12; text props_text_13; text props_text_14; text props_text_15; text props_text_16; text props_text_17; text props_text_18; text props_text_19; text props_text_20; text props_text_21; text props_text_22; text props_text_23; text props_text_24; text props_text_25; text props_text_26; text props_text_27; text props_text_28; text props_text_29; text props_text_30; text props_text_31; text props_text_32; text props_text_33; text props_text_34; text props_text_35; text props_text_36; text props_text_37; text props_text_38; text props_text_39; text props_text_40; text props_text_41; text props_text_42; text props_text_43; text props_text_44; text props_text_45; text props_text_46; text props_text_47; text props_text_48; text props_text_49; text props_text_50; text props_text_51; text props_text_52; text props_text_53; text props_text_54; text props_text_55; text props_text_56; text props_text_57; text props_text_58; text props_text_59; text props_text_60; text props_text_61; text props_text_62; text props_text_63; text props_text_64; text props_text_65; text props_text_66; text props_text_67; text props_text_68; text props_text_69; text props_text_70; text props_text_71; text props_text_72; text props_text_73; text props_text_74; text props_text_75; text props_text_76; text props_text_77; text props_text_78; text props_text_79; text props_text_80; text props_text_81; text props_text_82; text props_text_83; text props_text_84; text props_text_85; text props_text_86; text props_text_87; text props_text_88; text props_text_89; text props_text_90; text props_text_91; text props_text_92; text props_text_93; text props_text_94; text props_text_95; text props_text_96; text props_text_97; text props_text_98; text props_text_99; text props_text_100; text props_text_101; text props_text_102; text props_text_103; text props_text_104; text props_text_105; text props_text_106; text props_text_107; text props_text_108; text props_text_109; text props_text_110; text props_text_111; text props_text_112; text props_text_113; text props_text_114; text props_text_115; text props_text_116; text props_text_117; text props_text_118; text props_text_119; text props_text_120; text props_text_121; text props_text_122; text props_text_123; text props_text_124; text props_text_125; text props_text_126; text props_text_127; text props_text_128; text props_text_129; text props_text_130; text props_text_131; text props_text_132; text props_text_133; text props_text_134; text props_text_135; text props_text_136; text props_text_137; text props_text_138; text props_text_139; text props_text_140; text props_text_141; text props_text_142; text props_text_143; text props_text_144; text props_text_145; text props_text_146; text props_text_147; text props_text_148; text props_text_149; text props_text_150; text props_text_151; text props_text_152; text props_text_153; text props_text_154; text props_text_155; text props_text_156; text props_text_157; text props_text_158; text props_text_159; text props_text_160; text props_text_161; text props_text_162; text props_text_163; text props_text_164; text props_text_165; text props_text_166; text props_text_167; text props_text_168; text props_text_169; text props_text_170; text props_text_171; text props_text_172; text props_text_173; text props_text_174; text props_text_175; text props_text_176; text props_text_177; text props_text_178; text props_text_179; text props_text_180; text props_text_181; text props_text_182; text props_text_183; text props_text_184; text props_text_185; text props_text_186; text props_text_187; text props_text_188; text props_text_189; text props_text_190; text props_text_191; text props_text_192; text props_text_193; text props_text_194; text props_text_195; text props_text_196; text props_text_197; text props_text_198; text props_text_199; text props_text_200; text props_text_201; text props_text_202; text props_text_203; text props_text_204; text props_text_205; text props_text_206; text props_text_207; text props_text_208; text props_text_209; text props_text_210; text props_text_211; text props_text_212; text props_text_213; text props_text_214; text props_text_215; text props_text_216; text props_text_217; text props_text_218; text props_text_219; text props_text_220; text props_text_221; text props_text_222; text props_text_223; text props_text_224; text props_text_225; text props_text_226; text props_text_227; text props_text_228; text props_text_229; text props_text_230; text props_text_231; text props_text_232; text props_text_233; text props_text_234; text props_text_235; text props_text_236; text props_text_237; text props_text_238; text props_text_239; text props_text_240; text props_text_241; text props_text_242; text props_text_243; text props_text_244; text props_text_245; text props_text_246; text props_text_247; text props_text_248; text props_text_249; text props_text_250; text props_text_251; text props_text_252; text props_text_253; text props_text_254; text props_text_255; text props_text_256; text props_text_257; text props_text_258; text props_text_259; text props_text_260; text props_text_261; text props_text_262; text props_text_263; text props_text_264; text props_text_265; text props_text_266; text props_text_267; text props_text_268; text props_text_269; text props_text_270; text props_text_271; text props_text_272; text props_text_273; text props_text_274; text props_text_275; text props_text_276; text props_text_277; text props_text_278; text props_text_279; text props_text_280; text props_text_281; text props_text_282; text props_text_283; text props_text_284; text props_text_285; text props_text_286; text props_text_287; text props_text_288; text props_text_289; text props_text_290; text props_text_291; text props_text_292; text props_text_293; text props_text_294; text props_text_295; text props_text_296; text props_text_297; text props_text_298; text props_text_299; text props_text_300; text props_text_301; text props_text_302; text props_text_303; text props_text_304; text props_text_305; text props_text_306; text props_text_307; text props_text_308; text props_text_309; text props_text_310; text props_text_311; text props_text_312; text props_text_313; text props_text_314; text props_text_315; text props_text_316; text props_text_317; text props_text_318; text props_text_319; text props_text_320; text props_text_321; text props_text_322; text props_text_323; text props_text_324; text props_text_325; text props_text_326; text props_text_327; text props_text_328; text props_text_329; text props_text_330; text props_text_331; text props_text_332; text props_text_333; text props_text_334; text props_text_335; text props_text_336; text props_text_337; text props_text_338; text props_text_339; text props_text_340; text props_text_341; text props_text_342; text props_text_343; text props_text_344; text props_text_345; text props_text_346; text props_text_347; text props_text_348; text props_text_349; text props_text_350; text props_text_351; text props_text_352; text props_text_353; text props_text_354; text props_text_355; text props_text_356; text props_text_357; text props_text_358; text props_text_359; text props_text_360; text props_text_361; text props_text_362; text props_text_363; text props_text_364; text props_text_365; text props_text_366; text props_text_367; text props_text_368; text props_text_369; text props_text_370; text props_text_371; text props_text_372; text props_text_373; text props_text_374; text props_text_375; text props_text_376; text props_text_377; text props_text_378; text props_text_379; text props_text_380; text props_text_381; text props_text_382; text props_text_383; text props_text_384; text props_text_385; text props_text_386; text props_text_387; text props_text_388; text props_text_389; text props_text_390; text props_text_391; text props_text_392; text props_text_393; text props_text_394; text props_text_395; text props_text_396; text props_text_397; text props_text_398; text props_text_399; text props_text_400; text props_text_401; text props_text_402; text props_text_403; text props_text_404; text props_text_405; text props_text_406; text props_text_407; text props_text_408; text props_text_409; text props_text_410; text props_text_411; text props_text_412; text props_text_413; text props_text_414; text props_text_415; text props_text_416; text props_text_417; text props_text_418; text props_text_419; text props_text_420; text props_text_421; text props_text_422; text props_text_423; text props_text_424; text props_text_425; text props_text_426; text props_text_427; text props_text_428; text props_text_429; text props_text_430; text props_text_431; text props_text_432; text props_text_433; text props_text_434; text props_text_435; text props_text_436; text props_text_437; text props_text_438; text props_text_439; text props_text_440; text props_text_441; text props_text_442; text props_text_443; text props_text_444; text props_text_445; text props_text_446; text props_text_447; text props_text_448; text props_text_449; text props_text_450; text props_text_451; text props_text_452; text props_text_453; text props_text_454; text props_text_455; text props_text_456; text props_text_457; text props_text_458; text props_text_459; text props_text_460; text props_text_461; text props_text_462; text props_text_463; text props_text_464; text props_text_465; text props_text_466; text props_text_467; text props_text_468; text props_text_469; text props_text_470; text props_text_471; text props_text_472; text props_text_473; text props_text_474; text props_text_475; text props_text_476; text props_text_477; text props_text_478; text props_text_479; text props_text_480; text props_text_481; text props_text_482; text props_text_483; text props_text_484; text props_text_485; text props_text_486; text props_text_487; text props_text_488; text props_text_489; text props_text_490; text props_text_491].
