(** NFC_QC rows of /repo/lib/DerivedNormalizationProps.txt (generated by tools/mkdata.py). *)
From Verif Require Import Base DataTypes.
Definition nfcqc_rows_0 : list qrow := [
  Qrow 0x340 0x341 QcNo;
  Qrow 0x343 0x344 QcNo;
  Qrow 0x374 0x374 QcNo;
  Qrow 0x37e 0x37e QcNo;
  Qrow 0x387 0x387 QcNo;
  Qrow 0x958 0x95f QcNo;
  Qrow 0x9dc 0x9dd QcNo;
  Qrow 0x9df 0x9df QcNo;
  Qrow 0xa33 0xa33 QcNo;
  Qrow 0xa36 0xa36 QcNo;
  Qrow 0xa59 0xa5b QcNo;
  Qrow 0xa5e 0xa5e QcNo;
  Qrow 0xb5c 0xb5d QcNo;
  Qrow 0xf43 0xf43 QcNo;
  Qrow 0xf4d 0xf4d QcNo;
  Qrow 0xf52 0xf52 QcNo;
  Qrow 0xf57 0xf57 QcNo;
  Qrow 0xf5c 0xf5c QcNo;
  Qrow 0xf69 0xf69 QcNo;
  Qrow 0xf73 0xf73 QcNo;
  Qrow 0xf75 0xf76 QcNo;
  Qrow 0xf78 0xf78 QcNo;
  Qrow 0xf81 0xf81 QcNo;
  Qrow 0xf93 0xf93 QcNo;
  Qrow 0xf9d 0xf9d QcNo;
  Qrow 0xfa2 0xfa2 QcNo;
  Qrow 0xfa7 0xfa7 QcNo;
  Qrow 0xfac 0xfac QcNo;
  Qrow 0xfb9 0xfb9 QcNo;
  Qrow 0x1f71 0x1f71 QcNo;
  Qrow 0x1f73 0x1f73 QcNo;
  Qrow 0x1f75 0x1f75 QcNo;
  Qrow 0x1f77 0x1f77 QcNo;
  Qrow 0x1f79 0x1f79 QcNo;
  Qrow 0x1f7b 0x1f7b QcNo;
  Qrow 0x1f7d 0x1f7d QcNo;
  Qrow 0x1fbb 0x1fbb QcNo;
  Qrow 0x1fbe 0x1fbe QcNo;
  Qrow 0x1fc9 0x1fc9 QcNo;
  Qrow 0x1fcb 0x1fcb QcNo;
  Qrow 0x1fd3 0x1fd3 QcNo;
  Qrow 0x1fdb 0x1fdb QcNo;
  Qrow 0x1fe3 0x1fe3 QcNo;
  Qrow 0x1feb 0x1feb QcNo;
  Qrow 0x1fee 0x1fef QcNo;
  Qrow 0x1ff9 0x1ff9 QcNo;
  Qrow 0x1ffb 0x1ffb QcNo;
  Qrow 0x1ffd 0x1ffd QcNo;
  Qrow 0x2000 0x2001 QcNo;
  Qrow 0x2126 0x2126 QcNo;
  Qrow 0x212a 0x212b QcNo;
  Qrow 0x2329 0x2329 QcNo;
  Qrow 0x232a 0x232a QcNo;
  Qrow 0x2adc 0x2adc QcNo;
  Qrow 0xf900 0xfa0d QcNo;
  Qrow 0xfa10 0xfa10 QcNo;
  Qrow 0xfa12 0xfa12 QcNo;
  Qrow 0xfa15 0xfa1e QcNo;
  Qrow 0xfa20 0xfa20 QcNo;
  Qrow 0xfa22 0xfa22 QcNo;
  Qrow 0xfa25 0xfa26 QcNo;
  Qrow 0xfa2a 0xfa6d QcNo;
  Qrow 0xfa70 0xfad9 QcNo;
  Qrow 0xfb1d 0xfb1d QcNo;
  Qrow 0xfb1f 0xfb1f QcNo;
  Qrow 0xfb2a 0xfb36 QcNo;
  Qrow 0xfb38 0xfb3c QcNo;
  Qrow 0xfb3e 0xfb3e QcNo;
  Qrow 0xfb40 0xfb41 QcNo;
  Qrow 0xfb43 0xfb44 QcNo;
  Qrow 0xfb46 0xfb4e QcNo;
  Qrow 0x1d15e 0x1d164 QcNo;
  Qrow 0x1d1bb 0x1d1c0 QcNo;
  Qrow 0x2f800 0x2fa1d QcNo;
  Qrow 0x300 0x304 QcMaybe;
  Qrow 0x306 0x30c QcMaybe;
  Qrow 0x30f 0x30f QcMaybe;
  Qrow 0x311 0x311 QcMaybe;
  Qrow 0x313 0x314 QcMaybe;
  Qrow 0x31b 0x31b QcMaybe;
  Qrow 0x323 0x328 QcMaybe;
  Qrow 0x32d 0x32e QcMaybe;
  Qrow 0x330 0x331 QcMaybe;
  Qrow 0x338 0x338 QcMaybe;
  Qrow 0x342 0x342 QcMaybe;
  Qrow 0x345 0x345 QcMaybe;
  Qrow 0x653 0x655 QcMaybe;
  Qrow 0x93c 0x93c QcMaybe;
  Qrow 0x9be 0x9be QcMaybe;
  Qrow 0x9d7 0x9d7 QcMaybe;
  Qrow 0xb3e 0xb3e QcMaybe;
  Qrow 0xb56 0xb56 QcMaybe;
  Qrow 0xb57 0xb57 QcMaybe;
  Qrow 0xbbe 0xbbe QcMaybe;
  Qrow 0xbd7 0xbd7 QcMaybe;
  Qrow 0xc56 0xc56 QcMaybe;
  Qrow 0xcc2 0xcc2 QcMaybe;
  Qrow 0xcd5 0xcd6 QcMaybe;
  Qrow 0xd3e 0xd3e QcMaybe;
  Qrow 0xd57 0xd57 QcMaybe].
Definition nfcqc_rows_1 : list qrow := [
  Qrow 0xdca 0xdca QcMaybe;
  Qrow 0xdcf 0xdcf QcMaybe;
  Qrow 0xddf 0xddf QcMaybe;
  Qrow 0x102e 0x102e QcMaybe;
  Qrow 0x1161 0x1175 QcMaybe;
  Qrow 0x11a8 0x11c2 QcMaybe;
  Qrow 0x1b35 0x1b35 QcMaybe;
  Qrow 0x3099 0x309a QcMaybe;
  Qrow 0x110ba 0x110ba QcMaybe;
  Qrow 0x11127 0x11127 QcMaybe;
  Qrow 0x1133e 0x1133e QcMaybe;
  Qrow 0x11357 0x11357 QcMaybe;
  Qrow 0x114b0 0x114b0 QcMaybe;
  Qrow 0x114ba 0x114ba QcMaybe;
  Qrow 0x114bd 0x114bd QcMaybe;
  Qrow 0x115af 0x115af QcMaybe;
  Qrow 0x11930 0x11930 QcMaybe].
Definition nfcqc_rows : list qrow :=
  concat [nfcqc_rows_0; nfcqc_rows_1].
