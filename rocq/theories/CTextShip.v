(** The C files made of the data files of the distribution. *)
From Coq Require Import String Ascii Lia Permutation.
From Verif Require Import Base PunyBase DataTypes DataTr46 DataNfc DataCsv Gentr46 Gentr46Proofs Gentr46Read Gentr46Print Tr46Map Tables SpecGen GenTop
  Scan ScanProofs TextIdna TextProps TextCsv ShipIdna ShipProps ShipCsv ScanTop GenText SpecScan SpecCText CTextLex CTextTr46 CTextTop CTextData.
Local Open Scope list_scope.
Local Open Scope Z_scope.

(** Eight kinds of flags are never needed. *)
Definition all_flags : list Z := [1; 2; 4; 8; 16; 32; 64].
Definition known (e : gmap) : Prop := In (gflags e) all_flags.
Lemma index_none : forall x l i, index_of x l i = None -> ~ In x l.
Proof.
  intros x. induction l as [|y l IH]; intros i H; [intros []|]. cbn [index_of] in H. destruct (Z.eqb_spec y x); [discriminate|].
  intros [E|I]; [congruence|]. exact (IH _ H I).
Qed.
Lemma combine_total : forall ms combos, Forall known ms -> NoDup combos -> incl combos all_flags -> exists r, combine_flags ms combos = Some r.
Proof.
  induction ms as [|m ms IH]; intros combos F N I; cbn [combine_flags]; [eexists; reflexivity|]. inversion F as [|? ? K F']; subst.
  destruct (index_of (gflags m) combos 0) eqn:E.
  - destruct (IH combos F' N I) as [[a b] ->]. eexists. reflexivity.
  - apply index_none in E. assert (L : (length combos <= 7)%nat) by exact (NoDup_incl_length N I).
    replace (8 <=? zlen combos) with false by (unfold zlen; lia).
    destruct (IH (combos ++ [gflags m]) F') as [[a b] ->]; [| |eexists; reflexivity].
    + apply NoDup_Add with (a := gflags m) (l := combos); [|split; assumption].
      rewrite <- (app_nil_r combos) at 1. apply Add_app.
    + intros x X. apply in_app_iff in X. destruct X as [X|[<-|[]] ]; [apply I; exact X | exact K].
Qed.
Lemma read_rows_known : forall rs maps cnt pos acc maps' gen, read_rows rs maps cnt pos acc = Some (maps', gen) -> Forall known maps -> Forall known maps'.
Proof.
  assert (FK : forall s, In (flag_of s) all_flags) by (intros []; cbv; tauto).
  induction rs as [|r rs IH]; intros maps cnt pos acc maps' gen H K; cbn [read_rows] in H.
  - injection H as <- _. rewrite rev_append_rev, app_nil_r. apply Forall_rev. exact K.
  - destruct (read_row r maps cnt pos acc) as [[[[m2 c2] p2] a2]|] eqn:R; [|discriminate]. eapply IH; [exact H|]. clear IH H.
    unfold read_row in R. destruct (r_hi r <? r_lo r); [discriminate|].
    destruct (match maps with [] => false | p :: _ => r_lo r <=? g2 p end); [discriminate|].
    destruct (add_mapping (r_map r) 0 pos acc) as [[[p a] n]|]; [|discriminate].
    destruct (_ && _ && _ && _); [discriminate|]. destruct maps as [|x xs].
    + injection R as <- _ _ _. constructor; [apply FK | constructor].
    + pose proof (Forall_inv K) as K1. pose proof (Forall_inv_tail K) as K2. destruct (_ && _ && _ && _).
      * injection R as <- _ _ _. constructor; [exact K1 | exact K2].
      * destruct (IDNA_MAP_SIZE <=? cnt + 1); [discriminate|]. injection R as <- _ _ _. constructor; [apply FK | exact K].
Qed.
Lemma gentr46map_total : forall rows qs maps gen q, read_rows rows [] 0 0 [] = Some (maps, gen) -> read_nfcqc qs 0 = Some q ->
  exists T, gentr46map rows qs = Some T.
Proof.
  intros rows qs maps gen q R N. unfold gentr46map. rewrite R, N. apply read_rows_known in R as K; [|constructor].
  destruct (read_rows_keeps _ _ _ _ _ _ _ R) as (G & _); [constructor | constructor | reflexivity | cbv; split; congruence |].
  unfold compact. destruct (compact_loop gen (qsort by_maplen maps) []) as [ms d] eqn:E.
  apply compact_keeps in E; [|exact G|constructor]. destruct E as (_ & Y).
  destruct (combine_total (qsort by_cp ms) []) as [[a b] ->]; [|constructor|intros x []|eexists; reflexivity].
  eapply Permutation_Forall; [apply Permutation_sym, qsort_perm|].
  eapply kept_Forall; [|exact Y|].
  - intros e e' (_ & _ & X). unfold known. rewrite X. auto.
  - eapply Permutation_Forall; [apply Permutation_sym, qsort_perm | exact K].
Qed.

Lemma ship_rows : match read_rows idna_rows [] 0 0 [] with Some _ => match read_nfcqc nfcqc_rows 0 with Some _ => true | None => false end | None => false end = true.
Proof. vm_compute. reflexivity. Qed.
Lemma ship_total : exists T, gentr46map idna_rows nfcqc_rows = Some T.
Proof.
  pose proof ship_rows as H. destruct (read_rows idna_rows [] 0 0 []) as [[maps gen]|] eqn:R; [|discriminate].
  destruct (read_nfcqc nfcqc_rows 0) as [q|] eqn:N; [|discriminate]. exact (gentr46map_total _ _ _ _ _ R N).
Qed.

Lemma ship_tr46 : exists s T, gentr46map_run idna_text props_text = Ok s /\ tr46map_data_c s = Some T /\
  (forall r c, In r idna_rows -> within c r -> exists m, get_idna_map_in T c = Ok (m, 0) /\
     (forall st, map_is_in T m (tr46_flag st) = Ok true <-> r_status r = st) /\ get_map_data_in T m = Ok (r_map r) /\ m_n m = zlen (r_map r)) /\
  (forall c, 0 <= c -> (forall r, In r idna_rows -> ~ within c r) -> exists m, get_idna_map_in T c = Ok (m, -1)) /\
  (forall c,
     (forall r, In r nfcqc_rows -> in_qrow c r -> exists m, get_nfcqc_in T c = Ok (Some m) /\ match q_qc r with QcNo => nq_check m = 1 | QcMaybe => nq_check m = 2 end) /\
     ((forall r, In r nfcqc_rows -> ~ in_qrow c r) -> get_nfcqc_in T c = Ok None)).
Proof.
  destruct ship_total as (T & G). destruct shipped_rows as (R & S & Q).
  assert (X : gentr46map_text idna_text props_text = Ok T) by (apply (tables_of_text _ _ _ _ _ idna_shipped props_shipped); exact G).
  destruct (run_tr46_total idna_text props_text idna_rows T (scan_idna_file _ _ idna_shipped) R X) as (s & E & D).
  exists s, T. split; [exact E|]. split; [exact D|]. split; [exact (gen_hit _ _ _ R S Q G)|]. split; [exact (gen_miss _ _ _ R S Q G)|].
  exact (gen_qc _ _ _ R S Q G).
Qed.
Lemma ship_data : exists s, gendata_run csv_text = Ok s /\ data_c s = Some (idna_table, zlen idna_table).
Proof. apply run_data. exact shipped_idna_table. Qed.

(** From the format of the files. *)
Lemma csv_run : forall t rows, csv_file 1022 t rows -> exists s, gendata_run t = Ok s /\ data_c s = Some (gendata rows, zlen (gendata rows)).
Proof. intros t rows H. apply run_data. exact (gendata_file _ _ H). Qed.
Lemma idna_run : forall t p rows qs, idna_file 1022 t rows -> props_file 1022 p qs -> Forall row_ok rows ->
  match gentr46map rows qs with
  | Some T => exists s, gentr46map_run t p = Ok s /\ tr46map_data_c s = Some T
  | None => exists rc, gentr46map_run t p = Fail rc
  end.
Proof.
  intros t p rows qs A B R. destruct (gentr46map rows qs) as [T|] eqn:G.
  - apply (run_tr46_total t p rows T (scan_idna_file _ _ A) R). apply (tables_of_text _ _ _ _ _ A B). exact G.
  - unfold gentr46map_run. rewrite (scan_idna_file _ _ A), (scan_props_file _ _ B). cbn [bind].
    destruct (gentr46map_file rows qs) as [s|] eqn:E; [|eexists; reflexivity].
    destruct (map_file rows qs s) as (T & X & _); [|exact E|congruence].
    exact (scan_qrows _ _ (scan_props_file _ _ B)).
Qed.

(** * Cases *)
Definition run_idna : list Z := text
"00DF          ; deviation              ; 0073 0073     # 1.1  LATIN SMALL LETTER SHARP S
10000..2FFFF;valid
".
Definition run_props : list Z := text
"0340..0341    ; NFC_QC; N
".
Definition printed : list Z := text "/* This file is automatically generated.  DO NOT EDIT! */

#include <stdint.h>
#include ""tr46map.h""

static const uint8_t idna_flags[2] =
{0x8,0x1,};

static const uint8_t idna_map_8[5] = {
0xDF,0x0,0x4,0x0,0x0,
};

static const uint8_t idna_map_16[0] = {
};

static const uint8_t idna_map_24[16] = {
0x1,0x0,0x0,0xFF,0xFF,0x0,0x0,0x1,
0x2,0x0,0x0,0xFF,0xFF,0x0,0x0,0x1,
};

static const uint8_t mapdata[2] = {
0x73,0x73,};

static const NFCQCMap nfcqc_map[1] = {
{0x340,0x341,1},
};
".
Lemma run_case : gentr46map_run run_idna run_props = Ok printed /\
  tr46map_data_c printed = Some (Tr46Tables [8; 1] [0xdf; 0; 4; 0; 0] []
    [1; 0; 0; 0xff; 0xff; 0; 0; 1; 2; 0; 0; 0xff; 0xff; 0; 0; 1] [0x73; 0x73] [NfcQc 0x340 0x341 1]).
Proof. split; vm_compute; reflexivity. Qed.
Definition csv_case : list Z := text
"Codepoint,Property,Description
0000-002C,DISALLOWED,NULL..COMMA
0378-0379,UNASSIGNED,<reserved>
200C,CONTEXTJ,ZERO WIDTH NON-JOINER
".
Definition csv_printed : list Z := text "/* This file is automatically generated.  DO NOT EDIT! */

#include <config.h>
#include ""data.h""

const struct idna_table idna_table[] = {
  {0x0000, 0x002C, DISALLOWED},
  {0x200C, 0x200C, CONTEXTJ},
};
const size_t idna_table_size = 2;
".
Lemma csv_run_case : gendata_run csv_case = Ok csv_printed /\
  data_c csv_printed = Some ([IdnaEntry 0 0x2c DISALLOWED; IdnaEntry 0x200c 0x200c CONTEXTJ], 2).
Proof. split; vm_compute; reflexivity. Qed.

(** gendata does not look at what it prints. *)
Definition bad_csv : list Z := text
"Codepoint,Property,Description
U+0041,PVALID,LATIN CAPITAL LETTER A
".
Definition bad_printed : list Z := text "/* This file is automatically generated.  DO NOT EDIT! */

#include <config.h>
#include ""data.h""

const struct idna_table idna_table[] = {
  {0xU+0041, 0xU+0041, PVALID},
};
const size_t idna_table_size = 1;
".
Lemma unchecked : exists t s, gendata_run t = Ok s /\ data_c s = None.
Proof. exists bad_csv, bad_printed. split; vm_compute; reflexivity. Qed.
