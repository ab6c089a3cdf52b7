(** Cases for C79. *)
From Verif Require Import Base Uenv DataTypes SpecUtf8 SpecTables SpecNfc SpecLookup SpecRegister SpecToAscii SpecHost MapProofs Lookup Ucd UcdProofs HostProofs.

Ltac dot := split; [discriminate|split; [repeat constructor; intros X; cbn [In] in X; intuition congruence|reflexivity] ].

Lemma ascii_exact14 : forall s f r ls, ascii_string s -> zlen s < two64 -> opt_no_tr46 f = false -> opt_std3 f = true ->
  dotted ls (kept s) -> Forall (fun d => ~ xn d) ls ->
  (lookup_u8 ucd s f = Ok r <-> ~ bad_flags f /\ r = kept s /\ host_labels ls /\ name_fits ls r).
Proof. intros. apply (ascii_host_exact ucd ucd_nfc_ok); auto. exact ucd_ldh_mark. Qed.

(** "BÜ_cher.E" with IDN2_USE_STD3_ASCII_RULES, and with IDN2_NO_ALABEL_ROUNDTRIP too. *)
Definition shop : list Z := [66;195;156;95;99;104;101;114;46;69].
Definition shop_ace : list (list Z) := [[120;110;45;45;98;99;104;101;114;45;107;118;97]; [101]].
Lemma case_host : c_string shop /\ opt_no_tr46 32 = false /\ opt_std3 32 = true /\ opt_no_roundtrip 32 = false /\ opt_no_roundtrip 160 = true /\
  lookup_u8 ucd shop 32 = Ok (join shop_ace) /\ lookup_u8 ucd shop 160 = Ok (join shop_ace) /\ dotted shop_ace (join shop_ace).
Proof.
  split; [repeat constructor; unfold shop; lia|]. do 4 (split; [reflexivity|]). split; [vm_compute; reflexivity|]. split; [vm_compute; reflexivity|]. dot.
Qed.
(** "a_B.-c" is refused, "a_B.c" is not. *)
Lemma case_ascii_host : ascii_string [97;95;66;46;45;99] /\ kept [97;95;66;46;45;99] = [97;98;46;45;99] /\
  dotted [[97;98]; [45;99]] [97;98;46;45;99] /\ ~ host_labels [[97;98]; [45;99]] /\ lookup_u8 ucd [97;95;66;46;45;99] 32 = Fail IDN2_HYPHEN_STARTEND /\
  host_labels [[97;98]; [99]] /\ lookup_u8 ucd [97;95;66;46;99] 32 = Ok [97;98;46;99].
Proof.
  split; [repeat constructor; lia|]. split; [reflexivity|]. split; [dot|]. split.
  { intros H. inversion H as [|x y _ H2]; subst. inversion H2 as [|x y H3 _]; subst. destruct H3 as [H3|(_ & _ & _ & H3 & _)]; [discriminate|]. now apply (H3 [99]). }
  split; [vm_compute; reflexivity|]. split; [|vm_compute; reflexivity].
  constructor; [right|constructor; [right|constructor] ]; (split; [discriminate|split; [unfold zlen; cbn; lia|split; [|split; [|split] ] ] ]).
  - constructor; [unfold lower_ldh; lia|constructor; [unfold lower_ldh; lia|constructor] ].
  - discriminate.
  - intros [|a [|b [|c r] ] ]; discriminate.
  - discriminate.
  - constructor; [unfold lower_ldh; lia|constructor].
  - discriminate.
  - intros [|a [|b r] ]; discriminate.
  - discriminate.
Qed.

(** Characters against the STD3 rules are dropped, not refused: "a_b" gives "ab". *)
Lemma std3_drops : exists src r, In 95 src /\ c_string src /\ lookup_u8 ucd src IDN2_USE_STD3_ASCII_RULES = Ok r.
Proof. exists [97;95;98], [97;98]. split; [cbn; auto|]. split; [repeat constructor; lia|vm_compute; reflexivity]. Qed.
Lemma not_ldh : forall d c, In c d -> ~ lower_ldh c -> ~ (d = [] \/ host_label d).
Proof. intros d c I N [->|(_ & _ & H & _)]; [destruct I|]. rewrite Forall_forall in H. auto. Qed.
(** Without the flag "a_b" stays; without TR46 the flag does nothing, "-a" and "a_b" stay. *)
Lemma flag_needed : exists src f r ds, c_string src /\ opt_no_tr46 f = false /\ lookup_u8 ucd src f = Ok r /\ dotted ds r /\ ~ host_labels ds.
Proof.
  exists [97;95;98], 0, [97;95;98], [[97;95;98]]. split; [repeat constructor; lia|]. split; [reflexivity|]. split; [vm_compute; reflexivity|]. split; [dot|].
  intros H. apply Forall_inv in H. revert H. apply (not_ldh _ 95); [cbn; auto|unfold lower_ldh; lia].
Qed.
Lemma tr46_needed : exists src f r ds, c_string src /\ opt_std3 f = true /\ lookup_u8 ucd src f = Ok r /\ dotted ds r /\ ~ host_labels ds.
Proof.
  exists [97;95;98], 96, [97;95;98], [[97;95;98]]. split; [repeat constructor; lia|]. split; [reflexivity|]. split; [vm_compute; reflexivity|]. split; [dot|].
  intros H. apply Forall_inv in H. revert H. apply (not_ldh _ 95); [cbn; auto|unfold lower_ldh; lia].
Qed.
(** Empty labels are let through: "a..b". *)
Lemma empty_label : exists src r ds, c_string src /\ lookup_u8 ucd src IDN2_USE_STD3_ASCII_RULES = Ok r /\ dotted ds r /\ ~ Forall host_label ds.
Proof.
  exists [97;46;46;98], [97;46;46;98], [[97]; []; [98]]. split; [repeat constructor; lia|]. split; [vm_compute; reflexivity|]. split; [dot|].
  intros H. apply Forall_inv_tail, Forall_inv in H. destruct H as (H & _). now apply H.
Qed.
