(** The claims about the example programs; concrete runs and refutations. *)
From Coq Require Import String.
From Verif Require Import Base Uenv Utf8 Bidi Context Idna Puny Lookup Api Register PunyBase SpecUtf8 Utf8Proofs SpecNfc SpecLookup Cli SpecCli LookupProofs LookupTr46 NonZero NoFail
  ApiProofs RegisterProofs RegisterTop Heap SpecHeap HeapProofs HeapRun HeapApi HeapTop Version Error Client SpecClient ClientProofs ClientTop.
Lemma Ok_inj : forall A (a b : A), Ok a = Ok b -> a = b. Proof. congruence. Qed.
Local Open Scope list_scope.

(** ** The first line *)
Lemma line_full : forall l n r, ~ In 10 l -> (length l < n)%nat -> line n (l ++ 10 :: r) = l ++ [10].
Proof.
  induction l as [|x l IH]; intros n r N B; (destruct n as [|n]; [cbn in B; lia|]); cbn [app line length] in *; [reflexivity|].
  destruct (x =? 10) eqn:X; [apply Z.eqb_eq in X; exfalso; apply N; now left|]. rewrite IH; [reflexivity| |lia]. intros I. apply N. now right.
Qed.
Lemma line_open : forall l n, ~ In 10 l -> (length l <= n)%nat -> line n l = l.
Proof.
  induction l as [|x l IH]; intros n N B; [now destruct n|]. destruct n as [|n]; [cbn in B; lia|]. cbn [line length] in *.
  destruct (x =? 10) eqn:X; [apply Z.eqb_eq in X; exfalso; apply N; now left|]. rewrite IH; [reflexivity| |lia]. intros I. apply N. now right.
Qed.
Lemma c_no0 : forall s, c_string s -> ~ In 0 s.
Proof. intros s C I. unfold c_string in C. rewrite Forall_forall in C. specialize (C 0 I). lia. Qed.
Lemma chop_app : forall l x, ~ In 0 (l ++ [x]) -> chop (l ++ [x]) = Ok l.
Proof.
  intros l x N. unfold chop. rewrite (upto0_id _ N). destruct (l ++ [x]) as [|y r] eqn:X; [now destruct l|]. rewrite <- X, removelast_last. reflexivity.
Qed.
Lemma read_line : forall n l input, first_line n l input -> exists buf, fgets n input = Some buf /\ chop buf = Ok l.
Proof.
  intros n l input (C & N & B & rest & ->). exists (l ++ [10]). split.
  - unfold fgets. destruct (l ++ 10 :: rest) eqn:X; [now destruct l|]. rewrite <- X. f_equal. apply line_full; [exact N|lia].
  - apply chop_app. intros I. apply in_app_iff in I. destruct I as [I|[I|[] ] ]; [now apply (c_no0 l C)|discriminate I].
Qed.
Lemma read_unfinished : forall n l x input, unfinished_line n (l ++ [x]) input -> exists buf, fgets n input = Some buf /\ chop buf = Ok l.
Proof.
  intros n l x input (C & N & B & ->). exists (l ++ [x]). split.
  - unfold fgets. destruct (l ++ [x]) eqn:X; [now destruct l|]. rewrite <- X in *. f_equal. apply line_open; [exact N|lia].
  - apply chop_app. now apply c_no0.
Qed.
Lemma line_cut : forall l r, ~ In 10 l -> line (length l) (l ++ r) = l.
Proof.
  induction l as [|x l IH]; intros r N; [now destruct r|]. cbn [app line length].
  destruct (x =? 10) eqn:X; [apply Z.eqb_eq in X; exfalso; apply N; now left|]. rewrite IH; [reflexivity|]. intros I. apply N. now right.
Qed.
Lemma read_filled : forall n l x input, filled_line n (l ++ [x]) input -> exists buf, fgets n input = Some buf /\ chop buf = Ok l.
Proof.
  intros n l x input (C & N & B & rest & ->). exists (l ++ [x]). split.
  - unfold fgets. destruct ((l ++ [x]) ++ rest) eqn:X; [now destruct l|]. rewrite <- X. f_equal. replace (pred n) with (length (l ++ [x])) by lia. now apply line_cut.
  - apply chop_app. now apply c_no0.
Qed.
Lemma line_nul : forall l n r, ~ In 10 l -> (length l < n)%nat -> exists q, line n (l ++ 0 :: r) = l ++ 0 :: q.
Proof.
  induction l as [|x l IH]; intros n r N B; (destruct n as [|n]; [cbn in B; lia|]); cbn [app line length] in *; [eexists; reflexivity|].
  destruct (x =? 10) eqn:X; [apply Z.eqb_eq in X; exfalso; apply N; now left|]. destruct (IH n r) as (q & E); [intros I; apply N; now right|lia|]. exists q. now rewrite E.
Qed.
Lemma read_nul : forall n l x input, nul_line n (l ++ [x]) input -> exists buf, fgets n input = Some buf /\ chop buf = Ok l.
Proof.
  intros n l x input (C & N & B & rest & ->). destruct (line_nul (l ++ [x]) (pred n) rest N ltac:(lia)) as (q & E). exists ((l ++ [x]) ++ 0 :: q). split.
  - unfold fgets. destruct ((l ++ [x]) ++ 0 :: rest) eqn:X; [now destruct l|]. f_equal. exact E.
  - unfold chop. rewrite upto0_app by now apply c_no0. destruct (l ++ [x]) as [|y r] eqn:X; [now destruct l|]. rewrite <- X, removelast_last. reflexivity.
Qed.
(** The cases there are. *)
Lemma scan_line : forall m input, bytes input -> exists l, c_string l /\ ~ In 10 l /\
  (((length l < m)%nat /\ exists rest, input = l ++ 10 :: rest) \/ ((length l < m)%nat /\ exists rest, input = l ++ 0 :: rest) \/ ((length l <= m)%nat /\ input = l) \/ (length l = m /\ exists rest, input = l ++ rest)).
Proof.
  induction m as [|m IH]; intros input B.
  - exists []. split; [constructor|]. split; [intros []|]. right; right; right. split; [reflexivity|]. now exists input.
  - destruct input as [|c r]; [exists []; split; [constructor|]; split; [intros []|]; right; right; left; split; [cbn; lia|reflexivity]|].
    inversion B as [|? ? BC BR]; subst. destruct (Z.eq_dec c 10) as [->|N10]; [exists []; split; [constructor|]; split; [intros []|]; left; split; [cbn; lia|now exists r]|].
    destruct (Z.eq_dec c 0) as [->|N0]; [exists []; split; [constructor|]; split; [intros []|]; right; left; split; [cbn; lia|now exists r]|].
    destruct (IH r BR) as (l & C & N & H). exists (c :: l). split; [constructor; [lia|exact C]|]. split; [intros [Q|Q]; [now apply N10|now apply N]|].
    destruct H as [(L & rest & ->)|[(L & rest & ->)|[(L & ->)|(L & rest & ->)] ] ]; cbn [length].
    + left. split; [lia|now exists rest].
    + right; left. split; [lia|now exists rest].
    + right; right; left. split; [lia|reflexivity].
    + right; right; right. split; [lia|now exists rest].
Qed.
Lemma every_line : forall n input, (2 <= n)%nat -> bytes input -> input = [] \/ (exists rest, input = 0 :: rest) \/ (exists l, first_line n l input) \/
  exists l x, unfinished_line n (l ++ [x]) input \/ filled_line n (l ++ [x]) input \/ nul_line n (l ++ [x]) input.
Proof.
  intros n input N2 B. destruct (scan_line (pred n) input B) as (l & C & N & H). destruct H as [(L & E)|[(L & E)|[(L & E)|(L & E)] ] ].
  - right; right; left. exists l. split; [exact C|]. split; [exact N|]. split; [lia|exact E].
  - destruct l as [|y r] eqn:X; [destruct E as (rest & ->); right; left; now exists rest|]. rewrite <- X in *. assert (Q : l <> []) by (rewrite X; discriminate). destruct (exists_last Q) as (l' & x & P). clear X Q. rewrite P in C, N, L, E. right; right; right. exists l', x. right; right. split; [exact C|]. split; [exact N|]. split; [lia|exact E].
  - destruct l as [|y r] eqn:X; [left; exact E|]. rewrite <- X in *. assert (Q : l <> []) by (rewrite X; discriminate). destruct (exists_last Q) as (l' & x & P). clear X Q. rewrite P in C, N, L, E. right; right; right. exists l', x. left. split; [exact C|]. split; [exact N|]. split; [lia|exact E].
  - destruct l as [|y r] eqn:X; [cbn in L; lia|]. rewrite <- X in *. assert (Q : l <> []) by (rewrite X; discriminate). destruct (exists_last Q) as (l' & x & P). clear X Q. rewrite P in C, N, L, E. right; right; right. exists l', x. right; left. split; [exact C|]. split; [exact N|]. split; [lia|exact E].
Qed.

Section Ex.
  Variable E : allocator.
  Variable out0 : option nat.
  Variable bufsiz : nat.
  Hypothesis KE : keeps_errno E.

  (** The end of the programs: [F] and then the report. *)
  Lemma run_report : forall (F : slot -> M (Z * slot)) m (P : cell -> result) (pre : list write) (good : list Z -> write) (bd : Z -> write),
    (forall L, neat E F m L) -> (forall c, P c = deliver c m) -> (forall r, m = Ok r -> ~ In 0 r) ->
    forall h, heap_ok h ->
    exists status w h',
      (let! (rc, o) := F (Some out0) in
       if negb (rc =? IDN2_OK) then ret (1, pre ++ [bd rc])
       else let! r := show (of_slot o) in let! _ := free E (of_slot o) in ret (0, pre ++ [good r])) h = Ok (status, w, h') /\ live h' = live h /\
    ((exists r, P (Some None) = Ok (IDN2_OK, Some (Some r)) /\ status = 0 /\ w = pre ++ [good r]) \/
     (exists rc, rc <> IDN2_OK /\ status = 1 /\ w = pre ++ [bd rc] /\
        (P (Some None) = Ok (rc, Some None) \/ (rc = IDN2_MALLOC /\ ran_out E h h')))).
  Proof.
    intros F m P pre good bd N HP Z0 [L f c e] B.
    match goal with |- exists status w h', ?m0 _ = _ /\ _ =>
      assert (R : run m0 (Heap L f c e) (fun sw h' => live h' = L /\
        ((exists r, P (Some None) = Ok (IDN2_OK, Some (Some r)) /\ fst sw = 0 /\ snd sw = pre ++ [good r]) \/
         (exists rc, rc <> IDN2_OK /\ fst sw = 1 /\ snd sw = pre ++ [bd rc] /\
           (P (Some None) = Ok (rc, Some None) \/ (rc = IDN2_MALLOC /\ ran_out E (Heap L f c e) h')))))) end.
    { apply run_bind, (N L); [exact B|]. split; [|split].
      - intros r f' c' e' X. discriminate X.
      - intros r j n f' c' e' _ G1 G2 G3 M. change (negb (IDN2_OK =? IDN2_OK)) with false. cbn match. unfold show. cbn [of_slot local].
        apply run_bind, run_bind, run_ret. apply (run_cstr _ _ _ _ _ r).
        + exists r. cbn [find_block]. rewrite Nat.eqb_refl. split; [reflexivity|]. apply upto0_id. now apply Z0.
        + apply run_bind, run_free_top, run_ret. split; [reflexivity|]. left. exists r. cbn [fst snd]. rewrite HP, M. auto.
      - intros rc f' c' e' G1 G2 (NZ & V). rewrite (proj2 (Z.eqb_neq rc IDN2_OK) NZ). cbn [negb]. apply run_ret. split; [reflexivity|].
        right. exists rc. cbn [fst snd]. split; [exact NZ|]. split; [reflexivity|]. split; [reflexivity|]. destruct V as [V|V].
        + left. rewrite HP, V. reflexivity.
        + right. apply starved_honest in V; auto. }
    unfold run in R. match type of R with match ?t with _ => _ end => destruct t as [ [ [st w] h']| | |]; try contradiction end.
    exists st, w, h'. cbn [fst snd live] in *. tauto.
  Qed.

  Lemma ask_reports : forall prompt answer F m P input src buf, fgets bufsiz input = Some buf -> chop buf = Ok src ->
    (forall L, neat E (F (Caller src)) m L) -> (forall c, P c = deliver c m) -> (forall r, m = Ok r -> ~ In 0 r) ->
    reports E (ask E out0 bufsiz prompt answer F input) P [Printf Stdout prompt []] (fun r => Printf Stdout answer [Str r]) failure.
  Proof.
    intros prompt answer F m P input src buf HB HC N HP Z0 h B. unfold ask. rewrite HB.
    destruct (run_report (F (Caller src)) m P [Printf Stdout prompt []] (fun r => Printf Stdout answer [Str r]) failure N HP Z0 h B) as (st & w & h' & R & H).
    exists st, w, h'. split; [|exact H]. rewrite HC. exact R.
  Qed.
  Lemma dump_bytes : forall s, c_string s -> map (fun c => Printf Stdout "%02x " [Uint (Z.land c 255)]) s = map (fun c => Printf Stdout "%02x " [Uint c]) s.
  Proof.
    intros s C. apply map_ext_in. intros c I. unfold c_string in C. rewrite Forall_forall in C. specialize (C c I).
    change 255 with (Z.ones 8). rewrite Z.land_ones by lia. rewrite Z.mod_small; [reflexivity|]. change (2 ^ 8) with 256. lia.
  Qed.
  Lemma hex_reports : forall bad F m P input src buf, fgets bufsiz input = Some buf -> chop buf = Ok src -> c_string src ->
    (forall L, neat E (F (Caller src)) m L) -> (forall c, P c = deliver c m) -> (forall r, m = Ok r -> ~ In 0 r) ->
    reports E (ask_hex E out0 bufsiz bad F input) P (dumped src)
      (fun r => Printf Stdout "ACE label (length %ld): '%s'\n" [Long (zlen r); Str r]) (fun rc => Printf Stdout bad [Int rc; Msg (strerror rc)]).
  Proof.
    intros bad F m P input src buf HB HC C N HP Z0 h B. unfold ask_hex. rewrite HB.
    destruct (run_report (F (Caller src)) m P (dumped src) (fun r => Printf Stdout "ACE label (length %ld): '%s'\n" [Long (zlen r); Str r])
      (fun rc => Printf Stdout bad [Int rc; Msg (strerror rc)]) N HP Z0 h B) as (st & w & h' & R & H).
    exists st, w, h'. split; [|exact H]. rewrite HC. unfold hbind at 1, must. cbn [bind]. rewrite (dump_bytes src C). exact R.
  Qed.
End Ex.

Lemma reg_u_no0 : forall U u f r, c_string u -> reg_ulabel U u f = Ok r -> ~ In 0 r.
Proof.
  intros U u f r C H. unfold reg_ulabel in H. destruct (ascii_p u).
  - destruct (LABEL_MAX <? zlen u); [discriminate H|]. apply Ok_inj in H. subst r. now apply c_no0.
  - destruct (u8_to_u32_nfc _ _ _) as [l| | |]; try discriminate H. cbn [bind] in H.
    destruct (label_test _ _ _) as [[]| | |]; try discriminate H. cbn [bind] in H.
    destruct (puny_encode _ _ _) as [x| | |]; try discriminate H. cbn [bind] in H.
    destruct (_ <=? _) in H; [discriminate H|]. apply Ok_inj in H. subst r. apply upto0_no0.
Qed.
Lemma ascii_no0 : forall r, Forall (fun b => 0 < b < 128) r -> ~ In 0 r.
Proof. intros r C I. rewrite Forall_forall in C. specialize (C 0 I). lia. Qed.
Lemma c_prefix : forall l x, c_string (l ++ [x]) -> c_string l.
Proof. intros l x C. apply Forall_app in C. tauto. Qed.

Section Mains.
  Variable E : allocator.
  Variable U : uenv.
  Variable Lo : locale.
  Variable junk out0 : option nat.
  Variable j : ptr.
  Variable n : nat.
  Hypothesis KE : keeps_errno E.
  Hypothesis K : nfc_ok U.
  Hypothesis LO : locale_ok Lo.
  Variable input src buf : list Z.
  Hypothesis HB : fgets n input = Some buf.
  Hypothesis HC : chop buf = Ok src.
  Hypothesis CS : c_string src.
  Hypothesis LS : zlen src < two64.

  Lemma lookup_main : reports E (main_lookup E U Lo junk out0 n input) (fun c => idn2_lookup_ul U Lo (Some src) c 0)
    [Printf Stdout "Enter (possibly non-ASCII) domain name to lookup: " []]
    (fun r => Printf Stdout "IDNA2008 domain name to lookup in DNS: %s\n" [Str r]) failure.
  Proof.
    apply (ask_reports E out0 n KE _ _ _ (ul_out U Lo src 0) _ input src buf HB HC).
    - intros L. apply (neat_lz E U K Lo LO junk (Caller src) src 0 L). reflexivity.
    - intros c. apply f_ul.
    - intros r H. unfold ul_out in H. destruct (from_locale Lo src) as [b|] eqn:X; [|discriminate H]. apply LO in X. destruct X as (C & B).
      apply lookup_shape in H; auto. now apply ascii_no0.
  Qed.
  Lemma decode_main : (forall x s, to_locale Lo x = Some s -> c_string s) ->
    reports E (main_decode E Lo junk out0 n input) (fun c => to_unicode_lzlz Lo j (Some src) c 0)
    [Printf Stdout "Enter (possibly non-ASCII) domain name to decode: " []]
    (fun r => Printf Stdout "Decoded domain name: %s\n" [Str r]) failure.
  Proof.
    intros TL. apply (ask_reports E out0 n KE _ _ _ (lzlz_out Lo src) _ input src buf HB HC).
    - intros L. apply (neat_lzlz E Lo LO junk (Caller src) src 0 L). reflexivity.
    - intros c. apply f_lzlz.
    - intros r H. unfold lzlz_out in H. destruct (from_locale Lo src) as [b|] eqn:X; [|discriminate H].
      destruct (let* r := unicode b in utf8_out r) as [y| | |]; try discriminate H. cbn [bind] in H. unfold locale_out in H.
      destruct (to_locale Lo y) as [t|] eqn:Y; [|discriminate H]. apply Ok_inj in H. subst t. apply c_no0. now apply (TL y).
  Qed.
  Lemma register_main : reports E (main_register E U Lo junk out0 n input) (fun c => register_ul U Lo (Some src) None c 0)
    [Printf Stdout "Enter (possibly non-ASCII) label to register: " []]
    (fun r => Printf Stdout "IDNA2008 label to register in DNS: %s\n" [Str r]) failure.
  Proof.
    apply (ask_reports E out0 n KE _ _ _ (reg_u_out U Lo src 0) _ input src buf HB HC).
    - intros L. apply (neat_reg_u E U K Lo LO junk (Caller src) src 0 L). reflexivity.
    - intros c. unfold register_ul, reg_u_out. destruct (from_locale Lo src); reflexivity.
    - intros r H. unfold reg_u_out in H. destruct (from_locale Lo src) as [b|] eqn:X; [|discriminate H]. apply LO in X. destruct X as (C & B).
      now apply reg_u_no0 in H.
  Qed.
  Lemma toascii_main : reports E (main_toascii E U junk out0 n input) (fun c => to_ascii_8z U (Some src) c IDN2_NONTRANSITIONAL)
    (dumped src) (fun r => Printf Stdout "ACE label (length %ld): '%s'\n" [Long (zlen r); Str r])
    (fun rc => Printf Stdout "ToASCII() failed (%d): %s\n" [Int rc; Msg (strerror rc)]).
  Proof.
    apply (hex_reports E out0 n KE _ _ (lookup_u8 U src IDN2_NONTRANSITIONAL) _ input src buf HB HC CS).
    - intros L. apply (neat_8z E U K junk (Caller src) src IDN2_NONTRANSITIONAL L); [now split|reflexivity].
    - reflexivity.
    - intros r H. apply lookup_shape in H; auto. now apply ascii_no0.
  Qed.
  Lemma tounicode_main : reports E (main_tounicode E junk out0 n input) (fun c => to_unicode_8z8z j (Some src) c 0)
    (dumped src) (fun r => Printf Stdout "ACE label (length %ld): '%s'\n" [Long (zlen r); Str r])
    (fun rc => Printf Stdout "ToUnicode() failed (%d): %s\n" [Int rc; Msg (strerror rc)]).
  Proof.
    apply (hex_reports E out0 n KE _ _ (let* r := unicode src in utf8_out r) _ input src buf HB HC CS).
    - intros L. apply (neat_8z8z E junk (Caller src) src 0 L); [now split|reflexivity].
    - intros c. apply f_8z8z.
    - intros r H. destruct (unicode src) as [y| | |]; try discriminate H. cbn [bind] in H. unfold utf8_out in H.
      destruct (u32_to_u8 _) as [b|]; [|discriminate H]. apply Ok_inj in H. subst r. apply upto0_no0.
  Qed.
End Mains.

(** ** For the claims *)
Lemma line_small : forall n (l : list Z), (length l < n)%nat -> Z.of_nat n < two64 -> zlen l < two64.
Proof. intros n l H B. unfold zlen. lia. Qed.

Definition reports_of (E : allocator) (U : uenv) (Lo : locale) (junk out0 : option nat) (j : ptr) (n : nat) (input src : list Z) : Prop :=
  reports E (main_lookup E U Lo junk out0 n input) (fun c => idn2_lookup_ul U Lo (Some src) c 0)
    [Printf Stdout "Enter (possibly non-ASCII) domain name to lookup: " []]
    (fun r => Printf Stdout "IDNA2008 domain name to lookup in DNS: %s\n" [Str r]) failure /\
  ((forall x s, to_locale Lo x = Some s -> c_string s) -> reports E (main_decode E Lo junk out0 n input) (fun c => to_unicode_lzlz Lo j (Some src) c 0)
    [Printf Stdout "Enter (possibly non-ASCII) domain name to decode: " []]
    (fun r => Printf Stdout "Decoded domain name: %s\n" [Str r]) failure) /\
  reports E (main_register E U Lo junk out0 n input) (fun c => register_ul U Lo (Some src) None c 0)
    [Printf Stdout "Enter (possibly non-ASCII) label to register: " []]
    (fun r => Printf Stdout "IDNA2008 label to register in DNS: %s\n" [Str r]) failure /\
  reports E (main_toascii E U junk out0 n input) (fun c => to_ascii_8z U (Some src) c IDN2_NONTRANSITIONAL)
    (dumped src) (fun r => Printf Stdout "ACE label (length %ld): '%s'\n" [Long (zlen r); Str r])
    (fun rc => Printf Stdout "ToASCII() failed (%d): %s\n" [Int rc; Msg (strerror rc)]) /\
  reports E (main_tounicode E junk out0 n input) (fun c => to_unicode_8z8z j (Some src) c 0)
    (dumped src) (fun r => Printf Stdout "ACE label (length %ld): '%s'\n" [Long (zlen r); Str r])
    (fun rc => Printf Stdout "ToUnicode() failed (%d): %s\n" [Int rc; Msg (strerror rc)]).
Lemma all_mains : forall E U Lo junk out0 j n input src buf, keeps_errno E -> nfc_ok U -> locale_ok Lo ->
  fgets n input = Some buf -> chop buf = Ok src -> c_string src -> zlen src < two64 -> reports_of E U Lo junk out0 j n input src.
Proof.
  intros E U Lo junk out0 j n input src buf KE K LO HB HC C B. split; [|split; [|split; [|split] ] ].
  - now apply (lookup_main E U Lo junk out0 n KE K LO input src buf).
  - intros TL. now apply (decode_main E Lo junk out0 j n KE LO input src buf).
  - now apply (register_main E U Lo junk out0 n KE K LO input src buf).
  - now apply (toascii_main E U junk out0 n KE K input src buf).
  - now apply (tounicode_main E junk out0 j n KE input src buf).
Qed.
Lemma mains_line : forall E U Lo junk out0 j n l input, keeps_errno E -> nfc_ok U -> locale_ok Lo -> Z.of_nat n < two64 ->
  first_line n l input -> reports_of E U Lo junk out0 j n input l.
Proof.
  intros E U Lo junk out0 j n l input KE K LO B H. destruct (read_line n l input H) as (buf & HB & HC). destruct H as (C & _ & G & _).
  apply (all_mains E U Lo junk out0 j n input l buf); auto. apply (line_small n); [lia|exact B].
Qed.
Lemma mains_unfinished : forall E U Lo junk out0 j n l x input, keeps_errno E -> nfc_ok U -> locale_ok Lo -> Z.of_nat n < two64 ->
  unfinished_line n (l ++ [x]) input -> reports_of E U Lo junk out0 j n input l.
Proof.
  intros E U Lo junk out0 j n l x input KE K LO B H. destruct (read_unfinished n l x input H) as (buf & HB & HC). destruct H as (C & _ & G & _).
  apply (all_mains E U Lo junk out0 j n input l buf); auto; [now apply (c_prefix l x)|]. apply (line_small n); [|exact B].
  rewrite app_length in G. cbn in G. lia.
Qed.
Lemma mains_filled : forall E U Lo junk out0 j n l x input, keeps_errno E -> nfc_ok U -> locale_ok Lo -> Z.of_nat n < two64 ->
  filled_line n (l ++ [x]) input -> reports_of E U Lo junk out0 j n input l.
Proof.
  intros E U Lo junk out0 j n l x input KE K LO B H. destruct (read_filled n l x input H) as (buf & HB & HC). destruct H as (C & _ & G & _).
  apply (all_mains E U Lo junk out0 j n input l buf); auto; [now apply (c_prefix l x)|]. apply (line_small n); [|exact B].
  rewrite app_length in G. cbn in G. lia.
Qed.
Lemma mains_nul : forall E U Lo junk out0 j n l x input, keeps_errno E -> nfc_ok U -> locale_ok Lo -> Z.of_nat n < two64 ->
  nul_line n (l ++ [x]) input -> reports_of E U Lo junk out0 j n input l.
Proof.
  intros E U Lo junk out0 j n l x input KE K LO B H. destruct (read_nul n l x input H) as (buf & HB & HC). destruct H as (C & _ & G & _).
  apply (all_mains E U Lo junk out0 j n input l buf); auto; [now apply (c_prefix l x)|]. apply (line_small n); [|exact B].
  rewrite app_length in G. cbn in G. lia.
Qed.
Lemma mains_cut : forall E U Lo junk out0 j n l x input, keeps_errno E -> nfc_ok U -> locale_ok Lo -> Z.of_nat n < two64 ->
  unfinished_line n (l ++ [x]) input \/ filled_line n (l ++ [x]) input \/ nul_line n (l ++ [x]) input ->
  ((forall y s, to_locale Lo y = Some s -> c_string s) ->
   reports E (main_decode E Lo junk out0 n input) (fun c => to_unicode_lzlz Lo j (Some l) c 0)
     [Printf Stdout "Enter (possibly non-ASCII) domain name to decode: " []]
     (fun r => Printf Stdout "Decoded domain name: %s\n" [Str r]) failure) /\
  reports E (main_register E U Lo junk out0 n input) (fun c => register_ul U Lo (Some l) None c 0)
    [Printf Stdout "Enter (possibly non-ASCII) label to register: " []]
    (fun r => Printf Stdout "IDNA2008 label to register in DNS: %s\n" [Str r]) failure /\
  reports E (main_toascii E U junk out0 n input) (fun c => to_ascii_8z U (Some l) c IDN2_NONTRANSITIONAL)
    (dumped l) (fun r => Printf Stdout "ACE label (length %ld): '%s'\n" [Long (zlen r); Str r])
    (fun rc => Printf Stdout "ToASCII() failed (%d): %s\n" [Int rc; Msg (strerror rc)]) /\
  reports E (main_tounicode E junk out0 n input) (fun c => to_unicode_8z8z j (Some l) c 0)
    (dumped l) (fun r => Printf Stdout "ACE label (length %ld): '%s'\n" [Long (zlen r); Str r])
    (fun rc => Printf Stdout "ToUnicode() failed (%d): %s\n" [Int rc; Msg (strerror rc)]).
Proof.
  intros E U Lo junk out0 j n l x input KE K LO B [H|[H|H] ].
  - exact (proj2 (mains_unfinished E U Lo junk out0 j n l x input KE K LO B H)).
  - exact (proj2 (mains_filled E U Lo junk out0 j n l x input KE K LO B H)).
  - exact (proj2 (mains_nul E U Lo junk out0 j n l x input KE K LO B H)).
Qed.
Lemma nul_first : forall E U Lo junk out0 n rest h, (2 <= n)%nat ->
  main_lookup E U Lo junk out0 n (0 :: rest) h = Undef /\ main_decode E Lo junk out0 n (0 :: rest) h = Undef /\
  main_register E U Lo junk out0 n (0 :: rest) h = Undef /\ main_toascii E U junk out0 n (0 :: rest) h = Undef /\
  main_tounicode E junk out0 n (0 :: rest) h = Undef.
Proof. intros E U Lo junk out0 n rest h B. destruct n as [|[|n] ]; [lia|lia|]. repeat split. Qed.
Lemma no_input : forall E U Lo junk out0 n h,
  main_lookup E U Lo junk out0 n [] h = Ok (1, [Printf Stdout "Enter (possibly non-ASCII) domain name to lookup: " []; Perror], h) /\
  main_decode E Lo junk out0 n [] h = Ok (1, [Printf Stdout "Enter (possibly non-ASCII) domain name to decode: " []; Perror], h) /\
  main_register E U Lo junk out0 n [] h = Ok (1, [Printf Stdout "Enter (possibly non-ASCII) label to register: " []; Perror], h) /\
  main_toascii E U junk out0 n [] h = Undef /\ main_tounicode E junk out0 n [] h = Undef.
Proof. repeat split. Qed.
