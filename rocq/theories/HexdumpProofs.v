(** Proofs about the debug output of the command line tool. *)
From Coq Require Import String.
From Verif Require Import Base Uenv SpecUtf8 Utf8 Utf8Proofs SpecLookup LookupProofs MapProofs SpecCText CTextLex Lookup Api Scan GenText Cli SpecCli Hexdump SpecHexdump.
Local Open Scope list_scope.
Local Open Scope Z_scope.

Lemma word_range : forall base fuel x acc, 2 <= base <= 16 -> 0 <= x -> Forall (fun c => 48 <= c <= 57 \/ 65 <= c <= 70) acc -> Forall (fun c => 48 <= c <= 57 \/ 65 <= c <= 70) (digits_aux fuel base x acc).
Proof.
  intros base. induction fuel as [|fuel IH]; intros x acc Hb Hx F; [exact F|]. cbn [digits_aux].
  assert (Hm : 0 <= x mod base < base) by (apply Z.mod_pos_bound; lia).
  assert (F' : Forall (fun c => 48 <= c <= 57 \/ 65 <= c <= 70) (digit_char (x mod base) :: acc)).
  { constructor; [|exact F]. unfold digit_char. destruct (Z.ltb_spec (x mod base) 10); lia. }
  destruct (x <? base); [exact F'|]. apply IH; [lia | apply Z.div_pos; lia | exact F'].
Qed.
Lemma lower_value : forall base ds v, Forall (fun c => 48 <= c <= 57 \/ 65 <= c <= 70) ds -> value base (map c_tolower ds) v = value base ds v.
Proof.
  intros base ds v F. revert v. induction F as [|c r H F IH]; intros v; [reflexivity|]. cbn [map value].
  replace (digit_value (c_tolower c)) with (digit_value c).
  - destruct (digit_value c <? base); [apply IH | reflexivity].
  - unfold c_tolower. destruct ((65 <=? c) && (c <=? 90)) eqn:E; [|reflexivity]. unfold digit_value.
    repeat match goal with |- context [if ?b then _ else _] => let K := fresh in destruct b eqn:K end; lia.
Qed.
Lemma zeros_value : forall base n ds, 0 < base -> value base (repeat 48 n ++ ds) 0 = value base ds 0.
Proof.
  intros base n ds B. induction n as [|n IH]; [reflexivity|]. cbn [repeat app value]. change (digit_value 48) with 0.
  replace (0 <? base) with true by lia. now rewrite Z.mul_0_r.
Qed.

Lemma numeral_x : forall w x, (1 <= w)%nat -> 0 <= x -> numeral 16 (Z.of_nat w) x (fmt_0x w x).
Proof.
  intros w x W Hx. unfold fmt_0x. destruct (digits_spec 16 x ltac:(lia) Hx) as (c & ds & E & V & _ & N & S1 & _).
  assert (R : Forall (fun c => 48 <= c <= 57 \/ 65 <= c <= 70) (digits 16 x)) by (apply word_range; [lia | lia | constructor]).
  split; [|split].
  - apply Forall_app. split; [apply Forall_forall; intros y I; apply repeat_spec in I; lia|].
    apply Forall_map. eapply Forall_impl; [|exact R]. cbv beta. intros a A. unfold c_tolower. destruct ((65 <=? a) && (a <=? 90)) eqn:Q; lia.
  - rewrite zeros_value, lower_value by (lia || assumption). now rewrite E.
  - rewrite E. cbn [map length]. unfold zlen. rewrite app_length, repeat_length. cbn [length]. rewrite map_length.
    destruct (Nat.le_gt_cases (S (List.length ds)) w) as [K|K]; [left; lia | right]. split; [lia|].
    replace (w - S (List.length ds))%nat with 0%nat by lia. cbn [repeat app]. exists (c_tolower c), (map c_tolower ds). split; [reflexivity|].
    assert (x <> 0) by (intros ->; rewrite S1 in K by lia; cbn in K; lia).
    intro Q. apply (N H). unfold c_tolower in Q. destruct ((65 <=? c) && (c <=? 90)) eqn:QQ; lia.
Qed.
Lemma ten_range : forall fuel x acc, 0 <= x -> Forall (fun c => 48 <= c <= 57) acc -> Forall (fun c => 48 <= c <= 57) (digits_aux fuel 10 x acc).
Proof.
  induction fuel as [|fuel IH]; intros x acc Hx F; [exact F|]. cbn [digits_aux].
  assert (Hm : 0 <= x mod 10 < 10) by (apply Z.mod_pos_bound; lia).
  assert (F' : Forall (fun c => 48 <= c <= 57) (digit_char (x mod 10) :: acc)).
  { constructor; [|exact F]. unfold digit_char. destruct (Z.ltb_spec (x mod 10) 10); lia. }
  destruct (x <? 10); [exact F'|]. apply IH; [apply Z.div_pos; lia | exact F'].
Qed.
Lemma numeral_d : forall x, 0 <= x -> numeral 10 1 x (fmt_d x).
Proof.
  intros x Hx. unfold fmt_d. split; [|split].
  - eapply Forall_impl; [|apply ten_range; [exact Hx | constructor]]. cbv beta. intros a A. lia.
  - destruct (digits_spec 10 x ltac:(lia) Hx) as (c & ds & -> & V & _). exact V.
  - destruct (digits_spec 10 x ltac:(lia) Hx) as (c & ds & -> & V & _ & N & S1 & _). unfold zlen. cbn [length].
    destruct (Nat.eq_dec (List.length ds) 0) as [K|K]; [left; lia | right]. split; [lia|]. exists c, ds. split; [reflexivity|].
    apply N. intros ->. rewrite S1 in K by lia. now apply K.
Qed.

Lemma loop_lines : forall pre hd w arg l i, (1 <= w)%nat -> 0 <= i -> Forall (fun c => 0 <= c /\ arg c = c) l ->
  dump_lines pre hd (Z.of_nat w) i l (dump_loop pre hd w arg i l).
Proof.
  intros pre hd w arg. induction l as [|c l IH]; intros i W I F; [constructor|]. cbn [dump_loop]. inversion F as [|? ? [C A] F']; subst.
  rewrite A. constructor; [now apply numeral_d | now apply numeral_x | apply IH; [exact W | lia | exact F']].
Qed.

Lemma schar_byte : forall b, 0 <= b <= 255 -> to_unsigned (Z.land (schar b) 0xFF) = b.
Proof.
  intros b B. unfold to_unsigned, schar. change 0xFF with (Z.ones 8). rewrite Z.land_ones by lia.
  destruct (Z.ltb_spec b 128); [rewrite (Z.mod_small b) by lia; apply Z.mod_small; lia|].
  replace (b - 256) with (b + (-1) * 2 ^ 8) by lia. rewrite Z_mod_plus_full, (Z.mod_small b) by lia. apply Z.mod_small. lia.
Qed.
Lemma uchar_byte : forall b, 0 <= b <= 255 -> to_unsigned (Z.land b 0xFF) = b.
Proof.
  intros b B. unfold to_unsigned. change 0xFF with (Z.ones 8). rewrite Z.land_ones by lia. rewrite (Z.mod_small b) by lia. apply Z.mod_small. lia.
Qed.
Lemma utf8_codes : forall l s, utf8 l s -> Forall (fun c => 0 <= c) l.
Proof. induction 1 as [|c bs l s C U IH]; constructor; auto. inversion C; subst; unfold scalar in *; lia. Qed.

Lemma dump_text : forall L pre s, locale_ok L -> c_string s -> dump_of L pre s (hexdump L pre s).
Proof.
  intros L pre s K C. unfold dump_of, hexdump.
  assert (T1 : dump_lines pre (text "0x") 2 0 s (dump_loop pre (text "0x") 2 (fun b => to_unsigned (Z.land (schar b) 0xFF)) 0 s)).
  { apply (loop_lines pre (text "0x") 2); [lia | lia |]. eapply Forall_impl; [|exact C]. cbv beta. intros b B. split; [lia | apply schar_byte; lia]. }
  destruct (from_locale L s) as [u|] eqn:E.
  - destruct (K s u E) as [Cu _].
    eexists _, _, _. split; [reflexivity|]. split; [exact T1|]. unfold eq_string. split; [|split; [|split]].
    + intros ->. destruct (list_eq_dec Z.eq_dec s s); [reflexivity | contradiction].
    + intros N. destruct (list_eq_dec Z.eq_dec s u) as [Q|_]; [symmetry in Q; contradiction|].
      apply (loop_lines _ (text "0x") 2); [lia | lia |]. eapply Forall_impl; [|exact Cu]. cbv beta. intros b B. split; [lia | apply uchar_byte; lia].
    + intros l Hl. rewrite (u8_to_u32_complete l u Hl). apply (loop_lines _ (text "U+") 4); [lia | lia |].
      eapply Forall_impl; [|exact (utf8_codes l u Hl)]. cbv beta. tauto.
    + intros N. destruct (u8_to_u32 u) as [l|] eqn:El; [|reflexivity]. exfalso. apply N. exists l.
      apply u8_to_u32_iff; [now apply c_string_bytes | exact El].
  - exists (dump_loop pre (text "0x") 2 (fun b => to_unsigned (Z.land (schar b) 0xFF)) 0 s), [], []. rewrite !app_nil_r. auto.
Qed.

(** *** Reading it back *)
Lemma until : forall (P : Z -> Prop) x a a' r r', Forall P a -> Forall P a' -> ~ P x -> a ++ x :: r = a' ++ x :: r' -> a = a' /\ r = r'.
Proof.
  intros P x. induction a as [|c a IH]; intros [|c' a'] r r' F F' N E; cbn [app] in E.
  - inversion E. auto.
  - inversion E; subst. inversion F'; contradiction.
  - inversion E; subst. inversion F; contradiction.
  - inversion E; subst. inversion F; inversion F'; subst. destruct (IH a' r r') as [-> ->]; auto.
Qed.
(** A text goes on with line [i]. *)
Definition goes_on (pre : list Z) (i : Z) (t : list Z) : Prop := exists ni r, numeral 10 1 i ni /\ t = pre ++ [91] ++ ni ++ [93] ++ r.
Lemma number_fun : forall b w w' x y d d', numeral b w x d -> numeral b w' y d' -> d = d' -> x = y.
Proof. intros b w w' x y d d' (_ & V & _) (_ & V' & _) ->. congruence. Qed.
Lemma lines_on : forall pre hd w i c l t r, dump_lines pre hd w i (c :: l) t -> goes_on pre i (t ++ r).
Proof.
  intros pre hd w i c l t r H. inversion H; subst. exists ni. eexists. split; [eassumption|]. change (text "] = ") with ([93] ++ [32; 61; 32]).
  rewrite <- !app_assoc. reflexivity.
Qed.
Lemma lines_back : forall pre hd w i s t, dump_lines pre hd w i s t -> forall s' t' r r', dump_lines pre hd w i s' t' ->
  (forall j, j = i + zlen s -> ~ goes_on pre j r) -> (forall j, j = i + zlen s' -> ~ goes_on pre j r') -> t ++ r = t' ++ r' -> s = s' /\ r = r'.
Proof.
  induction 1 as [i|i c l ni nc t Ni Nc T IH]; intros s' t' r r' T' G G' E.
  - destruct s' as [|c' l']; [inversion T'; subst; auto|]. exfalso. apply (G i); [unfold zlen; cbn [length]; lia|]. cbn [app] in E. rewrite E. eapply lines_on. exact T'.
  - destruct s' as [|c' l'].
    { exfalso. inversion T'; subst. apply (G' i); [unfold zlen; cbn [length]; lia|]. cbn [app] in E. rewrite <- E. eapply lines_on. constructor; eassumption. }
    inversion T' as [|? ? ? ni' nc' t2 Ni' Nc' T2]; subst. change (text "] = ") with ([93] ++ [32; 61; 32]) in E. rewrite <- !app_assoc in E.
    apply app_inv_head in E. apply app_inv_head in E. cbn [app] in E.
    destruct (until (fun c => 48 <= c <= 57 \/ 97 <= c <= 102) 93 ni ni' _ _ (proj1 Ni) (proj1 Ni') ltac:(cbv beta; lia) E) as [-> E1].
    injection E1 as E1. apply app_inv_head in E1.
    destruct (until (fun c => 48 <= c <= 57 \/ 97 <= c <= 102) 10 nc nc' _ _ (proj1 Nc) (proj1 Nc') ltac:(cbv beta; lia) E1) as [-> E2].
    destruct (IH l' t2 r r' T2) as [-> ->]; [| |exact E2|].
    + intros j ->. apply G. unfold zlen. cbn [length]. lia.
    + intros j ->. apply G'. unfold zlen. cbn [length]. lia.
    + split; [|reflexivity]. f_equal. exact (number_fun 16 w w c c' nc' nc' Nc Nc' eq_refl).
Qed.
Lemma goes_head : forall pre i t, pre <> [] -> goes_on pre i t -> hd 0 t = hd 0 pre.
Proof. intros pre i t N (ni & r & _ & ->). destruct pre; [congruence | reflexivity]. Qed.
Lemma goes_index : forall pre i j t, goes_on pre i t -> goes_on pre j t -> i = j.
Proof.
  intros pre i j t (ni & r & N & E) (nj & r' & N' & E'). rewrite E in E'. apply app_inv_head in E'. apply app_inv_head in E'. cbn [app] in E'.
  destruct (until (fun c => 48 <= c <= 57 \/ 97 <= c <= 102) 93 ni nj _ _ (proj1 N) (proj1 N') ltac:(cbv beta; lia) E') as [-> _].
  exact (number_fun 10 1 1 i j nj nj N N' eq_refl).
Qed.
