(** tr46map_data.c, read as C, declares the arrays of Gentr46.v. *)
From Coq Require Import String Ascii Lia Permutation.
From Verif Require Import Base PunyBase DataTypes Gentr46 Gentr46Proofs Gentr46Print Tables Scan GenText SpecScan SpecCText CTextLex.
Local Open Scope list_scope.
Local Open Scope Z_scope.

Definition hx (x : Z) : list ctoken := [CWord (hexw (fmt_X x)); comma].
Definition hx2 (x : Z) : list ctoken := [CWord (hexw (fmt_02X x)); comma].
Definition ubyte (x : Z) : Prop := 0 <= x < 256.

Lemma hexw_ne : forall l, hexw l <> [].
Proof. discriminate. Qed.
Lemma lexes_comma : lexes [44] [comma].
Proof. intro r. reflexivity. Qed.
Lemma lexes_NL : lexes NL [].
Proof. intro r. reflexivity. Qed.
Lemma lexes_hex : forall ds, wordly (hexw ds) -> lexes (text "0x" ++ ds ++ text ",") [CWord (hexw ds); comma].
Proof.
  intros ds W. change (text "0x" ++ ds ++ text ",") with (hexw ds ++ 44 :: []).
  apply lexes_word; [assumption | apply hexw_ne | reflexivity | apply lexes_comma].
Qed.
Lemma lexes_pX : forall x, 0 <= x -> lexes (pX x) (hx x).
Proof. intros x Hx. apply lexes_hex, const_hex, Hx. Qed.

Lemma lexes_flags : forall l, Forall ubyte l -> lexes (flags_text l) (flat_map hx l).
Proof. intros l F. apply lexes_flat_map. intros a I. rewrite Forall_forall in F. apply lexes_pX. apply F in I. unfold ubyte in I. lia. Qed.

Lemma lexes_entry : forall max m a b, lexes (entry_text max m a b) (flat_map hx (print_entry max m a b)).
Proof.
  intros. assert (B : forall x n, 0 <= n -> lexes (pX (byte x n)) (hx (byte x n))).
  { intros. apply lexes_pX. pose proof (byte_range x n H). lia. }
  unfold entry_text, print_entry. rewrite flat_map_app. apply lexes_app.
  - destruct (max =? 0xff); [|destruct (max =? 0xffff)]; cbn [flat_map]; rewrite app_nil_r; repeat apply lexes_app; apply B; lia.
  - cbn [flat_map]. repeat apply lexes_app; try (apply B; lia). apply lexes_NL.
Qed.
Lemma lexes_chunks : forall n max m a, lexes (chunks_text n max m a) (flat_map hx (print_chunks n max m a)).
Proof.
  induction n as [|n IH]; intros; cbn [chunks_text print_chunks]; [apply lexes_entry|].
  rewrite flat_map_app. apply lexes_app; [apply lexes_entry | apply IH].
Qed.
Lemma lexes_map : forall min max ms, lexes (map_text min max ms) (flat_map hx (print_map min max ms)).
Proof.
  induction ms as [|m ms IH]; cbn [map_text print_map]; [apply lexes_nil|].
  destruct (g1 m <? min); [exact IH|]. destruct (max <? g1 m); [apply lexes_nil|].
  rewrite flat_map_app. apply lexes_app; [apply lexes_chunks | exact IH].
Qed.
Lemma lexes_mapdata : forall d it, Forall ubyte d -> lexes (mapdata_text it d) (flat_map hx2 d).
Proof.
  induction d as [|b d IH]; intros it F; [apply lexes_nil|]. inversion F as [|? ? Fb Fd]; subst. cbn [mapdata_text flat_map].
  rewrite !app_assoc. rewrite <- !app_assoc. rewrite (app_assoc (fmt_02X b)), (app_assoc (text "0x")).
  apply lexes_app; [apply lexes_hex, const_02; unfold ubyte in Fb; lia|].
  change (flat_map hx2 d) with ([] ++ flat_map hx2 d). apply lexes_app; [|apply IH; exact Fd].
  destruct (it =? 15); [apply lexes_NL | apply lexes_nil].
Qed.
Definition q_tokens (q : nfcqc) : list ctoken :=
  [open; CWord (hexw (fmt_X (nq1 q))); comma; CWord (hexw (fmt_X (nq2 q))); comma; CWord (fmt_d (nq_check q)); close; comma].
Definition q_fits (q : nfcqc) : Prop := 0 <= nq1 q < 2 ^ 32 /\ 0 <= nq2 q < 2 ^ 32 /\ 0 <= nq_check q < 128.
Lemma lexes_nfcqc : forall l, Forall q_fits l -> lexes (nfcqc_text l) (flat_map q_tokens l).
Proof.
  intros l F. apply lexes_flat_map. intros q I. rewrite Forall_forall in F. destruct (F _ I) as (A & B & C).
  destruct (const_hex (nq1 q) ltac:(lia)) as [_ W1]. destruct (const_hex (nq2 q) ltac:(lia)) as [_ W2].
  destruct (const_dec (nq_check q) ltac:(lia)) as (_ & W3 & N3).
  unfold q_tokens.
  change (text "{0x" ++ fmt_X (nq1 q) ++ text ",0x" ++ fmt_X (nq2 q) ++ text "," ++ fmt_d (nq_check q) ++ text "}," ++ NL)
    with ([123] ++ hexw (fmt_X (nq1 q)) ++ 44 :: hexw (fmt_X (nq2 q)) ++ 44 :: fmt_d (nq_check q) ++ 125 :: [44; 10]).
  apply (lexes_app [123] _ [open]); [intro r; reflexivity|].
  apply lexes_word; [exact W1 | apply hexw_ne | reflexivity |].
  apply (lexes_app [44] _ [comma]); [apply lexes_comma|].
  apply lexes_word; [exact W2 | apply hexw_ne | reflexivity |].
  apply (lexes_app [44] _ [comma]); [apply lexes_comma|].
  apply lexes_word; [exact W3 | exact N3 | reflexivity |].
  intro r. reflexivity.
Qed.

(** * Reading the lists *)
Lemma below_ok : forall n w v, constant w = Some v -> v < n -> below n w = Some v.
Proof. intros n w v H L. unfold below. rewrite H. replace (v <? n) with true by lia. reflexivity. Qed.
Lemma numbers_ok : forall f n l r, (forall b, In b l -> constant (f b) = Some b /\ b < n) ->
  numbers n (flat_map (fun b => [CWord (f b); comma]) l ++ close :: r) = Some (l, r).
Proof.
  intros f n. induction l as [|b l IH]; intros r H; [reflexivity|].
  destruct (H b (or_introl eq_refl)) as [C L]. cbn [flat_map app]. unfold comma at 1. cbn [numbers].
  rewrite (below_ok _ _ _ C L). change (44 =? 125) with false. change (44 =? 44) with true. cbn iota.
  rewrite IH; [reflexivity|]. intros x I. apply H. right. exact I.
Qed.
Lemma numbers_hx : forall l r, Forall ubyte l -> u8s (flat_map hx l ++ close :: r) = Some (l, r).
Proof. intros l r F. apply (numbers_ok (fun b => hexw (fmt_X b))). intros b I. rewrite Forall_forall in F. destruct (F _ I). split; [apply const_hex|]; lia. Qed.
Lemma numbers_hx2 : forall l r, Forall ubyte l -> u8s (flat_map hx2 l ++ close :: r) = Some (l, r).
Proof. intros l r F. apply (numbers_ok (fun b => hexw (fmt_02X b))). intros b I. rewrite Forall_forall in F. destruct (F _ I). split; [apply const_02|]; lia. Qed.
Lemma triples_ok : forall {A B} (member : list Z -> list Z -> list Z -> option A) (wa wb wc : B -> list Z) (val : B -> A) l r,
  (forall q, In q l -> member (wa q) (wb q) (wc q) = Some (val q)) ->
  triples member (flat_map (fun q => [open; CWord (wa q); comma; CWord (wb q); comma; CWord (wc q); close; comma]) l ++ close :: CPunct 59 :: r)
    = Some (map val l, CPunct 59 :: r).
Proof.
  intros A B member wa wb wc val. induction l as [|q l IH]; intros r H; [reflexivity|].
  cbn [flat_map app map]. unfold open at 1, comma at 1 2 3, close at 1. cbn [triples].
  change ((123 =? 123) && (44 =? 44) && (44 =? 44) && (125 =? 125)) with true. cbn iota.
  rewrite (H q (or_introl eq_refl)). change (44 =? 125) with false. change (44 =? 44) with true. cbn iota.
  rewrite IH; [reflexivity|]. intros x I. apply H. right. exact I.
Qed.
Lemma triples_nfcqc : forall l r, Forall q_fits l -> triples nfcqc_of (flat_map q_tokens l ++ close :: CPunct 59 :: r) = Some (l, CPunct 59 :: r).
Proof.
  intros l r F. rewrite <- (map_id l) at 2.
  apply (triples_ok nfcqc_of (fun q => hexw (fmt_X (nq1 q))) (fun q => hexw (fmt_X (nq2 q))) (fun q => fmt_d (nq_check q)) (fun q => q)).
  intros q I. rewrite Forall_forall in F. destruct (F _ I) as (A & B & C). unfold nfcqc_of.
  rewrite (below_ok (2 ^ 32) _ (nq1 q)); [|apply const_hex; lia|lia].
  rewrite (below_ok (2 ^ 32) _ (nq2 q)); [|apply const_hex; lia|lia].
  rewrite (below_ok 128 _ (nq_check q)); [|apply const_dec; lia|lia].
  destruct q; reflexivity.
Qed.

(** * Declarations *)
Lemma eqb_bytes_refl : forall a, eqb_bytes a a = true.
Proof. induction a; [reflexivity|]. cbn [eqb_bytes]. rewrite Z.eqb_refl. exact IHa. Qed.
Lemma eqb_token_refl : forall a, eqb_token a a = true.
Proof. destruct a; cbn [eqb_token]; try apply eqb_bytes_refl. apply Z.eqb_refl. Qed.
Lemma after_app : forall a r, after a (a ++ r) = Some r.
Proof. induction a; intros; [reflexivity|]. cbn [app after]. rewrite eqb_token_refl. apply IHa. Qed.

Definition opening (decl : string) (n : Z) : list ctoken := (words decl ++ [CPunct 91]) ++ CWord (fmt_d n) :: words "] = {".
Lemma array_ok : forall {A} decl (elements : list ctoken -> option (list A * list ctoken)) vs body r,
  elements (body ++ close :: CPunct 59 :: r) = Some (vs, CPunct 59 :: r) ->
  array decl elements ((opening decl (zlen vs) ++ body ++ [close; CPunct 59]) ++ r) = Some (vs, r).
Proof.
  intros A decl elements vs body r H. unfold array, opening.
  rewrite <- !app_assoc. rewrite (app_assoc (words decl)). rewrite after_app. cbn [app].
  destruct (const_dec (zlen vs) ltac:(unfold zlen; lia)) as (-> & _).
  rewrite after_app. cbn [app]. rewrite H, Z.eqb_refl. reflexivity.
Qed.

(** * Sizes *)
Definition width (max : Z) : Z := if max =? 0xff then 5 else if max =? 0xffff then 7 else 8.
Lemma entry_len : forall max m a b, zlen (print_entry max m a b) = width max.
Proof. intros. unfold print_entry, width. destruct (max =? 0xff); [reflexivity|]. destruct (max =? 0xffff); reflexivity. Qed.
Lemma chunks_len : forall n max m a, zlen (print_chunks n max m a) = width max * Z.of_nat (S n).
Proof. induction n as [|n IH]; intros; cbn [print_chunks]; [rewrite entry_len; lia|]. rewrite zlen_app, entry_len, IH. lia. Qed.
Lemma entries_len : forall min max ms k, zlen (print_map min max ms) = width max * (map_entries min max ms k - k).
Proof.
  induction ms as [|m ms IH]; intros k; cbn [print_map map_entries]; [rewrite zlen_nil; lia|].
  destruct (g1 m <? min); [apply IH|]. destruct (max <? g1 m); [rewrite zlen_nil; lia|].
  rewrite zlen_app, chunks_len, (IH (k + Z.of_nat (S (Z.to_nat ((g2 m - g1 m) / 0x10000))))). lia.
Qed.
Lemma size_len : forall min max ms n, max = 0xff \/ max = 0xffff \/ max = 0xffffff -> map_size min max ms = Some n -> n = zlen (print_map min max ms).
Proof.
  intros min max ms n M H. rewrite (entries_len min max ms 0). unfold map_size in H.
  destruct (0x7fffffff <? _); [discriminate|]. injection H as <-. unfold width. destruct M as [-> | [-> | ->] ]; cbn [Z.eqb Pos.eqb]; lia.
Qed.
Lemma print_bytes : forall min max ms, Forall ubyte (print_map min max ms).
Proof.
  assert (B : forall x n, 0 <= n -> ubyte (byte x n)) by (intros; apply byte_range; assumption).
  assert (E : forall max m a b, Forall ubyte (print_entry max m a b)).
  { intros. unfold print_entry. apply Forall_app. split; [destruct (max =? 0xff); [|destruct (max =? 0xffff)]|]; repeat constructor; apply B; lia. }
  assert (C : forall n max m a, Forall ubyte (print_chunks n max m a)).
  { induction n as [|n IH]; intros; cbn [print_chunks]; [apply E|]. apply Forall_app. split; [apply E | apply IH]. }
  induction ms as [|m ms IH]; cbn [print_map]; [constructor|].
  destruct (g1 m <? min); [exact IH|]. destruct (max <? g1 m); [constructor|]. apply Forall_app. split; [apply C | exact IH].
Qed.

(** * The file *)
Lemma lexes_array : forall head sep decl n body ts,
  lexes head (words decl ++ [CPunct 91]) -> lexes sep (words "= {") -> 0 <= n -> lexes body ts ->
  lexes (head ++ fmt_d n ++ text "]" ++ sep ++ body ++ text "};" ++ NL) (opening decl n ++ ts ++ [close; CPunct 59]).
Proof.
  intros head sep decl n body ts H1 H2 Hn H3. unfold opening. rewrite <- app_assoc. apply lexes_app; [exact H1|].
  cbn [app]. destruct (const_dec n Hn) as (_ & W & N).
  change (text "]" ++ sep ++ body ++ text "};" ++ NL) with (93 :: sep ++ body ++ text "};" ++ NL).
  apply lexes_word; [exact W | exact N | reflexivity |].
  change (words "] = {") with ([CPunct 93] ++ words "= {"). rewrite <- app_assoc.
  apply (lexes_app [93] _ [CPunct 93]); [intro r; reflexivity|].
  apply lexes_app; [exact H2|]. apply lexes_app; [exact H3|]. intro r. reflexivity.
Qed.
Lemma lexes_cons : forall s1 s2 ts, lexes s1 [] -> lexes s2 ts -> lexes (s1 ++ s2) ts.
Proof. intros s1 s2 ts. exact (lexes_app s1 s2 [] ts). Qed.

Definition includes : list ctoken :=
  [CDirective (bytes_of "include <stdint.h>"); CDirective (bytes_of "include " ++ quoted "tr46map.h")].
Definition header : list Z :=
  text "/* This file is automatically generated.  DO NOT EDIT! */" ++ NL ++ NL ++
  text "#include <stdint.h>" ++ NL ++ text "#include " ++ Q ++ text "tr46map.h" ++ Q ++ NL ++ NL.
Lemma lexes_header : lexes header includes.
Proof. intro r. reflexivity. Qed.

Lemma tr46_file : forall maps data combos q s, tr46map_data maps data combos q = Some s ->
  Forall ubyte data -> Forall ubyte combos -> Forall q_fits q ->
  tr46map_data_c s = Some (Tr46Tables combos (print_map 0 0xff maps) (print_map 0x100 0xffff maps) (print_map 0x10000 0xffffff maps) data q).
Proof.
  intros maps data combos q s H D C F. unfold tr46map_data in H.
  destruct (map_size 0 0xff maps) as [n8|] eqn:S8; [|discriminate].
  destruct (map_size 0x100 0xffff maps) as [n16|] eqn:S16; [|discriminate].
  destruct (map_size 0x10000 0xffffff maps) as [n24|] eqn:S24; [|discriminate].
  apply size_len in S8; [|tauto]. apply size_len in S16; [|tauto]. apply size_len in S24; [|tauto].
  assert (P : forall {A} (l : list A), 0 <= zlen l) by (intros; unfold zlen; lia).
  set (m8 := print_map 0 0xff maps) in *. set (m16 := print_map 0x100 0xffff maps) in *. set (m24 := print_map 0x10000 0xffffff maps) in *.
  assert (L : lexes s (includes ++
    (opening "static const uint8_t idna_flags" (zlen combos) ++ flat_map hx combos ++ [close; CPunct 59]) ++
    (opening "static const uint8_t idna_map_8" (zlen m8) ++ flat_map hx m8 ++ [close; CPunct 59]) ++
    (opening "static const uint8_t idna_map_16" (zlen m16) ++ flat_map hx m16 ++ [close; CPunct 59]) ++
    (opening "static const uint8_t idna_map_24" (zlen m24) ++ flat_map hx m24 ++ [close; CPunct 59]) ++
    (opening "static const uint8_t mapdata" (zlen data) ++ flat_map hx2 data ++ [close; CPunct 59]) ++
    (opening "static const NFCQCMap nfcqc_map" (zlen q) ++ flat_map q_tokens q ++ [close; CPunct 59]))).
  { apply (f_equal (fun o => match o with Some x => x | None => [] end)) in H. cbn beta iota in H. rewrite <- H. clear H.
    match goal with |- lexes ?x _ => replace x with (header ++
      (text "static const uint8_t idna_flags[" ++ fmt_d (zlen combos) ++ text "]" ++ (text " =" ++ NL ++ text "{") ++ flags_text combos ++ text "};" ++ NL) ++ NL ++
      (text "static const uint8_t idna_map_8[" ++ fmt_d n8 ++ text "]" ++ (text " = {" ++ NL) ++ map_text 0 0xff maps ++ text "};" ++ NL) ++ NL ++
      (text "static const uint8_t idna_map_16[" ++ fmt_d n16 ++ text "]" ++ (text " = {" ++ NL) ++ map_text 0x100 0xffff maps ++ text "};" ++ NL) ++ NL ++
      (text "static const uint8_t idna_map_24[" ++ fmt_d n24 ++ text "]" ++ (text " = {" ++ NL) ++ map_text 0x10000 0xffffff maps ++ text "};" ++ NL) ++ NL ++
      (text "static const uint8_t mapdata[" ++ fmt_d (zlen data) ++ text "]" ++ (text " = {" ++ NL) ++ mapdata_text 0 data ++ text "};" ++ NL) ++ NL ++
      (text "static const NFCQCMap nfcqc_map[" ++ fmt_d (zlen q) ++ text "]" ++ (text " = {" ++ NL) ++ nfcqc_text q ++ text "};" ++ NL)) end.
    2: { unfold header. rewrite <- !app_assoc.
         change (text "] =" ++ NL ++ text "{" ++ flags_text combos ++ ?x) with (text "]" ++ text " =" ++ NL ++ text "{" ++ flags_text combos ++ x). reflexivity. }
    subst n8 n16 n24.
    apply lexes_app; [apply lexes_header|].
    apply lexes_app; [apply lexes_array; [intro r; reflexivity | intro r; reflexivity | apply P | apply lexes_flags; exact C]|].
    apply lexes_cons; [apply lexes_NL|].
    apply lexes_app; [apply lexes_array; [intro r; reflexivity | intro r; reflexivity | apply P | apply lexes_map]|].
    apply lexes_cons; [apply lexes_NL|].
    apply lexes_app; [apply lexes_array; [intro r; reflexivity | intro r; reflexivity | apply P | apply lexes_map]|].
    apply lexes_cons; [apply lexes_NL|].
    apply lexes_app; [apply lexes_array; [intro r; reflexivity | intro r; reflexivity | apply P | apply lexes_map]|].
    apply lexes_cons; [apply lexes_NL|].
    apply lexes_app; [apply lexes_array; [intro r; reflexivity | intro r; reflexivity | apply P | apply lexes_mapdata; exact D]|].
    apply lexes_cons; [apply lexes_NL|].
    apply lexes_array; [intro r; reflexivity | intro r; reflexivity | apply P | apply lexes_nfcqc; exact F]. }
  unfold tr46map_data_c. rewrite (lexes_all _ _ L).
  change [CDirective (bytes_of "include <stdint.h>"); CDirective (bytes_of "include " ++ quoted "tr46map.h")] with includes.
  rewrite after_app.
  rewrite (array_ok "static const uint8_t idna_flags" u8s combos) by (apply numbers_hx; exact C).
  rewrite (array_ok "static const uint8_t idna_map_8" u8s m8) by (apply numbers_hx, print_bytes).
  rewrite (array_ok "static const uint8_t idna_map_16" u8s m16) by (apply numbers_hx, print_bytes).
  rewrite (array_ok "static const uint8_t idna_map_24" u8s m24) by (apply numbers_hx, print_bytes).
  rewrite (array_ok "static const uint8_t mapdata" u8s data) by (apply numbers_hx2; exact D).
  match goal with |- context [array _ _ ?x] => replace x with (x ++ []) by apply app_nil_r end.
  rewrite (array_ok "static const NFCQCMap nfcqc_map" (triples nfcqc_of) q) by (apply triples_nfcqc; exact F).
  reflexivity.
Qed.
