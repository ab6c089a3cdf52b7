(** Functions of the model without an error exit. *)
From Verif Require Import Base Uenv DataTypes Bsearch Tables Gentr46 Tr46Map Utf8 Bidi Context Idna Puny Lookup Api.

Definition nf {A} (m : out A) : Prop := forall rc, m <> Fail rc.
Lemma nf_bind : forall A B (m : out A) (f : A -> out B), nf m -> (forall a, nf (f a)) -> nf (bind m f).
Proof. intros A B [a|rc| |] f H G; cbn [bind]; [apply G| | |]; intros r; try discriminate. intros E. now apply (H rc). Qed.
Lemma nf_ok : forall A (a : A), nf (Ok a). Proof. intros A a rc. discriminate. Qed.
Lemma nf_undef : forall A, nf (@Undef A). Proof. intros A rc. discriminate. Qed.
Lemma nf_nofuel : forall A, nf (@NoFuel A). Proof. intros A rc. discriminate. Qed.
Create HintDb nf.
#[export] Hint Resolve nf_ok nf_undef nf_nofuel : nf.
Ltac nft := repeat first
  [ progress auto with nf
  | match goal with
    | |- nf (bind _ _) => apply nf_bind; [|intros]
    | |- nf (match ?x with _ => _ end) => destruct x
    | |- nf (let '(_, _) := ?x in _) => destruct x
    end ].
Lemma nf_rd : forall l i, nf (rd l i). Proof. intros. unfold rd. nft. Qed.
Lemma nf_elem : forall A (t : list A) i, nf (elem t i). Proof. intros. unfold elem. nft. Qed.
#[export] Hint Resolve nf_rd nf_elem : nf.
Lemma nf_bsearch_loop : forall fuel cmp lo hi, (forall i, nf (cmp i)) -> nf (bsearch_loop fuel cmp lo hi).
Proof. induction fuel as [|f IH]; intros cmp lo hi H; cbn [bsearch_loop]; nft. Qed.
Lemma nf_bsearch : forall cmp n, (forall i, nf (cmp i)) -> nf (bsearch cmp n).
Proof. intros. unfold bsearch. now apply nf_bsearch_loop. Qed.
Lemma nf_fill_value : forall a b p, nf (fill_value a b p). Proof. intros. unfold fill_value. nft. Qed.
#[export] Hint Resolve nf_fill_value : nf.
Lemma nf_fill_map : forall c p, nf (fill_map c p). Proof. intros. unfold fill_map. nft. Qed.
#[export] Hint Resolve nf_fill_map : nf.
Lemma nf_search_map : forall c t n, nf (search_map c t n).
Proof. intros. unfold search_map. apply nf_bind; [apply nf_bsearch; intros; unfold compare_idna_map; nft|intros; nft]. Qed.
#[export] Hint Resolve nf_search_map : nf.
Lemma nf_get_idna_map : forall c, nf (get_idna_map c). Proof. intros. unfold get_idna_map, get_idna_map_in. nft. Qed.
Lemma nf_map_is : forall m f, nf (map_is m f). Proof. intros. unfold map_is, map_is_in. nft. Qed.
Lemma nf_stream_cp : forall s cp, nf (stream_cp s cp). Proof. induction s; intros; cbn [stream_cp]; nft. Qed.
#[export] Hint Resolve nf_stream_cp nf_get_idna_map nf_map_is : nf.
Lemma nf_stream_cps : forall n s, nf (stream_cps n s). Proof. induction n; intros; cbn [stream_cps]; nft. Qed.
#[export] Hint Resolve nf_stream_cps : nf.
Lemma nf_get_map_data : forall m, nf (get_map_data m). Proof. intros. unfold get_map_data, get_map_data_in. nft. Qed.
Lemma nf_get_nfcqc_map : forall c, nf (get_nfcqc_map c).
Proof. intros. unfold get_nfcqc_map, get_nfcqc_in. apply nf_bind; [apply nf_bsearch; intros; nft|intros; nft]. Qed.
#[export] Hint Resolve nf_get_map_data nf_get_nfcqc_map : nf.
Lemma nf_tr46_map : forall cap f l x, nf (tr46_map cap f l x).
Proof. intros cap f l. induction l as [|c l IH]; intros x; cbn [tr46_map]; [nft|]. unfold tr46_map1. nft. Qed.
Lemma nf_isNFC : forall U l, nf (isNFC U l).
Proof.
  intros U l. unfold isNFC. generalize false. generalize 0 at 1. generalize 1.
  induction l as [|c l IH]; intros r x b; cbn [isNFC_loop]; cbv zeta; nft.
Qed.
Lemma nf_copy_to : forall d s n, nf (copy_to d s n). Proof. intros. unfold copy_to. nft. Qed.
Lemma nf_put : forall c o x, nf (put c o x). Proof. intros. unfold put. nft. Qed.

