(** The fallback and dynamic memory. *)
From Verif Require Import Base Uenv PunyBase SpecUtf8 SpecNfc SpecLookup Lookup LookupTr46 Api Heap SpecHeap HeapProofs HeapRun HeapApi HeapTop Fallback FallbackProofs.

Section Mem.
  Variable E : allocator.
  Variable U : uenv.
  Hypothesis K : nfc_ok U.

  Lemma lookup_does : forall junk s flags, c_string s -> zlen s < two64 -> does E (fun o => m_to_ascii_8z E U junk (Some (Caller s)) o flags) (lookup_u8 U s flags).
  Proof.
    intros junk s flags C B. split; [now apply lookup_safe|]. intros. apply (wp_lookup_u8 E U _ _ s); auto; [reflexivity|now apply lookup_safe].
  Qed.
  Lemma fallback_does : forall junk s, c_string s -> zlen s < two64 -> does E (m_to_ascii_fallback E U junk (Some (Caller s))) (fallback U s).
  Proof.
    intros junk s C B. destruct (lookup_does junk s NT C B) as (S1 & D1). destruct (lookup_does junk s TR C B) as (S2 & D2). split.
    - unfold fallback. destruct (lookup_u8 U s NT) as [r|rc| |]; auto. destruct (rc =? IDN2_DISALLOWED); [exact S2|exact I].
    - intros o L f c e Q BL T. unfold m_to_ascii_fallback. apply run_bind. apply D1; [exact BL|].
      split; [|split].
      + intros r f' c' e' -> G1 G2 M. apply run_ret. destruct T as (T & _). apply (T r); auto. unfold fallback. rewrite M. reflexivity.
      + intros r j n f' c' e' -> G1 G2 G3 M. apply run_ret. destruct T as (_ & T & _). apply (T r j); auto. unfold fallback. rewrite M. reflexivity.
      + intros rc f' c' e' G1 G2 (N & V). destruct (Z.eqb_spec rc IDN2_DISALLOWED) as [X|X].
        * subst rc. assert (M : lookup_u8 U s NT = Fail IDN2_DISALLOWED).
          { destruct V as [V|[(n & _ & _ & V)|(n & _ & _ & [V|[V|V] ])] ]; [exact V|discriminate..]. }
          apply D2; [apply (below_mono L f); auto|]. apply (takes_later E _ _ _ f c); auto.
          replace (lookup_u8 U s TR) with (fallback U s); [exact T|]. unfold fallback. rewrite M. reflexivity.
        * apply run_ret. destruct T as (_ & _ & T). apply T; auto. split; [exact N|]. destruct V as [V|V]; [left|right; exact V].
          unfold fallback. rewrite V. apply Z.eqb_neq in X. rewrite X. reflexivity.
  Qed.
  Lemma fallback_frugal : forall junk s, keeps_errno E -> c_string s -> zlen s < two64 ->
    frugal E (m_to_ascii_fallback E U junk (Some (Caller s))) (to_ascii_fallback U (Some s)).
  Proof. intros junk s KE C B. eapply does_frugal; [exact KE|now apply fallback_does|]. intros c. apply fallback_api. Qed.
  Lemma fallback_tidy : forall junk s, c_string s -> zlen s < two64 -> tidy (m_to_ascii_fallback E U junk (Some (Caller s))).
  Proof. intros junk s C B. eapply does_tidy. now apply fallback_does. Qed.
End Mem.
