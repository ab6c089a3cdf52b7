(** UTF-8 conversion facts. *)
From Verif Require Import Base PunyBase Utf8 SpecUtf8.

Ltac bdest := repeat match goal with
  | H : (_ && _) = true |- _ => apply andb_true_iff in H; destruct H
  | H : (_ || _) = true |- _ => apply orb_true_iff in H
  end.

Lemma utf8_char_scalar : forall c bs, utf8_char c bs -> scalar c.
Proof. intros c bs H. inversion H; subst; auto; unfold scalar; lia. Qed.

Lemma divmod64 : forall a b, 0 <= b < 64 -> (64 * a + b) / 64 = a /\ (64 * a + b) mod 64 = b.
Proof.
  intros a b H. rewrite (Z.mul_comm 64 a), Z.add_comm.
  rewrite Z.div_add, Z.mod_add by lia. rewrite Z.div_small, Z.mod_small by lia. lia.
Qed.

Lemma uctomb_complete : forall c bs, utf8_char c bs -> u8_uctomb c = Some bs.
Proof.
  intros c bs H. inversion H; subst; unfold u8_uctomb.
  - destruct (c <? 0) eqn:E1; zb; [lia|]. destruct (c <? 128) eqn:E2; zb; [reflexivity|lia].
  - destruct (64 * a + b <? 0) eqn:E1; zb; [lia|]. destruct (_ <? 128) eqn:E2; zb; [lia|].
    destruct (_ <? 2048) eqn:E3; zb; [|lia]. destruct (divmod64 a b); [lia|]. congruence.
  - set (v := 4096 * a + 64 * b + c0) in *.
    assert (V : v = 64 * (64 * a + b) + c0) by (unfold v; lia).
    destruct (divmod64 (64 * a + b) c0) as [D1 D2]; [lia|]. rewrite <- V in D1, D2.
    destruct (divmod64 a b) as [D3 D4]; [lia|].
    assert (D5 : v / 4096 = a).
    { change 4096 with (64 * 64). rewrite <- Z.div_div by lia. rewrite D1. auto. }
    destruct (v <? 0) eqn:E1; zb; [lia|]. destruct (v <? 128) eqn:E2; zb; [lia|].
    destruct (v <? 2048) eqn:E3; zb; [lia|]. destruct (v <? 65536) eqn:E4; zb; [|lia].
    destruct ((55296 <=? v) && (v <? 57344)) eqn:E5; [bdest; zb; unfold scalar in *; lia|].
    rewrite D5, D1, D2, D4. reflexivity.
  - set (v := 262144 * a + 4096 * b + 64 * c0 + d) in *.
    assert (V : v = 64 * (64 * (64 * a + b) + c0) + d) by (unfold v; lia).
    destruct (divmod64 (64 * (64 * a + b) + c0) d) as [D1 D2]; [lia|]. rewrite <- V in D1, D2.
    destruct (divmod64 (64 * a + b) c0) as [D3 D4]; [lia|].
    destruct (divmod64 a b) as [D5 D6]; [lia|].
    assert (D7 : v / 4096 = 64 * a + b).
    { change 4096 with (64 * 64). rewrite <- Z.div_div by lia. rewrite D1. auto. }
    assert (D8 : v / 262144 = a).
    { change 262144 with (4096 * 64). rewrite <- Z.div_div by lia. rewrite D7. auto. }
    destruct (v <? 0) eqn:E1; zb; [lia|]. destruct (v <? 128) eqn:E2; zb; [lia|].
    destruct (v <? 2048) eqn:E3; zb; [lia|]. destruct (v <? 65536) eqn:E4; zb; [lia|].
    destruct (v <? 1114112) eqn:E5; zb; [|unfold scalar in *; lia].
    rewrite D8, D7, D1, D2, D4, D6. reflexivity.
Qed.

Lemma uctomb_sound : forall c bs, u8_uctomb c = Some bs -> utf8_char c bs.
Proof.
  intros c bs H. unfold u8_uctomb in H.
  destruct (c <? 0) eqn:E1; zb; [discriminate|]. destruct (c <? 128) eqn:E2; zb.
  { inversion H; subst. constructor. lia. }
  pose proof (Z.div_mod c 64 ltac:(lia)) as M1. pose proof (Z.mod_pos_bound c 64 ltac:(lia)) as M2.
  assert (P1 : 0 <= c / 64) by (apply Z.div_pos; lia).
  destruct (c <? 2048) eqn:E3; zb.
  { inversion H; subst. set (a := c / 64) in *. set (b := c mod 64) in *.
    replace c with (64 * a + b) at 1 by lia. constructor; lia. }
  pose proof (Z.div_mod (c / 64) 64 ltac:(lia)) as M3. pose proof (Z.mod_pos_bound (c / 64) 64 ltac:(lia)) as M4.
  assert (P2 : 0 <= c / 64 / 64) by (apply Z.div_pos; lia).
  assert (D1 : c / 4096 = c / 64 / 64) by (change 4096 with (64 * 64); rewrite <- Z.div_div by lia; reflexivity).
  destruct (c <? 65536) eqn:E4; zb.
  { destruct ((55296 <=? c) && (c <? 57344)) eqn:E5; [discriminate|].
    inversion H; subst. rewrite D1. set (a := c / 64 / 64) in *. set (b := (c / 64) mod 64) in *. set (d := c mod 64) in *.
    assert (Hc : c = 4096 * a + 64 * b + d) by lia. rewrite Hc at 1.
    constructor; try lia. rewrite <- Hc. apply andb_false_iff in E5. unfold scalar. destruct E5; zb; lia. }
  destruct (c <? 1114112) eqn:E5; zb; [|discriminate].
  pose proof (Z.div_mod (c / 64 / 64) 64 ltac:(lia)) as M5. pose proof (Z.mod_pos_bound (c / 64 / 64) 64 ltac:(lia)) as M6.
  assert (P3 : 0 <= c / 64 / 64 / 64) by (apply Z.div_pos; lia).
  assert (D2 : c / 262144 = c / 64 / 64 / 64).
  { change 262144 with (64 * 64 * 64). rewrite <- !Z.div_div by lia. reflexivity. }
  inversion H; subst. rewrite D1, D2.
  set (a := c / 64 / 64 / 64) in *. set (b := (c / 64 / 64) mod 64) in *. set (d := (c / 64) mod 64) in *. set (e := c mod 64) in *.
  assert (Hc : c = 262144 * a + 4096 * b + 64 * d + e) by lia. rewrite Hc at 1.
  constructor; try lia. rewrite <- Hc. unfold scalar. lia.
Qed.

Lemma u32_to_u8_iff : forall l s, u32_to_u8 l = Some s <-> utf8 l s.
Proof.
  intros l. induction l as [|c l IH]; intros s; cbn [u32_to_u8]; split; intros H.
  - inversion H. constructor.
  - inversion H. reflexivity.
  - destruct (u8_uctomb c) eqn:E1; [|discriminate]. destruct (u32_to_u8 l) eqn:E2; [|discriminate].
    inversion H; subst. constructor; [now apply uctomb_sound|now apply IH].
  - inversion H; subst. rewrite (uctomb_complete c bs) by auto. apply IH in H4. rewrite H4. reflexivity.
Qed.

Lemma scalar_char : forall c, scalar c -> exists bs, u8_uctomb c = Some bs.
Proof.
  intros c H. unfold u8_uctomb, scalar in *.
  destruct (c <? 0) eqn:E1; zb; [lia|]. destruct (c <? 128) eqn:E2; [eauto|]. destruct (c <? 2048) eqn:E3; [eauto|].
  destruct (c <? 65536) eqn:E4.
  - destruct ((55296 <=? c) && (c <? 57344)) eqn:E5; eauto. bdest. zb. lia.
  - destruct (c <? 1114112) eqn:E5; eauto. zb. lia.
Qed.
Lemma u32_to_u8_total : forall l, Forall scalar l -> exists s, u32_to_u8 l = Some s.
Proof.
  induction 1 as [|c l Hc Hl (s & IH)]; cbn [u32_to_u8]; eauto.
  destruct (scalar_char c Hc) as (bs & E). rewrite E, IH. eauto.
Qed.
Lemma u32_to_u8_scalar : forall l s, u32_to_u8 l = Some s -> Forall scalar l.
Proof.
  intros l s H. apply u32_to_u8_iff in H. induction H; constructor; auto.
  now apply utf8_char_scalar in H.
Qed.
Lemma u32_to_u8_bytes : forall l s, u32_to_u8 l = Some s -> bytes s.
Proof.
  intros l s H. apply u32_to_u8_iff in H. induction H; [constructor|]. apply Forall_app. split; [|exact IHutf8].
  inversion H; subst; repeat constructor; try lia; unfold scalar in *; lia.
Qed.

(** Decoding. *)
Lemma cont_iff : forall b, cont b = true <-> 128 <= b < 192.
Proof. intros b. unfold cont. rewrite andb_true_iff, Z.leb_le, Z.ltb_lt. tauto. Qed.

Lemma u8_to_u32_char : forall c bs s, utf8_char c bs -> u8_to_u32 (bs ++ s) = ocons c (u8_to_u32 s).
Proof.
  intros c bs s H. inversion H; subst; cbn [app u8_to_u32].
  - destruct (c <? 128) eqn:E; zb; [reflexivity|lia].
  - destruct (192 + a <? 128) eqn:E1; zb; [lia|]. destruct (192 + a <? 194) eqn:E2; zb; [lia|].
    destruct (192 + a <? 224) eqn:E3; zb; [|lia].
    assert (C : cont (128 + b) = true) by (apply cont_iff; lia). rewrite C.
    f_equal. lia.
  - destruct (224 + a <? 128) eqn:E1; zb; [lia|]. destruct (224 + a <? 194) eqn:E2; zb; [lia|].
    destruct (224 + a <? 224) eqn:E3; zb; [lia|]. destruct (224 + a <? 240) eqn:E4; zb; [|lia].
    assert (C1 : cont (128 + b) = true) by (apply cont_iff; lia).
    assert (C2 : cont (128 + c0) = true) by (apply cont_iff; lia). rewrite C1, C2. cbn [andb].
    assert (C3 : ((225 <=? 224 + a) || (160 <=? 128 + b)) = true).
    { apply orb_true_iff. rewrite !Z.leb_le. lia. }
    assert (C4 : (negb (224 + a =? 237) || (128 + b <? 160)) = true).
    { apply orb_true_iff. rewrite negb_true_iff, Z.eqb_neq, Z.ltb_lt. unfold scalar in *. lia. }
    rewrite C3, C4. cbn [andb]. f_equal. lia.
  - destruct (240 + a <? 128) eqn:E1; zb; [lia|]. destruct (240 + a <? 194) eqn:E2; zb; [lia|].
    destruct (240 + a <? 224) eqn:E3; zb; [lia|]. destruct (240 + a <? 240) eqn:E4; zb; [lia|].
    destruct (240 + a <? 245) eqn:E5; zb; [|unfold scalar in *; lia].
    assert (C1 : cont (128 + b) = true) by (apply cont_iff; lia).
    assert (C2 : cont (128 + c0) = true) by (apply cont_iff; lia).
    assert (C2' : cont (128 + d) = true) by (apply cont_iff; lia). rewrite C1, C2, C2'. cbn [andb].
    assert (C3 : ((241 <=? 240 + a) || (144 <=? 128 + b)) = true).
    { apply orb_true_iff. rewrite !Z.leb_le. lia. }
    assert (C4 : ((240 + a <? 244) || (128 + b <? 144)) = true).
    { apply orb_true_iff. rewrite !Z.ltb_lt. unfold scalar in *. lia. }
    rewrite C3, C4. cbn [andb]. f_equal. lia.
Qed.

Lemma u8_to_u32_complete : forall l s, utf8 l s -> u8_to_u32 s = Some l.
Proof.
  induction 1; [reflexivity|]. rewrite (u8_to_u32_char c) by auto. rewrite IHutf8. reflexivity.
Qed.

Lemma ocons_some : forall x o l, ocons x o = Some l -> exists m, o = Some m /\ l = x :: m.
Proof. intros x [m|] l H; inversion H; eauto. Qed.

Lemma u8_to_u32_sound : forall n s l, (length s <= n)%nat -> bytes s -> u8_to_u32 s = Some l -> utf8 l s.
Proof.
  induction n as [|n IH]; intros s l Hn Hb H.
  { destruct s; [|cbn in Hn; lia]. inversion H. constructor. }
  destruct s as [|c r]; [inversion H; constructor|].
  inversion Hb as [|? ? B0 Hb']; subst. cbn [u8_to_u32] in H. cbn [length] in Hn.
  destruct (c <? 128) eqn:E1; zb.
  { apply ocons_some in H. destruct H as (m & H & ->). apply (utf8_cons c [c]); [constructor; lia|]. apply IH; auto. lia. }
  destruct (c <? 194) eqn:E2; zb; [discriminate|].
  destruct (c <? 224) eqn:E3; zb.
  { destruct r as [|c1 r1]; [discriminate|]. destruct (cont c1) eqn:C1; [|discriminate].
    apply cont_iff in C1. apply ocons_some in H. destruct H as (m & H & ->).
    inversion Hb' as [|? ? B1 Hb'']; subst. cbn [length] in Hn.
    replace ((c - 192) * 64 + (c1 - 128)) with (64 * (c - 192) + (c1 - 128)) by lia.
    replace (c :: c1 :: r1) with ([192 + (c - 192); 128 + (c1 - 128)] ++ r1)
      by (cbn [app]; f_equal; [lia|f_equal; lia]).
    constructor; [constructor; lia|]. apply IH; auto. lia. }
  destruct (c <? 240) eqn:E4; zb.
  { destruct r as [|c1 [|c2 r2]]; try discriminate.
    destruct (_ && _) eqn:C; [|discriminate]. bdest. apply cont_iff in H0, H3.
    apply ocons_some in H. destruct H as (m & H & ->).
    inversion Hb' as [|? ? B1 Hb'']; subst. inversion Hb'' as [|? ? B2 Hb3]; subst. cbn [length] in Hn.
    assert (Q1 : 225 <= c \/ 160 <= c1) by (destruct H2; zb; auto).
    assert (Q2 : c <> 237 \/ c1 < 160) by (destruct H1 as [H1|H1]; [left|right]; [apply negb_true_iff in H1|]; zb; auto).
    replace ((c - 224) * 4096 + (c1 - 128) * 64 + (c2 - 128)) with (4096 * (c - 224) + 64 * (c1 - 128) + (c2 - 128)) by lia.
    replace (c :: c1 :: c2 :: r2) with ([224 + (c - 224); 128 + (c1 - 128); 128 + (c2 - 128)] ++ r2)
      by (cbn [app]; f_equal; [lia|f_equal; [lia|f_equal; lia]]).
    constructor; [constructor; try lia|]. unfold scalar. lia. apply IH; auto. lia. }
  destruct (c <? 245) eqn:E5; zb; [|discriminate].
  destruct r as [|c1 [|c2 [|c3 r3]]]; try discriminate.
  destruct (_ && _) eqn:C; [|discriminate]. bdest. apply cont_iff in H0, H3, H4.
  apply ocons_some in H. destruct H as (m & H & ->).
  inversion Hb' as [|? ? B1 Hb'']; subst. inversion Hb'' as [|? ? B2 Hb3]; subst. inversion Hb3 as [|? ? B3 Hb4]; subst. cbn [length] in Hn.
  assert (Q1 : 241 <= c \/ 144 <= c1) by (destruct H2; zb; auto).
  assert (Q2 : c < 244 \/ c1 < 144) by (destruct H1; zb; auto).
  replace ((c - 240) * 262144 + (c1 - 128) * 4096 + (c2 - 128) * 64 + (c3 - 128))
    with (262144 * (c - 240) + 4096 * (c1 - 128) + 64 * (c2 - 128) + (c3 - 128)) by lia.
  replace (c :: c1 :: c2 :: c3 :: r3) with ([240 + (c - 240); 128 + (c1 - 128); 128 + (c2 - 128); 128 + (c3 - 128)] ++ r3)
    by (cbn [app]; f_equal; [lia|f_equal; [lia|f_equal; [lia|f_equal; lia]]]).
  constructor; [constructor; try lia|]. unfold scalar. lia. apply IH; auto. lia.
Qed.

Lemma u8_to_u32_iff : forall s l, bytes s -> (u8_to_u32 s = Some l <-> utf8 l s).
Proof.
  intros s l Hb. split; [apply (u8_to_u32_sound (length s)); auto|apply u8_to_u32_complete].
Qed.

Lemma u8_u32_u8 : forall s l, bytes s -> u8_to_u32 s = Some l -> u32_to_u8 l = Some s.
Proof. intros s l Hb H. apply u32_to_u8_iff. now apply u8_to_u32_iff. Qed.
Lemma u32_u8_u32 : forall s l, u32_to_u8 l = Some s -> u8_to_u32 s = Some l.
Proof. intros s l H. apply u8_to_u32_complete. now apply u32_to_u8_iff. Qed.

Lemma u8_to_u32_app : forall l1 s1 s2, u8_to_u32 s1 = Some l1 -> bytes s1 ->
  u8_to_u32 (s1 ++ s2) = match u8_to_u32 s2 with Some l2 => Some (l1 ++ l2) | None => None end.
Proof.
  intros l1 s1 s2 H Hb. apply u8_to_u32_iff in H; auto. clear Hb. revert s2. induction H; intros s2.
  - cbn. destruct (u8_to_u32 s2); reflexivity.
  - rewrite <- app_assoc, (u8_to_u32_char c) by auto. rewrite IHutf8.
    destruct (u8_to_u32 s2); reflexivity.
Qed.
Lemma u32_to_u8_app : forall l1 l2, u32_to_u8 (l1 ++ l2) =
  match u32_to_u8 l1, u32_to_u8 l2 with Some a, Some b => Some (a ++ b) | _, _ => None end.
Proof.
  induction l1 as [|c l1 IH]; intros l2; cbn [app u32_to_u8].
  - destruct (u32_to_u8 l2); reflexivity.
  - rewrite IH. destruct (u8_uctomb c); [|reflexivity].
    destruct (u32_to_u8 l1); [|reflexivity]. destruct (u32_to_u8 l2); [|reflexivity].
    now rewrite app_assoc.
Qed.

Definition ascii (s : list Z) : Prop := Forall (fun b => 0 <= b < 128) s.
Lemma u8_to_u32_ascii : forall s, ascii s -> u8_to_u32 s = Some s.
Proof.
  induction 1 as [|c s Hc Hs IH]; [reflexivity|]. cbn [u8_to_u32].
  destruct (c <? 128) eqn:E; zb; [|lia]. rewrite IH. reflexivity.
Qed.
Lemma u32_to_u8_ascii : forall s, ascii s -> u32_to_u8 s = Some s.
Proof.
  intros s H. apply u8_u32_u8; [|now apply u8_to_u32_ascii].
  eapply Forall_impl; [|exact H]. cbv beta. lia.
Qed.
