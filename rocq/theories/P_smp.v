(** Proofs about the SMP toolbox and the choice of the pairing method. *)
Require Import Verif.Base Verif.M_smp Verif.S_smp.

Lemma len_is_eq : forall n b, len_is n b = true <-> length b = n.
Proof. intros n b. unfold len_is. apply Nat.eqb_eq. Qed.
Lemma len_is_rev : forall n b, len_is n (rev b) = len_is n b.
Proof. intros n b. unfold len_is. now rewrite rev_length. Qed.

Section T.
Variable C : prims.
Variable HC : prims_ok C.

Lemma cmac_len : forall k m, length (cmac C k m) = 16%nat.
Proof. apply HC. Qed.
Lemma aes_len : forall k m, length (aes C k m) = 16%nat.
Proof. apply HC. Qed.

Lemma aesCMAC_16 : forall k m, length k = 16%nat -> aesCMAC C k m = Some (rev (cmac C (rev k) (rev m))).
Proof. intros k m H. unfold aesCMAC, aes_key_ok, len_is. now rewrite H. Qed.

Lemma F4_spec : forall u v x z, length u = 32%nat -> length v = 32%nat -> length x = 16%nat ->
  smpF4 C u v x z = Some (rev (f4 C (rev u) (rev v) (rev x) z)).
Proof.
  intros u v x z Hu Hv Hx. unfold smpF4, len_is. rewrite Hu, Hv, Hx. cbn [andb Nat.eqb].
  rewrite aesCMAC_16 by assumption. unfold f4. rewrite !rev_app_distr, <- app_assoc. reflexivity.
Qed.

Lemma F5_spec : forall w n1 n2 a1 a2, length w = 32%nat -> length n1 = 16%nat -> length n2 = 16%nat ->
  length a1 = 7%nat -> length a2 = 7%nat ->
  smpF5 C w n1 n2 a1 a2 =
  Some (rev (f5_mackey C (rev w) (rev n1) (rev n2) (rev a1) (rev a2)), rev (f5_ltk C (rev w) (rev n1) (rev n2) (rev a1) (rev a2))).
Proof.
  intros w n1 n2 a1 a2 Hw H1 H2 H3 H4. unfold smpF5, len_is. rewrite Hw, H1, H2, H3, H4. cbn [andb Nat.eqb].
  rewrite (aesCMAC_16 f5_salt) by reflexivity.
  rewrite !aesCMAC_16 by (rewrite rev_length; apply cmac_len).
  unfold f5_mackey, f5_ltk, f5, f5_msg. rewrite !rev_involutive.
  rewrite !rev_app_distr, <- !app_assoc. reflexivity.
Qed.

Lemma F6_spec : forall w n1 n2 r io a1 a2, length w = 16%nat -> length n1 = 16%nat -> length n2 = 16%nat ->
  length r = 16%nat -> length io = 3%nat -> length a1 = 7%nat -> length a2 = 7%nat ->
  smpF6 C w n1 n2 r io a1 a2 = Some (rev (f6 C (rev w) (rev n1) (rev n2) (rev r) (rev io) (rev a1) (rev a2))).
Proof.
  intros w n1 n2 r io a1 a2 Hw H1 H2 H3 H4 H5 H6. unfold smpF6, len_is. rewrite Hw, H1, H2, H3, H4, H5, H6.
  cbn [andb Nat.eqb]. rewrite aesCMAC_16 by assumption. unfold f6.
  rewrite !rev_app_distr, <- !app_assoc. reflexivity.
Qed.

Lemma F6_inv : forall w n1 n2 r io a1 a2 c, smpF6 C w n1 n2 r io a1 a2 = Some c ->
  length w = 16%nat /\ length n1 = 16%nat /\ length n2 = 16%nat /\ length r = 16%nat /\ length io = 3%nat /\
  length a1 = 7%nat /\ length a2 = 7%nat.
Proof.
  intros w n1 n2 r io a1 a2 c H. unfold smpF6 in H.
  destruct (_ && _) eqn:E in H; [|discriminate].
  rewrite !andb_true_iff, !len_is_eq in E. tauto.
Qed.
Lemma F4_inv : forall u v x z c, smpF4 C u v x z = Some c -> length u = 32%nat /\ length v = 32%nat /\ length x = 16%nat.
Proof.
  intros u v x z c H. unfold smpF4 in H. destruct (_ && _) eqn:E in H; [|discriminate].
  rewrite !andb_true_iff, !len_is_eq in E. tauto.
Qed.
Lemma F5_inv : forall w n1 n2 a1 a2 c, smpF5 C w n1 n2 a1 a2 = Some c ->
  length w = 32%nat /\ length n1 = 16%nat /\ length n2 = 16%nat /\ length a1 = 7%nat /\ length a2 = 7%nat.
Proof.
  intros w n1 n2 a1 a2 c H. unfold smpF5 in H. destruct (_ && _) eqn:E in H; [|discriminate].
  rewrite !andb_true_iff, !len_is_eq in E. tauto.
Qed.

Lemma be_val_acc : forall l acc, be_val acc l = acc * 256 ^ Z.of_nat (length l) + le_val (rev l).
Proof.
  intro l. induction l as [|b l IH] using rev_ind; intro acc.
  - simpl. lia.
  - assert (Hb : forall l acc, be_val acc (l ++ [b]) = 256 * be_val acc l + b).
    { clear. induction l as [|x l IH]; intro acc; cbn [app be_val]; [reflexivity|apply IH]. }
    rewrite Hb, IH, app_length, rev_unit. cbn [length le_val].
    replace (Z.of_nat (length l + 1)) with (Z.of_nat (length l) + 1) by lia.
    rewrite Z.pow_add_r by lia. lia.
Qed.

Lemma le_val_app : forall a b, le_val (a ++ b) = le_val a + 256 ^ Z.of_nat (length a) * le_val b.
Proof.
  induction a as [|x a IH]; intro b; cbn [app le_val length].
  - change (Z.of_nat 0) with 0. lia.
  - rewrite IH, Nat2Z.inj_succ, Z.pow_succ_r by lia. lia.
Qed.

Lemma G2_spec : forall U V X Y, length U = 32%nat -> length V = 32%nat -> length X = 16%nat -> length Y = 16%nat ->
  all_bytes (cmac C X (U ++ V ++ Y)) ->
  smpG2 C (rev U) (rev V) (rev X) (rev Y) = Some (g2 C U V X Y mod 1000000).
Proof.
  intros U V X Y HU HV HX HY Hb. unfold smpG2. rewrite !len_is_rev. unfold len_is. rewrite HU, HV, HX, HY. cbn [andb Nat.eqb].
  rewrite aesCMAC_16 by (rewrite rev_length; assumption). f_equal. f_equal. unfold g2.
  replace (rev (rev Y ++ rev V ++ rev U)) with (U ++ V ++ Y)
    by (rewrite !rev_app_distr, !rev_involutive, <- app_assoc; reflexivity).
  rewrite rev_involutive. set (h := cmac C X (U ++ V ++ Y)) in *.
  assert (Hl : length h = 16%nat) by (unfold h; apply cmac_len).
  rewrite be_val_acc, Hl, Z.mul_0_l, Z.add_0_l.
  rewrite <- (firstn_skipn 4 (rev h)) at 2. rewrite le_val_app.
  assert (Hf : length (firstn 4 (rev h)) = 4%nat) by (rewrite firstn_length, rev_length, Hl; reflexivity).
  rewrite Hf. change (256 ^ Z.of_nat 4) with (2 ^ 32). rewrite (Z.mul_comm (2 ^ 32)).
  rewrite Z_mod_plus_full, Z.mod_small; [reflexivity|].
  assert (Hr : all_bytes (firstn 4 (rev h))).
  { unfold all_bytes in *. rewrite Forall_forall in *. intros x Hx. apply Hb.
    apply in_rev. rewrite <- (firstn_skipn 4 (rev h)). apply in_or_app. now left. }
  pose proof (le_val_range _ Hr) as Hrange. rewrite Hf in Hrange. exact Hrange.
Qed.

Lemma xor_ok : forall a b, (length a <= length b)%nat -> xorSlice a b = Ret (xor_bytes a b).
Proof.
  induction a as [|x a IH]; intros b H; [reflexivity|].
  destruct b as [|y b]; [cbn in H; lia|]. cbn in H. cbn [xorSlice]. rewrite IH by lia. reflexivity.
Qed.
Lemma xor_len : forall a b, length a = length b -> length (xor_bytes a b) = length a.
Proof. intros a b H. unfold xor_bytes. rewrite map_length, combine_length. lia. Qed.
Lemma combine_app_eq : forall {A B} (a a' : list A) (b b' : list B), length a = length b ->
  combine (a ++ a') (b ++ b') = combine a b ++ combine a' b'.
Proof.
  induction a as [|x a IH]; intros a' b b' H; destruct b as [|y b]; cbn in H; try lia; [reflexivity|].
  cbn. f_equal. apply IH. lia.
Qed.
Lemma combine_rev : forall {A B} (a : list A) (b : list B), length a = length b -> combine (rev a) (rev b) = rev (combine a b).
Proof.
  induction a as [|x a IH]; intros b H; destruct b as [|y b]; cbn in H; try lia; [reflexivity|].
  cbn [rev combine]. rewrite combine_app_eq by (rewrite !rev_length; lia). rewrite IH by lia. reflexivity.
Qed.
Lemma xor_rev : forall a b, length a = length b -> xor_bytes (rev a) (rev b) = rev (xor_bytes a b).
Proof. intros a b H. unfold xor_bytes. rewrite combine_rev, map_rev by assumption. reflexivity. Qed.

Lemma E_spec : forall k m, length k = 16%nat -> length m = 16%nat -> smpE C k m = Ret (Some (rev (aes C (rev k) (rev m)))).
Proof.
  intros k m Hk Hm. unfold smpE, aes128, swap, aes_key_ok. rewrite !len_is_rev. unfold len_is. rewrite Hk, rev_length, Hm.
  cbn [Nat.eqb orb negb Nat.ltb Nat.leb gbind]. rewrite firstn_all2 by (rewrite rev_length; lia). reflexivity.
Qed.

Lemma C1_spec : forall k r preq pres iat rat la ra, length k = 16%nat -> length r = 16%nat -> length preq = 7%nat ->
  length pres = 7%nat -> length la = 6%nat -> length ra = 6%nat ->
  smpC1 C k r preq pres iat rat la ra =
  Ret (Some (rev (c1 C (rev k) (rev r) (rev pres) (rev preq) rat iat (rev la) (rev ra)))).
Proof.
  intros k r preq pres iat rat la ra Hk Hr Hq Hp Hla Hra. unfold smpC1.
  assert (L1 : length ([iat; rat] ++ preq ++ pres) = 16%nat) by (rewrite !app_length; cbn [length]; lia).
  rewrite xor_ok by lia. cbn [gbind].
  assert (L2 : length (xor_bytes r ([iat; rat] ++ preq ++ pres)) = 16%nat) by (rewrite xor_len; lia).
  rewrite E_spec by assumption. cbn [gbind].
  assert (L3 : length (ra ++ la ++ [0; 0; 0; 0]) = 16%nat) by (rewrite !app_length; cbn [length]; lia).
  rewrite xor_ok by (rewrite rev_length, aes_len; lia). cbn [gbind].
  rewrite E_spec; [|assumption|rewrite xor_len; rewrite rev_length, aes_len; lia].
  do 3 f_equal. unfold c1.
  rewrite <- xor_rev by (rewrite rev_length, aes_len; lia). rewrite rev_involutive.
  rewrite <- xor_rev by lia. rewrite !rev_app_distr, <- !app_assoc. reflexivity.
Qed.

Lemma S1_spec : forall k r1 r2, length k = 16%nat -> length r1 = 16%nat -> length r2 = 16%nat ->
  smpS1 C k r1 r2 = Ret (Some (rev (s1 C (rev k) (rev r1) (rev r2)))).
Proof.
  intros k r1 r2 Hk H1 H2. unfold smpS1, len_is. rewrite Hk, H1, H2. cbn [andb Nat.eqb].
  rewrite E_spec; [|assumption|rewrite app_length, !firstn_length; lia].
  do 3 f_equal. unfold s1. rewrite rev_app_distr.
  rewrite !skipn_rev, H1, H2. reflexivity.
Qed.

Lemma tk_spec : forall k, getLegacyParingTK k = rev (passkey_op k).
Proof. reflexivity. Qed.
Lemma tk_len : forall k, length (getLegacyParingTK k) = 16%nat.
Proof. intro k. unfold getLegacyParingTK, swap. rewrite rev_length, app_length, rev_length, le_bytes_length. reflexivity. Qed.

Lemma passkey_z_spec : forall k i, passkey_z k i = passkey_bit_op k i.
Proof.
  intros k i. unfold passkey_z, passkey_bit_op.
  assert (H : Z.shiftr (Z.land k (Z.shiftl 1 (Z.of_nat i))) (Z.of_nat i) = Z.b2z (Z.testbit k (Z.of_nat i))).
  { apply Z.bits_inj'. intros n Hn. rewrite Z.shiftr_spec, Z.land_spec, Z.shiftl_spec by lia.
    replace (n + Z.of_nat i - Z.of_nat i) with n by lia.
    destruct (Z.eq_dec n 0) as [->|Hne].
    - rewrite Z.add_0_l. change (Z.testbit 1 0) with true. rewrite andb_true_r. destruct (Z.testbit k (Z.of_nat i)); reflexivity.
    - change 1 with (2 ^ 0). rewrite Z.pow2_bits_false by lia. rewrite andb_false_r.
      destruct (Z.testbit k (Z.of_nat i)); cbn [Z.b2z]; [|now rewrite Z.bits_0].
      change 1 with (2 ^ 0). now rewrite Z.pow2_bits_false by lia. }
  rewrite H. destruct (Z.testbit k (Z.of_nat i)); reflexivity.
Qed.

(** ** Method *)
Lemma land_pow2 : forall a n, 0 <= n -> (Z.land a (2 ^ n) =? 0) = negb (Z.testbit a n).
Proof.
  intros a n Hn. assert (H : Z.land a (2 ^ n) = if Z.testbit a n then 2 ^ n else 0).
  { apply Z.bits_inj'. intros m Hm. rewrite Z.land_spec. destruct (Z.eq_dec m n) as [->|Hne].
    - rewrite Z.pow2_bits_true by assumption. destruct (Z.testbit a n); [now rewrite Z.pow2_bits_true|now rewrite Z.bits_0].
    - rewrite Z.pow2_bits_false by lia. rewrite andb_false_r.
      destruct (Z.testbit a n); [now rewrite Z.pow2_bits_false by lia|now rewrite Z.bits_0]. }
  rewrite H. destruct (Z.testbit a n); [|reflexivity]. cbn [negb]. apply Z.eqb_neq.
  pose proof (Z.pow_pos_nonneg 2 n). lia.
Qed.

Lemma isLegacy_spec : forall a, isLegacy a = negb (Z.testbit a 3).
Proof.
  intro a. unfold isLegacy. change 8 with (2 ^ 3) at 1. pose proof (land_pow2 a 3 ltac:(lia)) as H.
  assert (H2 : Z.land a (2 ^ 3) = 0 \/ Z.land a (2 ^ 3) = 8).
  { destruct (Z.testbit a 3) eqn:E.
    - right. apply Z.bits_inj'. intros m Hm. rewrite Z.land_spec. change 8 with (2 ^ 3).
      destruct (Z.eq_dec m 3) as [->|Hne]; [rewrite E; reflexivity|].
      rewrite Z.pow2_bits_false by lia. apply andb_false_r.
    - left. apply Z.bits_inj'. intros m Hm. rewrite Z.land_spec, Z.bits_0.
      destruct (Z.eq_dec m 3) as [->|Hne]; [rewrite E; reflexivity|].
      rewrite Z.pow2_bits_false by lia. apply andb_false_r. }
  destruct H2 as [H2|H2]; rewrite H2 in *; rewrite <- H; reflexivity.
Qed.

Lemma determine_ok : forall req rsp legacy a b,
  io_cap req = io_code a -> io_cap rsp = io_code b ->
  (legacy = true -> oob_present req = oob_present rsp) ->
  determinePairingType req rsp legacy =
  Ret (method (negb legacy) (oob_present req) (oob_present rsp) (mitm_bit req) (mitm_bit rsp) a b).
Proof.
  intros req rsp legacy a b Ha Hb Ho. unfold determinePairingType, method, oob_used, oob_present, mitm_bit in *.
  rewrite Ha, Hb. change 4 with (2 ^ 2). rewrite !land_pow2 by lia.
  destruct (oob_flag req =? 1), (oob_flag rsp =? 1), legacy; cbn [andb orb negb] in *;
    try (specialize (Ho eq_refl); discriminate); try reflexivity;
    destruct (Z.testbit (auth_req req) 2), (Z.testbit (auth_req rsp) 2); cbn [andb orb negb]; try reflexivity;
    destruct a, b; reflexivity.
Qed.
End T.
