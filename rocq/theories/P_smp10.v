(** Whole pairings: a peer that knows the passkey, and one that does not. *)
Require Import Verif.Base Verif.M_smp Verif.S_smp Verif.P_smp Verif.P_smp2 Verif.P_smp7 Verif.P_smp9.

Lemma sends_app : forall a b, sends (a ++ b) = sends a ++ sends b.
Proof. intros. unfold sends. apply flat_map_app. Qed.
Lemma follows_snoc : forall peer l x, follows peer l -> (forall e pdu, fst x = AMsg e pdu -> pdu = peer (sends l)) -> follows peer (l ++ [x]).
Proof.
  intros peer l x Hf Hx l1 e pdu evs l2 H.
  destruct l2 as [|z l2'].
  - apply app_inj_tail in H. destruct H as [-> ->]. now apply (Hx e).
  - destruct (exists_last (l := z :: l2') ltac:(discriminate)) as (l3 & y & E). rewrite E in H.
    rewrite app_comm_cons, app_assoc in H. apply app_inj_tail in H. destruct H as [H _]. now apply (Hf l1 e pdu evs l3).
Qed.
Lemma under_snoc : forall E l x, under E l -> act_env (fst x) = Some (E (length l)) -> under E (l ++ [x]).
Proof.
  intros E l x Hu Hx n y H. destruct (lt_eq_lt_dec n (length l)) as [[Hn|Hn]|Hn].
  - rewrite nth_error_app1 in H by assumption. now apply Hu.
  - subst n. rewrite nth_error_app2, Nat.sub_diag in H by lia. cbn in H. congruence.
  - rewrite nth_error_app2 in H by lia. destruct (n - length l)%nat as [|[|]] eqn:X; [lia|discriminate|discriminate].
Qed.

Lemma starts_snoc : forall a0 l e pdu evs, starts a0 l -> starts a0 (l ++ [(AMsg e pdu, evs)]).
Proof.
  intros a0 l e pdu evs [H1 H2]. destruct l as [|x l]; [discriminate|]. cbn [app map hd_error tl] in *. split; [exact H1|].
  apply Forall_app. split; [exact H2|]. constructor; [|constructor]. now exists e, pdu.
Qed.

Lemma arg_app : forall a b i, (i < length a)%nat -> arg (a ++ b) i = arg a i.
Proof. intros a b i H. unfold arg. now rewrite nth_error_app1. Qed.
Lemma arg_last : forall a c d i, length a = i -> arg (a ++ [frame (c :: d)]) i = d.
Proof. intros a c d i <-. unfold arg. rewrite nth_error_app2, Nat.sub_diag by lia. reflexivity. Qed.

Section R.
Variable C : prims.
Variable HC : prims_ok C.
Variable HD : forall k q, length (dh C k q) = 32%nat.
Variables (la ra : bytes) (lat rat : Z).
Hypothesis Hla : length la = 6%nat.
Hypothesis Hra : length ra = 6%nat.
Notation s0 := (smp_new la ra lat rat).
Notation opA := (addr_op lat la).
Notation opB := (addr_op rat ra).
Variable kb : Z.
Notation PB := (pub_of C kb).
Notation XB := (firstn 32 PB).

Notation guess_bit := (S_smp.guess_bit C kb).
Notation guess := (S_smp.guess C kb).
Notation peer_check := (S_smp.peer_check C la ra lat rat kb).
Notation peer := (S_smp.peer C la ra lat rat kb).
Variables (know : option Z) (nb : nat -> bytes) (k ka : Z) (w0 : bool) (E : nat -> env) (a0 : sact).
Notation PA := (pub_of C ka).
Notation XA := (firstn 32 PA).
Hypothesis Hnb : forall i, length (nb i) = 16%nat.
Hypothesis HPB : on_curve C PB = true.
Hypothesis HPne : PA <> PB.
Hypothesis Hdh : dh C kb PA = dh C ka PB.
Hypothesis Hknow : know = None \/ know = Some k.
Hypothesis Hcollide : know = None -> forall U V X, f4 C U V X 0x81 <> f4 C U V X 0x80.
Hypothesis HE : forall n, calm ka (E n).
Hypothesis Hk : 0 <= k < 2 ^ 20.
Notation na := (fun i => e_rand (E (2 + per_round know * i))).
Definition rq : smpcfg := if w0 then default_cfg else mkCfg 4 0 13 16 0 1.

Lemma per_pos : (2 <= per_round know <= 3)%nat.
Proof. unfold per_round. destruct know; lia. Qed.

(** The common part of the invariants. *)
Record Core (l : list (sact * list ev)) (s : smp) : Prop := mkCore {
  c_run : srun C s0 l s;
  c_hd : starts a0 l;
  c_fol : follows (peer know nb) l;
  c_und : under E l;
  c_len : length (sends l) = length l;
  c_addr : addrs_ok la ra lat rat (ctx s);
  c_req : p_req (ctx s) = rq;
  c_pk : p_passkey (ctx s) = k;
  c_wait : waiting s = w0;
  c_open : rclosed s = false;
  c_free : stuck s = false }.

Lemma core_step : forall l s c d h p pdu, Core l s -> frame (c :: d) = peer know nb (sends l) ->
  dispatch C (E (length l)) c d = Some h -> runs h (ctx s) p [OSend pdu] tt -> p_st p <> Finished ->
  addrs_ok la ra lat rat p -> p_req p = rq -> p_passkey p = k ->
  exists l' s', Core l' s' /\ ctx s' = p /\ sends l' = sends l ++ [pdu].
Proof.
  intros l s c d h p pdu H Hp Hd Hr Hs Ha Hq Hkk.
  pose proof (Handle_runs C _ _ _ _ _ _ _ Hd Hr Hs) as HH.
  exists (l ++ [(AMsg (E (length l)) (frame (c :: d)), map EOut [OSend pdu])]), (mkSmp p (waiting s) (rclosed s) false).
  split; [|split; [reflexivity|rewrite sends_app; reflexivity]].
  destruct H as [H1 H1' H2 H3 H4 H5 H6 H7 H8 H9 H10]. constructor; cbn [ctx waiting rclosed stuck]; try assumption.
  - eapply srun_snoc; [exact H1|]. cbn [sstep]. rewrite H10, HH. reflexivity.
  - now apply starts_snoc.
  - apply follows_snoc; [exact H2|]. cbn [fst]. intros e pdu' X. injection X as <- <-. exact Hp.
  - apply under_snoc; [exact H3|reflexivity].
  - rewrite sends_app, !app_length, H4. reflexivity.
  - reflexivity.
Qed.

(** At the start of round i. *)
Record Rd (i : nat) (l : list (sact * list ev)) (s : smp) : Prop := mkRd {
  r_core : Core l s;
  r_len : length l = (3 + per_round know * i)%nat;
  r_keys : p_keys (ctx s) = Some ka;
  r_rpub : p_rpub (ctx s) = Some PB;
  r_type : p_type (ctx s) = Passkey;
  r_leg : p_legacy (ctx s) = false;
  r_iter : p_iter (ctx s) = i;
  r_rsp : p_rsp (ctx s) = peer_rsp;
  r_lr : p_lrand (ctx s) = Some (na i);
  r_arg1 : arg (sends l) 1 = key_wire PA;
  r_conf : arg (sends l) (2 + per_round know * i) = conf C XA XB (na i) (passkey_bit_op k i);
  r_bits : forall j, (j < i)%nat -> guess_bit know (sends l) j = Z.testbit k (Z.of_nat j) }.

Lemma guess_stable : forall a b j, (per_round know = 2 \/ (3 + 3 * j < length a))%nat -> guess_bit know (a ++ b) j = guess_bit know a j.
Proof.
  intros a b j H. unfold guess_bit, per_round in *. destruct know; [reflexivity|].
  destruct H as [H|H]; [discriminate|]. now rewrite !arg_app by lia.
Qed.

Lemma peer_round : forall sent i j, (i < 20)%nat -> (j < per_round know)%nat -> length sent = (3 + per_round know * i + j)%nat ->
  peer know nb sent =
    if Nat.eqb (j + 1) (per_round know) then frame (4 :: nb i)
    else if Nat.eqb (j + 2) (per_round know) then
      frame (3 :: conf C XB (key_x (arg sent 1)) (nb i) (if guess_bit know sent i then 0x81 else 0x80))
    else frame (3 :: repeat 0 16).
Proof.
  intros sent i j Hi Hj Hn. pose proof per_pos as Hper. unfold peer. rewrite Hn.
  destruct (Nat.eqb_spec (3 + per_round know * i + j) 0); [lia|].
  destruct (Nat.eqb_spec (3 + per_round know * i + j) 1); [lia|].
  destruct (Nat.eqb_spec (3 + per_round know * i + j) 2); [lia|].
  replace (3 + per_round know * i + j <? 3 + per_round know * 20)%nat with true by (symmetry; apply Nat.ltb_lt; nia).
  replace (3 + per_round know * i + j - 3)%nat with (per_round know * i + j)%nat by lia.
  rewrite <- (Nat.div_unique (per_round know * i + j) (per_round know) i j Hj eq_refl).
  rewrite <- (Nat.mod_unique (per_round know * i + j) (per_round know) i j Hj eq_refl). reflexivity.
Qed.

Lemma bit_found : forall x y n i, know = None ->
  negb (beq_bytes (conf C x y n (passkey_bit_op k i)) (conf C x y n 0x80)) = Z.testbit k (Z.of_nat i).
Proof.
  intros x y n i Hkn. unfold passkey_bit_op. destruct (Z.testbit k (Z.of_nat i)).
  - destruct (beq_bytes _ _) eqn:X; [|reflexivity]. apply beq_bytes_eq in X. exfalso. apply (Hcollide Hkn x y (rev n)).
    unfold conf in X. rewrite <- (rev_involutive (f4 C x y (rev n) 129)), X. apply rev_involutive.
  - rewrite beq_bytes_refl. reflexivity.
Qed.

(** Up to the right Confirm of round i: the device then waits for the nonce. *)
Record Rd2 (i : nat) (l : list (sact * list ev)) (s : smp) : Prop := mkRd2 {
  q_core : Core l s;
  q_len : length l = (3 + per_round know * i + (per_round know - 1))%nat;
  q_keys : p_keys (ctx s) = Some ka;
  q_rpub : p_rpub (ctx s) = Some PB;
  q_type : p_type (ctx s) = Passkey;
  q_leg : p_legacy (ctx s) = false;
  q_iter : p_iter (ctx s) = i;
  q_rsp : p_rsp (ctx s) = peer_rsp;
  q_lr : p_lrand (ctx s) = Some (na i);
  q_rconf : p_rconf (ctx s) = conf C XB XA (nb i) (passkey_bit_op k i);
  q_arg1 : arg (sends l) 1 = key_wire PA;
  q_argn : arg (sends l) (3 + per_round know * i) = na i;
  q_bits : forall j, (j < S i)%nat -> guess_bit know (sends l) j = Z.testbit k (Z.of_nat j) }.

Lemma na_len : forall i, length (na i) = 16%nat.
Proof. intro i. apply HE. Qed.

Lemma to_confirm : forall i l s, (i < 20)%nat -> Rd i l s -> exists l' s', Rd2 i l' s'.
Proof.
  intros i l s Hi H. destruct H as [Hc Hlen H1 H2 H3 H4 H5 H6 H7 H8 H9 H10].
  pose proof (c_len _ _ Hc) as Hsl.
  assert (HbitS : forall sent, arg sent 1 = key_wire PA ->
     (know = None -> arg sent (2 + 3 * i) = conf C XA XB (na i) (passkey_bit_op k i) /\ arg sent (3 + 3 * i) = na i) ->
     guess_bit know sent i = Z.testbit k (Z.of_nat i)).
  { intros sent A1 A2. unfold guess_bit. destruct Hknow as [Hn|Hn]; rewrite Hn; [|reflexivity].
    destruct (A2 Hn) as [A3 A4]. rewrite A1, A3, A4. rewrite key_x_wire by (apply (pub_len C HC)). now apply bit_found. }
  destruct Hknow as [Hn|Hn].
  - (* the peer does not know the passkey *)
    assert (Hpr : per_round know = 3%nat) by (unfold per_round; now rewrite Hn).
    destruct (core_step l s 3 (repeat 0 16) (smpOnPairingConfirm (E (length l)) (repeat 0 16))
      (set_st WaitRandom (set_rconf (repeat 0 16) (ctx s))) (frame (4 :: na i)) Hc) as (l1 & s1 & Hc1 & Hx1 & Hs1).
    + rewrite (peer_round _ i 0); rewrite ?Hpr; try lia. reflexivity.
    + reflexivity.
    + apply conf_runs; [reflexivity|apply HE|exact H7].
    + discriminate.
    + apply (c_addr _ _ Hc).
    + apply (c_req _ _ Hc).
    + apply (c_pk _ _ Hc).
    + pose proof (c_len _ _ Hc1) as Hsl1.
      assert (Hlen1 : length l1 = (3 + 3 * i + 1)%nat) by (rewrite <- Hsl1, Hs1, app_length, Hsl, Hlen, Hpr; reflexivity).
      assert (A1 : arg (sends l1) 1 = key_wire PA) by (rewrite Hs1, arg_app by (rewrite Hsl, Hlen; lia); exact H8).
      assert (A2 : arg (sends l1) (2 + 3 * i) = conf C XA XB (na i) (passkey_bit_op k i)).
      { rewrite Hs1, arg_app by (rewrite Hsl, Hlen, Hpr; lia). rewrite Hpr in H9. rewrite Hpr. exact H9. }
      assert (A3 : arg (sends l1) (3 + 3 * i) = na i) by (rewrite Hs1; apply arg_last; rewrite Hsl, Hlen, Hpr; reflexivity).
      assert (Hb : guess_bit know (sends l1) i = Z.testbit k (Z.of_nat i)) by (apply HbitS; auto).
      destruct (core_step l1 s1 3 (conf C XB XA (nb i) (passkey_bit_op k i)) (smpOnPairingConfirm (E (length l1)) (conf C XB XA (nb i) (passkey_bit_op k i)))
        (set_st WaitRandom (set_rconf (conf C XB XA (nb i) (passkey_bit_op k i)) (ctx s1))) (frame (4 :: na i)) Hc1) as (l2 & s2 & Hc2 & Hx2 & Hs2).
      * rewrite (peer_round _ i 1); rewrite ?Hpr; try lia. cbn [Nat.eqb Nat.add]. rewrite Hb, A1, key_x_wire by (apply (pub_len C HC)).
        unfold passkey_bit_op. reflexivity.
      * reflexivity.
      * apply conf_runs; [now apply conf_len|apply HE|rewrite Hx1; exact H7].
      * discriminate.
      * apply (c_addr _ _ Hc1).
      * apply (c_req _ _ Hc1).
      * apply (c_pk _ _ Hc1).
      * exists l2, s2. constructor; rewrite ?Hx2, ?Hx1; try assumption.
        -- rewrite <- (c_len _ _ Hc2), Hs2, app_length, Hsl1, Hlen1, Hpr. cbn [length]. lia.
        -- reflexivity.
        -- rewrite Hs2, arg_app by (rewrite Hsl1, Hlen1; lia). exact A1.
        -- rewrite Hs2, arg_app by (rewrite Hsl1, Hlen1, Hpr; lia). rewrite Hpr at 1. exact A3.
        -- intros j Hj. rewrite Hs2, guess_stable by (right; rewrite Hsl1, Hlen1; lia).
           destruct (Nat.eq_dec j i) as [->|Hne]; [exact Hb|].
           rewrite Hs1, guess_stable by (right; rewrite Hsl, Hlen, Hpr; lia). apply H10. lia.
  - assert (Hpr : per_round know = 2%nat) by (unfold per_round; now rewrite Hn).
    assert (Hb : guess_bit know (sends l) i = Z.testbit k (Z.of_nat i)) by (apply HbitS; [exact H8|intro X; congruence]).
    destruct (core_step l s 3 (conf C XB XA (nb i) (passkey_bit_op k i)) (smpOnPairingConfirm (E (length l)) (conf C XB XA (nb i) (passkey_bit_op k i)))
        (set_st WaitRandom (set_rconf (conf C XB XA (nb i) (passkey_bit_op k i)) (ctx s))) (frame (4 :: na i)) Hc) as (l2 & s2 & Hc2 & Hx2 & Hs2).
    + rewrite (peer_round _ i 0); rewrite ?Hpr; try lia. cbn [Nat.eqb Nat.add]. rewrite Hb, H8, key_x_wire by (apply (pub_len C HC)).
      unfold passkey_bit_op. reflexivity.
    + reflexivity.
    + apply conf_runs; [now apply conf_len|apply HE|exact H7].
    + discriminate.
    + apply (c_addr _ _ Hc).
    + apply (c_req _ _ Hc).
    + apply (c_pk _ _ Hc).
    + exists l2, s2. constructor; rewrite ?Hx2; try assumption.
      * rewrite <- (c_len _ _ Hc2), Hs2, app_length, Hsl, Hlen, Hpr. cbn [length]. lia.
      * reflexivity.
      * rewrite Hs2, arg_app by (rewrite Hsl, Hlen; lia). exact H8.
      * rewrite Hs2. apply arg_last. now rewrite Hsl, Hlen.
      * intros j Hj. rewrite Hs2, guess_stable by (left; exact Hpr).
        destruct (Nat.eq_dec j i) as [->|Hne]; [exact Hb|]. apply H10. lia.
Qed.

Lemma na_eq : forall (l : list (sact * list ev)) i, length l = (3 + per_round know * i + (per_round know - 1))%nat -> e_rand (E (length l)) = na (S i).
Proof. intros l i H. rewrite H. do 2 f_equal. pose proof per_pos. nia. Qed.

Lemma round_ok : forall i l s, (i < 19)%nat -> Rd i l s -> exists l' s', Rd (S i) l' s'.
Proof.
  intros i l s Hi HR. destruct (to_confirm i l s ltac:(lia) HR) as (l1 & s1 & [Hc Hlen H1 H2 H3 H4 H5 H6 H7 H8 H9 H10 H11]).
  pose proof (c_len _ _ Hc) as Hsl. pose proof per_pos as Hper. pose proof (c_pk _ _ Hc) as Hpk.
  destruct (core_step l1 s1 4 (nb i) (smpOnPairingRandom C (E (length l1)) (nb i))
     (set_lrand (Some (e_rand (E (length l1)))) (set_iter (S (p_iter (ctx s1))) (set_rrand (nb i) (ctx s1))))
     (frame (3 :: conf C XA XB (e_rand (E (length l1))) (passkey_bit_op (p_passkey (ctx s1)) (S (p_iter (ctx s1)))))) Hc)
    as (l2 & s2 & Hc2 & Hx2 & Hs2).
  - rewrite (peer_round _ i (per_round know - 1)); try lia. replace (per_round know - 1 + 1)%nat with (per_round know) by lia.
    now rewrite Nat.eqb_refl.
  - reflexivity.
  - apply rand_runs_round; try assumption; try apply HE; try apply Hnb; try lia. rewrite H8, Hpk, H5. reflexivity.
  - destruct (c_addr _ _ Hc). sp. intro X.
    assert (Y : FI s1) by (eapply run_FI; apply Hc). destruct Y as [Y _]. specialize (Y X). pose proof (c_open _ _ Hc). congruence.
  - apply (c_addr _ _ Hc).
  - apply (c_req _ _ Hc).
  - apply (c_pk _ _ Hc).
  - exists l2, s2. rewrite (na_eq _ i Hlen) in *.
    assert (Hl2 : length l2 = (3 + per_round know * S i)%nat) by (rewrite <- (c_len _ _ Hc2), Hs2, app_length, Hsl, Hlen; cbn [length]; lia).
    constructor; rewrite ?Hx2; try assumption; sp.
    + now rewrite H5.
    + reflexivity.
    + rewrite Hs2, arg_app by (rewrite Hsl, Hlen; lia). exact H9.
    + rewrite Hs2, Hpk, H5. apply arg_last. rewrite Hsl, Hlen. lia.
    + intros j Hj. rewrite Hs2, guess_stable; [now apply H11|].
      destruct Hknow as [Hn|Hn]; [right|left; unfold per_round; now rewrite Hn].
      rewrite Hsl, Hlen. unfold per_round. rewrite Hn. lia.
Qed.

Lemma all_rounds : forall i l s, (i <= 19)%nat -> Rd 0 l s -> exists l' s', Rd i l' s'.
Proof.
  induction i as [|i IH]; intros l s Hi H0; [eauto|].
  destruct (IH l s ltac:(lia) H0) as (l1 & s1 & H1). apply (round_ok i l1 s1); [lia|exact H1].
Qed.

Lemma guess_all : forall sent m, (forall j, (j < m)%nat -> guess_bit know sent j = Z.testbit k (Z.of_nat j)) -> guess know sent m = k mod 2 ^ Z.of_nat m.
Proof.
  intros sent m. induction m as [|m IH]; intro H.
  - cbn. now rewrite Z.mod_1_r.
  - cbn [guess]. rewrite IH by (intros; apply H; lia). rewrite H by lia.
    rewrite Nat2Z.inj_succ, Z.pow_succ_r, (Z.mul_comm 2) by lia.
    rewrite (Z.rem_mul_r k (2 ^ Z.of_nat m) 2) by (try lia; apply Z.pow_nonzero; lia).
    rewrite Z.testbit_spec' by lia. reflexivity.
Qed.

Definition na19 := na 19%nat.
Definition nb19 := nb 19%nat.
Definition the_ltk : bytes := rev (f5_ltk C (dh C ka PB) (rev na19) (rev nb19) opA opB).

Theorem finish : forall l s, Rd 0 l s -> exists l1 e pdu evs s',
  srun C s0 (l1 ++ [(AMsg e pdu, evs)]) s' /\ starts a0 (l1 ++ [(AMsg e pdu, evs)]) /\ follows (peer know nb) (l1 ++ [(AMsg e pdu, evs)]) /\ under E (l1 ++ [(AMsg e pdu, evs)]) /\
  length l1 = (3 + per_round know * 20)%nat /\
  evs = [EOut (OSave (rev ra) (mkBond the_ltk 0 0 false)); EOut (OStartEnc the_ltk 0 0)] ++ (if w0 then [EPairRet true] else []).
Proof.
  intros l s H0. destruct (all_rounds 19 l s ltac:(lia) H0) as (l1 & s1 & H19).
  destruct (to_confirm 19 l1 s1 ltac:(lia) H19) as (l2 & s2 & [Hc Hlen H1 H2 H3 H4 H5 H6 H7 H8 H9 H10 H11]).
  clear dependent l1. clear dependent s1. clear dependent l. clear dependent s.
  pose proof (c_len _ _ Hc) as Hsl. pose proof per_pos as Hper. pose proof (c_pk _ _ Hc) as Hpk.
  destruct (core_step l2 s2 4 (nb 19%nat) (smpOnPairingRandom C (E (length l2)) (nb 19%nat))
     (agreed C ka kb la ra lat rat (na 19%nat) (nb 19%nat) (set_iter 20%nat (set_rrand (nb 19%nat) (ctx s2))))
     (frame (13 :: checkA C ka kb la ra lat rat (ctx s2) (na 19%nat) (nb 19%nat))) Hc)
    as (l3 & s3 & Hc3 & Hx3 & Hs3).
  - rewrite (peer_round _ 19 (per_round know - 1)); try lia. replace (per_round know - 1 + 1)%nat with (per_round know) by lia.
    now rewrite Nat.eqb_refl.
  - reflexivity.
  - apply rand_runs_last; try assumption; try apply HE; try apply Hnb.
    + apply (c_addr _ _ Hc).
    + rewrite H8, Hpk. reflexivity.
  - discriminate.
  - apply (c_addr _ _ Hc).
  - apply (c_req _ _ Hc).
  - apply (c_pk _ _ Hc).
  - pose proof (c_len _ _ Hc3) as Hsl3.
    assert (Hl3 : length l3 = (3 + per_round know * 20)%nat) by (rewrite <- Hsl3, Hs3, app_length, Hsl, Hlen; cbn [length]; lia).
    assert (A1 : arg (sends l3) 1 = key_wire PA) by (rewrite Hs3, arg_app by (rewrite Hsl, Hlen; lia); exact H9).
    assert (A2 : arg (sends l3) (3 + per_round know * 19) = na 19%nat) by (rewrite Hs3, arg_app by (rewrite Hsl, Hlen; lia); exact H10).
    assert (A3 : guess know (sends l3) 20 = k).
    { rewrite guess_all.
      - change (Z.of_nat 20) with 20. apply Z.mod_small. exact Hk.
      - intros j Hj. rewrite Hs3, guess_stable; [now apply H11|].
        destruct Hknow as [Hn|Hn]; [right|left; unfold per_round; now rewrite Hn].
        rewrite Hsl, Hlen. unfold per_round. rewrite Hn. lia. }
    set (p3 := ctx s3) in *.
    set (d := checkB C ka kb la ra lat rat p3 (na 19%nat) (nb 19%nat)).
    set (bnd := mkBond the_ltk 0 0 false).
    assert (Hbond : p_bond p3 = Some bnd) by (rewrite Hx3; reflexivity).
    assert (Hdh' : runs (smpOnDHKeyCheck C (E (length l3)) d) p3 (set_st Finished p3)
       [OSave (rev ra) bnd; OStartEnc (ltk bnd) (ediv bnd) (brand bnd)] tt).
    { apply dh_runs; try assumption; try reflexivity; try apply HE; try apply Hnb.
      - apply (c_addr _ _ Hc3).
      - unfold rlen, check_r. replace (p_type p3) with Passkey by (rewrite Hx3; symmetry; exact H3). apply tk_len.
      - rewrite Hx3. exact H4.
      - rewrite Hx3. reflexivity.
      - rewrite Hx3. exact H7.
      - rewrite Hx3. reflexivity.
      - unfold p3. rewrite (c_req _ _ Hc3). unfold rq. destruct w0; reflexivity.
      - cbn [ltk bnd]. unfold the_ltk. rewrite rev_length. apply HC. }
    exists l3, (E (length l3)), (frame (13 :: d)), 
      (map EOut [OSave (rev ra) bnd; OStartEnc (ltk bnd) (ediv bnd) (brand bnd)] ++ (if w0 then [EPairRet true] else [])),
      (mkSmp (set_st Finished p3) false true false).
    split; [|split; [|split; [|split; [|split]]]].
    + eapply srun_snoc; [apply (c_run _ _ Hc3)|]. cbn [sstep]. rewrite (c_free _ _ Hc3).
      rewrite (Handle_runs_end C _ s3 13 d _ _ _ eq_refl Hdh' eq_refl (c_open _ _ Hc3)). now rewrite (c_wait _ _ Hc3).
    + apply starts_snoc. apply (c_hd _ _ Hc3).
    + apply follows_snoc; [apply (c_fol _ _ Hc3)|]. cbn [fst]. intros e pdu X. injection X as <- <-.
      unfold peer. rewrite Hsl3, Hl3. 
      destruct (Nat.eqb_spec (3 + per_round know * 20) 0); [lia|].
      destruct (Nat.eqb_spec (3 + per_round know * 20) 1); [lia|].
      destruct (Nat.eqb_spec (3 + per_round know * 20) 2); [lia|].
      rewrite Nat.ltb_irrefl. do 2 f_equal. unfold peer_check. rewrite A1, A2, A3, wire_back by (apply (pub_len C HC)). rewrite Hdh.
      unfold d, checkB, maclt. cbn [fst]. rewrite rev_involutive.
      replace (check_r p3) with (getLegacyParingTK k).
      2:{ unfold check_r. rewrite Hx3. sp. unfold agreed. sp. rewrite H3, Hpk. reflexivity. }
      rewrite tk_spec, rev_involutive. replace (p_rsp p3) with peer_rsp by (rewrite Hx3; symmetry; exact H6). reflexivity.
    + apply under_snoc; [apply (c_und _ _ Hc3)|reflexivity].
    + exact Hl3.
    + reflexivity.
Qed.

(** Start: a call of Pair, or a Security Request of the peer. *)
Lemma rsp_runs : forall e p t, calm ka e -> p_keys p = None -> determinePairingType (p_req p) peer_rsp false = Ret t -> t <> Oob ->
  runs (smpOnPairingResponse C e (cfg_bytes peer_rsp)) p
    (set_st WaitPublicKey (set_keys (Some ka) (set_type t (set_legacy false (set_type JustWorks (set_iter 0%nat (set_rsp peer_rsp p)))))))
    [OSend (frame (12 :: key_wire PA))] tt.
Proof.
  intros e p t He Hke Ht Hno. unfold smpOnPairingResponse, cfg_bytes. cbn [io_cap oob_flag auth_req key_size init_dist resp_dist peer_rsp].
  eapply r_conv.
  - rstep; [rstep|]. rstep; [rstep|]. rstep; [rstep|]. rstep; [rstep; exact Ht|]. rstep; [rstep|]. rstep; [rstep|].
    replace (match t with Oob => true | _ => false end) with false by (destruct t; congruence). cbn [andb]. cbv iota.
    change (isLegacy 13) with false. sp. cbv iota. unfold sendPublicKey. rstep; [rstep|]. sp. rewrite Hke.
    rstep; [rstep|]. rstep; [rstep|]. rstep; [rstep; unfold own_public; sp; rewrite (proj1 (proj2 (proj2 (proj2 He)))); reflexivity|].
    rstep; [rstep|]. apply send_runs. apply He.
  - sp. rewrite (proj1 (proj2 (proj2 (proj2 He)))). reflexivity.
  - reflexivity.
Qed.

Lemma to_rounds : forall l s, Core l s -> length l = 1%nat -> p_keys (ctx s) = None -> exists l' s', Rd 0 l' s'.
Proof.
  intros l s Hc Hlen Hke. pose proof (c_len _ _ Hc) as Hsl.
  destruct (core_step l s 2 (cfg_bytes peer_rsp) (smpOnPairingResponse C (E (length l)) (cfg_bytes peer_rsp))
    (set_st WaitPublicKey (set_keys (Some ka) (set_type Passkey (set_legacy false (set_type JustWorks (set_iter 0%nat (set_rsp peer_rsp (ctx s))))))))
    (frame (12 :: key_wire PA)) Hc) as (l1 & s1 & Hc1 & Hx1 & Hs1).
  - unfold peer. rewrite Hsl, Hlen. reflexivity.
  - reflexivity.
  - apply rsp_runs; [apply HE|exact Hke| |discriminate]. rewrite (c_req _ _ Hc). unfold rq. destruct w0; reflexivity.
  - discriminate.
  - apply (c_addr _ _ Hc).
  - apply (c_req _ _ Hc).
  - apply (c_pk _ _ Hc).
  - pose proof (c_len _ _ Hc1) as Hsl1. assert (Hl1 : length l1 = 2%nat) by (rewrite <- Hsl1, Hs1, app_length, Hsl, Hlen; reflexivity).
    destruct (core_step l1 s1 12 (key_wire PB) (smpOnPairingPublicKey C (E (length l1)) (key_wire PB))
      (set_lrand (Some (e_rand (E (length l1)))) (set_iter 0%nat (set_rpub (Some PB) (ctx s1))))
      (frame (3 :: conf C XA XB (e_rand (E (length l1))) (passkey_bit_op (p_passkey (ctx s1)) 0))) Hc1) as (l2 & s2 & Hc2 & Hx2 & Hs2).
    + unfold peer. rewrite Hsl1, Hl1. reflexivity.
    + reflexivity.
    + apply pub_runs_passkey; try assumption; try apply HE; rewrite Hx1; reflexivity.
    + rewrite Hx1. discriminate.
    + apply (c_addr _ _ Hc1).
    + apply (c_req _ _ Hc1).
    + apply (c_pk _ _ Hc1).
    + pose proof (c_len _ _ Hc2) as Hsl2. assert (Hl2 : length l2 = 3%nat) by (rewrite <- Hsl2, Hs2, app_length, Hsl1, Hl1; reflexivity).
      exists l2, s2. constructor; rewrite ?Hx2, ?Hx1; try assumption; try reflexivity.
      * rewrite Hl2. lia.
      * sp. rewrite Hl1. do 3 f_equal. lia.
      * rewrite Hs2, arg_app by (rewrite Hsl1, Hl1; lia). rewrite Hs1. apply arg_last. rewrite Hsl. exact Hlen.
      * rewrite Hs2, (c_pk _ _ Hc1), Hl1. replace (2 + per_round know * 0)%nat with 2%nat by lia. apply arg_last. rewrite Hsl1, Hl1. reflexivity.
      * intros j Hj. lia.
Qed.
End R.
