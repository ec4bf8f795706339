(** Whole legacy pairings. *)
Require Import Verif.Base Verif.M_smp Verif.S_smp Verif.P_smp Verif.P_smp2 Verif.P_smp6 Verif.P_smp7 Verif.P_smp9.

Section R.
Variable C : prims.
Variable HC : prims_ok C.
Variables (la ra : bytes) (lat rat : Z).
Hypothesis Hla : length la = 6%nat.
Hypothesis Hra : length ra = 6%nat.
Notation s0 := (smp_new la ra lat rat).
Variables (ka : Z) (E : nat -> env).
Hypothesis HE : forall n, calm ka (E n).

Definition at_addrs (p : pctx) : Prop := p_laddr p = rev la /\ p_raddr p = rev ra /\ p_lat p = lat /\ p_rat p = rat.
(** The confirm value of nonce [n] in the present exchange. *)
Definition lconf (tk n : bytes) (req rsp : smpcfg) : bytes :=
  rev (c1 C tk (rev n) (rev (2 :: cfg_bytes rsp)) (rev (1 :: cfg_bytes req)) rat lat la ra).

Lemma c1_runs : forall p n, at_addrs p -> length n = 16%nat ->
  smpC1 C (legacy_tk p) n (buildPairingReq (p_req p)) (buildPairingRsp (p_rsp p)) (p_lat p) (p_rat p) (p_laddr p) (p_raddr p) =
  Ret (Some (lconf (tk_op p) n (p_req p) (p_rsp p))).
Proof.
  intros p n (A1 & A2 & A3 & A4) Hn. rewrite A1, A2, A3, A4.
  rewrite C1_spec; try assumption; try (rewrite rev_length; assumption); try apply legacy_tk_len; try reflexivity.
  rewrite !rev_involutive, tk_op_rev. reflexivity.
Qed.
Lemma lconf_len : forall tk n a b, length (lconf tk n a b) = 16%nat.
Proof. intros. unfold lconf, c1. rewrite rev_length. apply HC. Qed.

Lemma lrsp_runs : forall c e p t tk na req, calm ka e -> at_addrs p -> isLegacy (auth_req c) = true -> determinePairingType (p_req p) c true = Ret t ->
  (t = Oob -> p_oobdata p <> []) ->
  p_req p = req -> e_rand e = na -> match t with Passkey => passkey_op (p_passkey p) | _ => repeat 0 16 end = tk ->
  runs (smpOnPairingResponse C e (cfg_bytes c)) p (set_st WaitConfirm (set_lrand (Some na) (set_type t (set_legacy true (set_type JustWorks (set_iter 0%nat (set_rsp c p)))))))
    [OSend (frame (3 :: lconf tk na req c))] tt.
Proof.
  intros c e p t tk na req He Ha Hsc Ht Hno <- <- <-. unfold smpOnPairingResponse, cfg_bytes. destruct c as [c1 c2 c3 c4 c5 c6]. cbn [io_cap oob_flag auth_req key_size init_dist resp_dist] in *.
  eapply r_conv.
  - rstep; [rstep|]. rstep; [rstep|]. rstep; [rstep|]. rstep.
    { rstep. sp. rewrite Hsc. exact Ht. }
    rstep; [rstep|]. rstep; [rstep|]. sp.
    replace (match t with Oob => true | _ => false end && len_is 0 (p_oobdata p)) with false.
    2:{ symmetry. apply not_true_is_false. intro X. apply andb_true_iff in X. destruct X as [X1 X2]. apply len_is_eq, length_zero_iff_nil in X2.
        destruct t; try discriminate. now apply Hno. }
    cbv iota. rewrite Hsc. cbv iota. unfold sendMConfirm. rstep; [rstep; apply He|]. rstep; [rstep|]. rstep; [rstep|].
    rstep; [rstep; apply c1_runs; [exact Ha|apply He]|]. rstep; [rstep|]. apply send_runs. apply He.
  - sp. rewrite ?Hsc. reflexivity.
  - sp. rewrite ?Hsc. reflexivity.
Qed.

Lemma lrand_runs : forall e p na nb, calm ka e -> at_addrs p -> p_legacy p = true -> p_lrand p = Some na -> length na = 16%nat -> length nb = 16%nat ->
  p_rconf p = lconf (tk_op p) nb (p_req p) (p_rsp p) -> Z.land (auth_req (p_req p)) 3 = 1 ->
  forall stk, stk = rev (s1 C (tk_op p) (rev nb) (rev na)) ->
  runs (smpOnPairingRandom C e nb) p (set_stk stk (set_rrand nb p)) [OStartEnc stk 0 0] tt.
Proof.
  intros e p na nb He Ha Hl Hna Lna Hn Hc Hau stk Hstk. unfold smpOnPairingRandom, len_is. rewrite Hn. cbn [Nat.eqb].
  assert (Ls : length stk = 16%nat) by (rewrite Hstk; unfold s1; rewrite rev_length; apply HC).
  eapply r_conv.
  - rstep; [rstep|]. rstep; [rstep|]. cbn [set_rrand p_legacy]. rewrite Hl. unfold onLegacyRandom. rstep.
    { unfold checkLegacyConfirm. rstep; [rstep|]. rstep; [rstep; exact (c1_runs (set_rrand nb p) nb Ha Hn)|].
      rstep. sp. rewrite Hc. apply beq_bytes_refl. }
    rstep; [rstep|]. rstep.
    { rstep. sp. unfold lrand. sp. rewrite Hna. rewrite S1_spec; try assumption; try apply legacy_tk_len. rewrite tk_op_rev. change (tk_op (set_rrand nb p)) with (tk_op p). rewrite <- Hstk. reflexivity. }
    rstep; [rstep|]. sp. rewrite Hau. cbn [Z.eqb]. rstep; [rstep|]. unfold Encrypt. rstep; [rstep|]. unfold conn_encrypt. rstep; [rstep|]. sp. rewrite Hl.
    unfold len_is. rewrite Ls. cbn [Nat.eqb negb andb]. cbv iota. rstep; [rstep; unfold key_array; rewrite Ls; reflexivity|].
    rstep; [rstep|]. rstep. apply He.
  - reflexivity.
  - cbn [app]. change (blank (16 - 16)) with (@nil Z). rewrite app_nil_r. reflexivity.
Qed.

Lemma info_runs : forall e p k, runs (smpOnEncryptionInformation e k) p (set_bond (Some (mkBond k 0 0 true)) p) [] tt.
Proof. intros. apply r_modify. Qed.
Lemma mid_runs : forall e p d0 d1 r bi, calm ka e -> length r = 8%nat -> p_bond p = Some bi -> Z.land (auth_req (p_req p)) 3 = 1 ->
  let b := mkBond (ltk bi) (d0 + 256 * d1) (le_val r) true in
  runs (smpOnMasterIdentification e (d0 :: d1 :: r)) p (set_st Finished (set_bond (Some b) p)) [OSave (p_raddr p) b] tt.
Proof.
  intros e p d0 d1 r bi He Hr Hb Hau b. unfold smpOnMasterIdentification.
  eapply r_conv.
  - rstep; [rstep; reflexivity|]. rstep; [rstep; reflexivity|]. rstep; [rstep; reflexivity|]. cbn [skipn].
    rstep; [rstep|].
    { unfold gslice. rewrite Hr. cbn [Nat.leb andb Nat.sub skipn]. rewrite firstn_all2 by lia. reflexivity. }
    rstep; [rstep|]. rewrite Hb. rstep; [rstep|]. rstep.
    { unfold saveBondInfo. rstep; [rstep|]. sp. rewrite Hau. cbn [Z.eqb Pos.eqb negb]. cbv iota. rstep; [rstep|]. rstep. apply He. }
    rstep.
  - reflexivity.
  - reflexivity.
Qed.

Lemma srun_six : forall s a1 e1 s1 a2 e2 s2 a3 e3 s3 a4 e4 s4 a5 e5 s5 a6 e6 s6,
  sstep C s a1 = Some (Ret (s1, e1)) -> sstep C s1 a2 = Some (Ret (s2, e2)) -> sstep C s2 a3 = Some (Ret (s3, e3)) ->
  sstep C s3 a4 = Some (Ret (s4, e4)) -> sstep C s4 a5 = Some (Ret (s5, e5)) -> sstep C s5 a6 = Some (Ret (s6, e6)) ->
  srun C s [(a1, e1); (a2, e2); (a3, e3); (a4, e4); (a5, e5); (a6, e6)] s6.
Proof.
  intros. change (srun C s ((((([] ++ [(a1, e1)]) ++ [(a2, e2)]) ++ [(a3, e3)]) ++ [(a4, e4)]) ++ [(a5, e5)] ++ [(a6, e6)]) s6).
  rewrite app_assoc. repeat (eapply srun_snoc; [|eassumption]). apply srun_nil.
Qed.

(** The request of a call with out-of-band data [o]. *)
Definition req_of (o : bytes) : smpcfg := if Nat.ltb 0 (length o) then mkCfg 4 1 9 16 0 1 else default_cfg.

(** What is known of the device after each message. *)
Definition at1 k o (p : pctx) : Prop := at_addrs p /\ p_req p = req_of o /\ p_oobdata p = o /\ p_passkey p = k.
Definition at2 tk na o c (p : pctx) : Prop := at_addrs p /\ p_req p = req_of o /\ p_rsp p = c /\ p_legacy p = true /\ p_lrand p = Some na /\ tk_op p = tk.
Definition at3 tk na nb o c (p : pctx) : Prop := at2 tk na o c p /\ p_rconf p = lconf tk nb (req_of o) c /\ p_st p <> Finished.
Definition at4 o (p : pctx) : Prop := p_raddr p = rev ra /\ p_req p = req_of o /\ p_st p <> Finished.
Definition at5 key o (p : pctx) : Prop := p_raddr p = rev ra /\ p_req p = req_of o /\ p_bond p = Some (mkBond key 0 0 true).
Lemma req_bonds : forall o, Z.land (auth_req (req_of o)) 3 = 1.
Proof. intro o. unfold req_of. destruct (Nat.ltb 0 (length o)); reflexivity. Qed.

Lemma leg1 : forall e k o, calm ka e -> exists p, at1 k o p /\
  sstep C s0 (APair e k o) = Some (Ret (mkSmp p true false false, [EOut (OSend (frame (1 :: cfg_bytes (req_of o))))])).
Proof.
  intros e k o He. unfold at1, req_of. cbn [sstep]. unfold Pair. cbn [ctx smp_new p_st].
  destruct (Nat.ltb 0 (length o)); unfold StartPairing, sendPairingRequest, send, bind, modify, get, emit, must; rewrite (proj1 He).
  all: eexists; (split; [|reflexivity]); repeat split.
Qed.
Lemma leg2 : forall e k o c t p, calm ka e -> at1 k o p -> isLegacy (auth_req c) = true -> determinePairingType (req_of o) c true = Ret t -> (t = Oob -> o <> []) ->
  let tk := match t with Passkey => passkey_op k | _ => repeat 0 16 end in
  exists p', at2 tk (e_rand e) o c p' /\
  sstep C (mkSmp p true false false) (AMsg e (frame (2 :: cfg_bytes c))) =
    Some (Ret (mkSmp p' true false false, [EOut (OSend (frame (3 :: lconf tk (e_rand e) (req_of o) c)))])).
Proof.
  intros e k o c t p He (A & Q & O & K) Hsc Ht Hno tk.
  assert (T : match t with Passkey => passkey_op (p_passkey p) | _ => repeat 0 16 end = tk) by (rewrite K; reflexivity).
  rewrite <- Q in Ht. rewrite <- O in Hno.
  pose proof (lrsp_runs c e p t tk (e_rand e) (req_of o) He A Hsc Ht Hno Q eq_refl T) as R.
  eexists. split; [|cbn [sstep stuck]; apply f_equal; exact (Handle_runs C e (mkSmp p true false false) 2 (cfg_bytes c) _ _ _ eq_refl R ltac:(discriminate))].
  split; [exact A|]. split; [exact Q|]. split; [reflexivity|]. split; [reflexivity|]. split; [reflexivity|]. exact T.
Qed.
Lemma leg3 : forall e tk na nb o c p, calm ka e -> at2 tk na o c p -> length nb = 16%nat ->
  exists p', at3 tk na nb o c p' /\
  sstep C (mkSmp p true false false) (AMsg e (frame (3 :: lconf tk nb (req_of o) c))) = Some (Ret (mkSmp p' true false false, [EOut (OSend (frame (4 :: na)))])).
Proof.
  intros e tk na nb o c p He H Hn. pose proof H as (A & Q & R & L & N & T).
  pose proof (conf_runs e (lconf tk nb (req_of o) c) p na (lconf_len _ _ _ _) (proj1 He) N) as X.
  eexists. split; [|cbn [sstep stuck]; apply f_equal; exact (Handle_runs C e (mkSmp p true false false) 3 _ _ _ _ eq_refl X ltac:(discriminate))].
  split; [exact H|]. split; [reflexivity|discriminate].
Qed.
Lemma leg4 : forall e tk na nb o c p, calm ka e -> at3 tk na nb o c p -> length na = 16%nat -> length nb = 16%nat ->
  exists p', at4 o p' /\
  sstep C (mkSmp p true false false) (AMsg e (frame (4 :: nb))) = Some (Ret (mkSmp p' true false false, [EOut (OStartEnc (rev (s1 C tk (rev nb) (rev na))) 0 0)])).
Proof.
  intros e tk na nb o c p He ((A & Q & R & L & N & T) & F & D) Hna Hnb.
  rewrite <- T, <- Q, <- R in F.
  assert (M : Z.land (auth_req (p_req p)) 3 = 1) by (rewrite Q; apply req_bonds).
  assert (S : rev (s1 C tk (rev nb) (rev na)) = rev (s1 C (tk_op p) (rev nb) (rev na))) by (rewrite T; reflexivity).
  pose proof (lrand_runs e p na nb He A L N Hna Hnb F M _ S) as X.
  eexists. split; [|cbn [sstep stuck]; apply f_equal; exact (Handle_runs C e (mkSmp p true false false) 4 _ _ _ _ eq_refl X D)].
  split; [apply A|]. split; [exact Q|exact D].
Qed.
Lemma leg5 : forall e key o p, at4 o p -> exists p', at5 key o p' /\
  sstep C (mkSmp p true false false) (AMsg e (frame (6 :: key))) = Some (Ret (mkSmp p' true false false, [])).
Proof.
  intros e key o p (A & Q & D).
  eexists. split; [|cbn [sstep stuck]; apply f_equal; exact (Handle_runs C e (mkSmp p true false false) 6 _ _ _ _ eq_refl (info_runs e p key) D)].
  split; [exact A|]. split; [exact Q|reflexivity].
Qed.
Lemma leg6 : forall e key o d0 d1 r p, calm ka e -> at5 key o p -> length r = 8%nat -> exists s',
  sstep C (mkSmp p true false false) (AMsg e (frame (7 :: d0 :: d1 :: r))) =
    Some (Ret (s', [EOut (OSave (rev ra) (mkBond key (d0 + 256 * d1) (le_val r) true)); EPairRet true])).
Proof.
  intros e key o d0 d1 r p He (A & Q & B) Hr.
  assert (M : Z.land (auth_req (p_req p)) 3 = 1) by (rewrite Q; apply req_bonds).
  pose proof (mid_runs e p d0 d1 r _ He Hr B M) as X. cbv zeta in X. cbn [ltk] in X. rewrite A in X.
  eexists. cbn [sstep stuck]. apply f_equal.
  exact (Handle_runs_end C e (mkSmp p true false false) 7 _ _ _ _ eq_refl X eq_refl eq_refl).
Qed.

Theorem legacy_pairing : forall c k o nb t key d0 d1 r, isLegacy (auth_req c) = true -> determinePairingType (req_of o) c true = Ret t -> (t = Oob -> o <> []) ->
  length nb = 16%nat -> length r = 8%nat ->
  let tk := match t with Passkey => passkey_op k | _ => repeat 0 16 end in
  let na := e_rand (E 1%nat) in
  exists s, srun C s0
   [(APair (E 0%nat) k o, [EOut (OSend (frame (1 :: cfg_bytes (req_of o))))]);
    (AMsg (E 1%nat) (frame (2 :: cfg_bytes c)), [EOut (OSend (frame (3 :: lconf tk na (req_of o) c)))]);
    (AMsg (E 2%nat) (frame (3 :: lconf tk nb (req_of o) c)), [EOut (OSend (frame (4 :: na)))]);
    (AMsg (E 3%nat) (frame (4 :: nb)), [EOut (OStartEnc (rev (s1 C tk (rev nb) (rev na))) 0 0)]);
    (AMsg (E 4%nat) (frame (6 :: key)), []);
    (AMsg (E 5%nat) (frame (7 :: d0 :: d1 :: r)), [EOut (OSave (rev ra) (mkBond key (d0 + 256 * d1) (le_val r) true)); EPairRet true])] s.
Proof.
  intros c k o nb t key d0 d1 r Hsc Ht Hno Hnb Hr tk na.
  destruct (leg1 (E 0%nat) k o (HE 0%nat)) as (p1 & P1 & H1).
  destruct (leg2 (E 1%nat) k o c t p1 (HE 1%nat) P1 Hsc Ht Hno) as (p2 & P2 & H2).
  destruct (leg3 (E 2%nat) _ _ nb o c p2 (HE 2%nat) P2 Hnb) as (p3 & P3 & H3).
  destruct (leg4 (E 3%nat) _ _ nb o c p3 (HE 3%nat) P3 (proj1 (proj2 (HE 1%nat))) Hnb) as (p4 & P4 & H4).
  destruct (leg5 (E 4%nat) key o p4 P4) as (p5 & P5 & H5).
  destruct (leg6 (E 5%nat) key o d0 d1 r p5 (HE 5%nat) P5 Hr) as (s6 & H6).
  exists s6. exact (srun_six _ _ _ _ _ _ _ _ _ _ _ _ _ _ _ _ _ _ _ H1 H2 H3 H4 H5 H6).
Qed.
End R.
