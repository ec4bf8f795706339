(** Opening succeeds when nothing gets in the way. *)
Require Import Verif.Base Verif.M_uuid Verif.M_adv Verif.M_cmd Verif.M_params Verif.S_params Verif.M_gap Verif.S_adv Verif.S_gap Verif.P_gap4 Verif.M_open Verif.S_open Verif.P_open Verif.P_open2.

Lemma calm_le : forall env t u, calm env t -> (t <= u)%nat -> calm env u.
Proof. intros env t u C L v V. apply C. lia. Qed.
Lemma open_calm : forall env w0 w id, below w0 -> at_fd w0 (FRaw None) w -> calm env (w_t w) -> free env (w_t w) (u16 id) -> ~ In (u16 id) (held w0) -> u16 id <> 65535 ->
  exists w', open env w (w_next w0) id = (w', true).
Proof.
  intros env w0 w id B A C F N X.
  assert (AV : forall w1, at_fd w0 (FRaw None) w1 -> (w_t w <= w_t w1)%nat -> available env w1 (u16 id) = true).
  { intros w1 A1 L. unfold available. destruct (F _ L) as [F1 F2]. rewrite F2. replace (bound_here w1 (u16 id)) with false.
    - rewrite !andb_true_r. apply existsb_exists. exists (u16 id). split; [exact F1|apply Z.eqb_refl].
    - symmetry. rewrite (bound_at _ _ _ A1). destruct (bound_here w0 (u16 id)) eqn:BH; [|reflexivity]. apply holds_held in BH. contradiction. }
  unfold open, sys_down. rewrite (at_file _ _ _ A). destruct (C (w_t w) (le_n _)) as (D & _). rewrite D, AV by (exact A || lia). cbn [negb andb].
  unfold sys_bind. rewrite (at_file _ _ _ (at_tick _ _ _ A)). assert (L : (w_t w <= w_t (tick w))%nat) by (cbn; lia). destruct (C _ L) as (D2 & _). rewrite D2, (AV _ (at_tick _ _ _ A) L).
  destruct (Z.eqb_spec (u16 id) 65535) as [Y|_]; [contradiction|]. cbn [negb andb].
  match goal with |- context [e_poll (env (w_t ?x))] => assert (L2 : (w_t w <= w_t x)%nat) by (cbn; lia); destruct (C _ L2) as (_ & P & _) end. rewrite P. eexists. reflexivity.
Qed.
Lemma new_calm : forall env w f, calm env (w_t w) -> exists w', sys_new env w f = (w', Some (w_next w)) /\ w_t w' = S (w_t w).
Proof. intros env w f C. unfold sys_new. destruct (C _ (le_n _)) as (D & _). rewrite D. eexists. split; reflexivity. Qed.
(** the transports that can be opened: an HCI device (not 0xFFFF, not -1) that is free and not held by this process, any address, any serial port *)
Definition openable (env : environ) (w : world) (t : wanted) : Prop :=
  match t with WHci id => id <> -1 /\ id mod 65536 <> 65535 /\ free env (w_t w) (id mod 65536) /\ ~ In (id mod 65536) (held w) | _ => True end.
Lemma socket_calm : forall env rounds w id, below w -> calm env (w_t w) -> openable env w (WHci id) -> exists w', new_socket env rounds w id = (w', Some (w_next w)).
Proof.
  intros env rounds w id B C (I & X & F & N). unfold new_socket. destruct (new_calm env w (FRaw None) C) as (w1 & E & T). rewrite E. destruct (Z.eqb_spec id (-1)) as [Y|_]; [contradiction|]. cbn [negb].
  destruct (new_at _ _ _ _ _ E) as [(Y & _)|(_ & A)]; [discriminate|].
  assert (C1 : calm env (w_t w1)) by (apply (calm_le env (w_t w)); [exact C|lia]). assert (F1 : free env (w_t w1) (u16 id)) by (intros u U; apply F; lia).
  destruct (open_calm env w w1 id B A C1 F1 N X) as (w2 & O). cbn [retry]. rewrite O. eexists. reflexivity.
Qed.
Lemma h4_calm : forall env f eof n w, calm env (w_t w) -> exists w', new_h4 env f eof (S n) w = Some (w', Some (w_next w)).
Proof.
  intros env f eof n w C. unfold new_h4. destruct (new_calm env w f C) as (w1 & E & T). rewrite E. unfold reset_and_wait. destruct (C (w_t w1) ltac:(lia)) as (D & _). rewrite D. cbn [wait_idle].
  destruct (C (w_t (tick w1)) ltac:(cbn; lia)) as (_ & _ & R & L & _). rewrite R, L. eexists. reflexivity.
Qed.
Lemma get_calm : forall env rounds n w t, below w -> calm env (w_t w) -> openable env w t -> exists w', get_transport env rounds (S n) w (tr_of (Some t)) = Some (w', Some (w_next w)).
Proof.
  intros env rounds n w t B C O. destruct t as [id|a tm|p b]; cbn [tr_of get_transport].
  - destruct (socket_calm env rounds w id B C O) as (w' & E). rewrite E. eexists. reflexivity.
  - apply h4_calm. exact C.
  - apply h4_calm. exact C.
Qed.
Lemma device_calm : forall env rounds n step w k opts c t, sane w -> calm env (w_t w) -> new_hci opts = Some c -> transport_for opts = Some t -> openable env w t -> params_valid c = true ->
  willing step -> ident_ok (c_id k) -> 1 < (if i_le_num (c_id k) =? 0 then i_acl_num (c_id k) else i_le_num (c_id k)) ->
  struct_value adv_fields (h_advp (g_host c)) -> struct_value scan_fields (h_scanp (g_host c)) ->
  exists w' k' c', new_device env rounds (S n) step w k opts = Some (Ret (w', k', NDev c' (w_next w))).
Proof.
  intros env rounds n step w k opts c t S C H T O P W IO NB V1 V2. unfold new_device. rewrite H. unfold init. rewrite (new_hci_tr _ _ H), T.
  destruct (get_calm env rounds n w t (sn_below _ S) C O) as (w1 & G). rewrite G, P. cbn [negb].
  assert (L : (w_t w <= w_t w1)%nat). { destruct (get_at _ _ _ _ (Some t) _ _ (sn_below _ S) G) as [(X & _)|(_ & t' & f & _ & _ & A & _)]; [discriminate|]. apply A. }
  change (w_t (run_loops w1 (w_next w))) with (w_t w1). destruct (C _ L) as (_ & _ & _ & _ & BR). rewrite BR.
  pose proof (init_will step (g_host c) k W IO V1 V2) as I. cbv zeta in I. rewrite I. destruct (1 <? (if i_le_num (c_id k) =? 0 then i_acl_num (c_id k) else i_le_num (c_id k))) eqn:Y; [|lia].
  cbn [gbind]. eexists _, _, _. reflexivity.
Qed.

(** the reads of resetAndWaitIdle *)
Lemma wait_reads : forall env eof n w w' ok, wait_idle env eof n w = Some (w', ok) -> exists m,
  w_t w' = S (w_t w + m) /\ (forall i, (i < m)%nat -> e_late (env (w_t w + i)%nat) = false /\ exists b, e_read (env (w_t w + i)%nat) = RData (S b)) /\
  (ok = true -> e_read (env (w_t w + m)%nat) = RData 0 \/ (e_read (env (w_t w + m)%nat) = RTimeout /\ e_late (env (w_t w + m)%nat) = false) \/ (eof = false /\ e_read (env (w_t w + m)%nat) = REof /\ e_late (env (w_t w + m)%nat) = false)) /\
  (ok = false -> e_late (env (w_t w + m)%nat) = true \/ e_read (env (w_t w + m)%nat) = RError \/ (eof = true /\ e_read (env (w_t w + m)%nat) = REof)).
Proof.
  intros env eof n. induction n as [|n IH]; intros w w' ok E; [discriminate|]. cbn [wait_idle] in E.
  assert (STOP : w' = tick w -> (ok = true -> e_read (env (w_t w)) = RData 0 \/ (e_read (env (w_t w)) = RTimeout /\ e_late (env (w_t w)) = false) \/ (eof = false /\ e_read (env (w_t w)) = REof /\ e_late (env (w_t w)) = false)) ->
    (ok = false -> e_late (env (w_t w)) = true \/ e_read (env (w_t w)) = RError \/ (eof = true /\ e_read (env (w_t w)) = REof)) -> exists m,
  w_t w' = S (w_t w + m) /\ (forall i, (i < m)%nat -> e_late (env (w_t w + i)%nat) = false /\ exists b, e_read (env (w_t w + i)%nat) = RData (S b)) /\
  (ok = true -> e_read (env (w_t w + m)%nat) = RData 0 \/ (e_read (env (w_t w + m)%nat) = RTimeout /\ e_late (env (w_t w + m)%nat) = false) \/ (eof = false /\ e_read (env (w_t w + m)%nat) = REof /\ e_late (env (w_t w + m)%nat) = false)) /\
  (ok = false -> e_late (env (w_t w + m)%nat) = true \/ e_read (env (w_t w + m)%nat) = RError \/ (eof = true /\ e_read (env (w_t w + m)%nat) = REof))).
  { intros -> S1 S2. exists 0%nat. rewrite !Nat.add_0_r. split; [reflexivity|]. split; [intros i I; lia|]. now split. }
  destruct (e_read (env (w_t w))) as [[|b]| | |] eqn:R.
  - injection E as <- <-. apply STOP; [reflexivity|auto|discriminate].
  - destruct (e_late (env (w_t w))) eqn:L; [injection E as <- <-; apply STOP; [reflexivity|discriminate|auto]|].
    destruct (IH _ _ _ E) as (m & T & D & O1 & O2). change (w_t (tick w)) with (S (w_t w)) in *. replace (S (w_t w) + m)%nat with (w_t w + S m)%nat in * by lia. exists (S m). split; [exact T|]. split; [|now split].
    intros [|i] I; [rewrite Nat.add_0_r; split; [exact L|eexists; exact R]|]. replace (w_t w + S i)%nat with (S (w_t w) + i)%nat by lia. apply D. lia.
  - destruct (e_late (env (w_t w))) eqn:L; injection E as <- <-; apply STOP; try reflexivity; try discriminate; auto.
  - destruct (e_late (env (w_t w))) eqn:L; injection E as <- <-; apply STOP; try reflexivity; try discriminate; auto; destruct eof; cbn; try discriminate; auto.
  - destruct (e_late (env (w_t w))) eqn:L; injection E as <- <-; apply STOP; try reflexivity; try discriminate; auto.
Qed.
Lemma wait_ends : forall env eof d w, e_late (env (w_t w + d)%nat) = true -> exists n r, wait_idle env eof n w = Some r.
Proof.
  intros env eof d. induction d as [|d IH]; intros w L.
  - exists 1%nat. cbn [wait_idle]. rewrite Nat.add_0_r in L. rewrite L. destruct (e_read (env (w_t w))) as [[|b]| | |]; eexists; reflexivity.
  - destruct (IH (tick w)) as (n & r & E); [cbn; replace (S (w_t w + d))%nat with (w_t w + S d)%nat by lia; exact L|]. exists (S n). cbn [wait_idle]. destruct (e_read (env (w_t w))) as [[|b]| | |]; destruct (e_late (env (w_t w))); try (eexists; reflexivity). exists r. exact E.
Qed.
