(** Property C33: controller buffer accounting, over every interleaving of any number of goroutines and connections.
    [steps (init cnt n) s]: s is reachable with cnt controller buffers and n goroutines, [free s] the pool's channel,
    [sent x] the buffers a connection holds, [ctrl x] (ghost) its packets still in the controller. *)
Require Import Verif.Base Verif.M_bufs Verif.P_bufs.
Require Import Permutation.

(** No buffer is ever lost, duplicated or invented: the free ones and the ones held by connections are the original ones. *)
Theorem C33_conserved : forall cnt n s, steps (init cnt n) s ->
  Permutation (free s ++ flat_map sent (conns s)) (seq 0 cnt).
Proof. exact conserved_reach. Qed.
Print Assumptions C33_conserved.

(** Once a connection has left the connection table and no goroutine is still in its cleanup,
    it holds no buffer and nobody is sending on it (so by conservation all its buffers are free or lent to others). *)
Theorem C33_disconnected_returns_all : forall cnt n s c x, steps (init cnt n) s -> nth_error (conns s) c = Some x -> inmap x = false ->
  (forall i, nth_error (threads s) i <> Some (CLock c) /\ nth_error (threads s) i <> Some (CPut c)) ->
  sent x = [] /\ forall i m, nth_error (threads s) i <> Some (WLoop c m) /\ nth_error (threads s) i <> Some (WWrite c m).
Proof.
  intros cnt n s c x HS Hx Hm Hn. destruct (inv_reach cnt n s HS) as (_ & _ & _ & _ & HC).
  destruct (HC c x Hx) as [_ H]. destruct (H Hm) as [A B].
  - intros i p Hp. destruct (Hn i) as [N1 N2]. destruct p; try reflexivity; cbn;
    match goal with |- Nat.eqb c ?d = false => destruct (Nat.eqb c d) eqn:E; [apply Nat.eqb_eq in E; subst; congruence|reflexivity] end.
  - split; [exact A|]. intros i m. split; intro C; specialize (B i _ C); cbn in B; rewrite Nat.eqb_refl in B; discriminate.
Qed.
Print Assumptions C33_disconnected_returns_all.

(** With a controller that reports only packets it holds: a live connection's outstanding packets are all backed by buffers it holds,
    and a goroutine about to hand a packet over holds one more. *)
Theorem C33_send_needs_buffer : forall cnt n s c x, hsteps (init cnt n) s -> nth_error (conns s) c = Some x -> inmap x = true ->
  (ctrl x <= length (sent x))%nat /\
  forall i m, nth_error (threads s) i = Some (WWrite c m) -> (ctrl x < length (sent x))%nat.
Proof.
  intros cnt n s c x HS Hx Hm. destruct (backed_reach cnt n s HS c x Hx Hm) as [A B]. split; [exact A|].
  intros i m Hi. exact (B i m Hi).
Qed.
Print Assumptions C33_send_needs_buffer.

(** hence the packets outstanding on live connections never exceed the number of controller buffers *)
Theorem C33_never_overcommits_live : forall cnt n s, hsteps (init cnt n) s ->
  (list_sum (map ctrl (filter inmap (conns s))) <= cnt)%nat.
Proof.
  intros cnt n s HS. assert (P := conserved_reach cnt n s (hsteps_steps _ _ HS)). apply Permutation_length in P.
  rewrite app_length, seq_length in P. unfold held in P. assert (B := backed_reach cnt n s HS).
  assert (L : (list_sum (map ctrl (filter inmap (conns s))) <= length (flat_map sent (conns s)))%nat); [|lia].
  assert (F : forall x, In x (conns s) -> inmap x = true -> (ctrl x <= length (sent x))%nat).
  { intros x Hx Hm. apply In_nth_error in Hx. destruct Hx as [c Hc]. apply (B c x Hc Hm). }
  clear B P HS. induction (conns s) as [|x l IH]; [cbn; lia|]. cbn [filter flat_map]. rewrite app_length.
  assert (IH' := IH (fun y Hy => F y (or_intror Hy))). destruct (inmap x) eqn:E; cbn [map list_sum fold_right] in *.
  - specialize (F x (or_introl eq_refl) E). unfold list_sum in *. cbn. lia.
  - lia.
Qed.
Print Assumptions C33_never_overcommits_live.

(** Only the holder of the pool lock touches buffers for a write: two goroutines never interleave their fragments. *)
Theorem C33_one_writer : forall cnt n s i j c d k m p q, steps (init cnt n) s ->
  nth_error (threads s) i = Some p -> nth_error (threads s) j = Some q ->
  (p = WLoop c k \/ p = WWrite c k) -> (q = WLoop d m \/ q = WWrite d m) -> i = j.
Proof.
  intros cnt n s i j c d k m p q HS Hi Hj Hp Hq. destruct (inv_reach cnt n s HS) as (HL & _).
  assert (A := HL i p Hi). assert (B := HL j q Hj).
  destruct Hp as [-> | ->], Hq as [-> | ->]; specialize (A eq_refl); specialize (B eq_refl); congruence.
Qed.
Print Assumptions C33_one_writer.

(** a schedule used by the examples below: one buffer, a write of two fragments under way, the first one in the controller *)
Definition mid : st := mkSt [] [mkC [0%nat] false true 1] [WLoop 0 1; TIdle] (Some 0%nat) None.
Lemma mid_reach : hsteps (init 1 2) mid.
Proof.
  eapply hsteps_one. eapply hsteps_one. eapply hsteps_one. eapply hsteps_one. eapply hsteps_one. eapply hsteps_one. apply hsteps_refl.
  - apply (s_connect _ 0); reflexivity.
  - intros c x x' H. destruct c; discriminate.
  - apply (s_write _ 0 0 2); [reflexivity|cbn; lia].
  - intros c x x' H H'. assert (x = x') by (cbn in *; congruence). subst. lia.
  - apply (s_lock _ 0 0 2); reflexivity.
  - intros c x x' H H'. assert (x = x') by (cbn in *; congruence). subst. lia.
  - eapply (s_check_open _ 0 0 2); reflexivity.
  - intros c x x' H H'. assert (x = x') by (cbn in *; congruence). subst. lia.
  - eapply (s_get _ 0 0 1); reflexivity.
  - intros [|[|c]] x x' H H'; cbn in H, H'; try discriminate. injection H as <-. cbn. lia.
  - match goal with |- step ?a _ => exact (s_write_ok a 0 0 1 (mkC [0%nat] false true 0) eq_refl eq_refl eq_refl) end.
  - intros [|[|c]] x x' H H'; cbn in H, H'; try discriminate. injection H as <-. injection H' as <-. cbn. lia.
Qed.
Example C33_mid : ctrl (nth 0 (conns mid) (mkC [] false false 0)) = 1%nat /\ sent (nth 0 (conns mid) (mkC [] false false 0)) = [0%nat].
Proof. split; reflexivity. Qed.

(** REFUTED (progress): if the peer disconnects while a writer waits for a free buffer, the cleanup waits for the writer's lock,
    the writer waits for a buffer only the cleanup (or a completed-packets event, which needs the lock the cleanup holds) can return:
    from a reachable state, in every continuation, no buffer is ever freed and both goroutines stay where they are. *)
Theorem C92_disconnect_deadlock_refuted : exists s, steps (init 1 2) s /\
  forall s', steps s s' -> free s' = [] /\ (exists m, nth_error (threads s') 0 = Some (WLoop 0 (S m))) /\ nth_error (threads s') 1 = Some (CLock 0).
Proof.
  pose (s := set_mlock (set_thread (set_conn mid 0 (mkC [0%nat] true false 1)) 1 (CLock 0)) (Some 1%nat)).
  assert (R : steps (init 1 2) s).
  { eapply steps_one; [apply hsteps_steps, mid_reach|]. apply (s_clean mid 1 0 (mkC [0%nat] false true 1)); reflexivity. }
  assert (S0 : stuck 0 s).
  { unfold stuck. split; [reflexivity|]. split; [reflexivity|]. split; [reflexivity|]. split; [exists 0%nat; reflexivity|reflexivity]. }
  exists s. split; [exact R|]. intros s' HS. clearbody s.
  assert (G : inv s' /\ stuck 0 s').
  { induction HS as [|s1 s2 s3 HS IH H1].
    - split; [eapply inv_reach; exact R|exact S0].
    - destruct (IH R S0) as [I J]. split; [|eapply stuck_step; eauto].
      destruct I as (A & B & C & D & F). unfold inv.
      split; [eapply lock_ok_step; eauto|]. split; [eapply mlock_ok_step; eauto|]. split; [eapply writer_ok_step; eauto|].
      split; [eapply closing_ok_step; eauto|eapply clean_ok_step; eauto]. }
  destruct G as [_ (S1 & _ & _ & S4 & S5)]. auto.
Qed.
Print Assumptions C92_disconnect_deadlock_refuted.

(** REFUTED (controller side): Close gives the connection's buffers back at once, though the controller may still hold its packets:
    a reachable state has more packets in the controller than it has buffers. *)
Theorem C92_close_overcommits_refuted : exists s, steps (init 1 1) s /\ (1 < list_sum (map ctrl (conns s)))%nat.
Proof.
  eexists. split.
  - assert (T : forall s1 s2 s3, step s1 s2 -> steps s2 s3 -> steps s1 s3).
    { intros s1 s2 s3 H1 H2. induction H2; [econstructor; [constructor|exact H1]|econstructor; eauto]. }
    eapply T; [apply (s_connect _ 0); reflexivity|]. 
    eapply T; [apply (s_write _ 0 0 1); [reflexivity|cbn; lia]|].
    eapply T; [apply (s_lock _ 0 0 1); reflexivity|].
    eapply T; [eapply (s_check_open _ 0 0 1); reflexivity|].
    eapply T; [eapply (s_get _ 0 0 0); reflexivity|].
    eapply T; [eapply (s_write_ok _ 0 0 0); reflexivity|].
    eapply T; [apply (s_end _ 0 0); reflexivity|].
    eapply T; [eapply (s_clean _ 0 0); reflexivity|].
    eapply T; [apply (s_clean_lock _ 0 0); reflexivity|].
    eapply T; [eapply (s_clean_put _ 0 0); reflexivity|].
    eapply T; [apply (s_connect _ 0); reflexivity|].
    eapply T; [apply (s_write _ 0 1 1); [reflexivity|cbn; lia]|].
    eapply T; [apply (s_lock _ 0 1 1); reflexivity|].
    eapply T; [eapply (s_check_open _ 0 1 1); reflexivity|].
    eapply T; [eapply (s_get _ 0 1 0); reflexivity|].
    eapply T; [eapply (s_write_ok _ 0 1 0); reflexivity|].
    apply steps_refl.
  - cbn. lia.
Qed.
Print Assumptions C92_close_overcommits_refuted.
