(** Attribute client goroutines: C27 (transactions), C28 (indications and notifications). *)
Require Import Verif.Base Verif.M_attcli Verif.M_attloop Verif.S_attloop Verif.P_attloop.

(** ---- C27 ---- *)
(** At most one request is unanswered at any time. *)
Theorem C27_one_request : forall n t s, lruns (linit n) t s -> 0 <= open_requests t <= 1.
Proof.
  intros n t s H. assert (I := inv_runs _ _ _ H). rewrite (iv_open _ _ I). assert (Q := waits_active (callers s)). rewrite (iv_tok _ _ I) in Q. unfold cnt in *. destruct (token s); lia.
Qed.
Print Assumptions C27_one_request.
(** A call returns an error response or the response of its own request's opcode, while that request is the open one. *)
Theorem C27_own_opcode : forall n t s t1 k b t2, lruns (linit n) t s -> t = t1 ++ EGot k b :: t2 ->
  exists u op r v, t1 = u ++ ESent k (op :: r) :: v /\ Forall (fun e => ~ is_req_ev e) v /\ (hd 0 b = 1 \/ hd 0 b = rsp_of_req op).
Proof.
  intros n t s t1 k b t2 H E. destruct (run_split _ _ _ H _ _ _ E) as (ta & sa & e1 & e2 & sb & RA & SA & EA). destruct (got_step _ _ _ _ _ _ SA) as (-> & op & K & BL & M).
  rewrite app_nil_r in EA. subst ta. destruct (iv_wait _ _ (inv_runs _ _ _ RA) k op K) as (u & r & v & -> & F). exists u, op, r, v. split; [reflexivity|]. split; [exact F|]. unfold matches in M. lia.
Qed.
Print Assumptions C27_own_opcode.
(** Responses are consumed in the order received, each at most once: those returned or rejected are all of those received but possibly the last. *)
Theorem C27_each_response_once : forall n t s, lruns (linit n) t s -> exists rest, responses t = taken t ++ rest /\ (length rest <= 1)%nat.
Proof. intros n t s H. assert (I := inv_runs _ _ _ H). eexists. split; [apply (iv_rsp _ _ I)|]. destruct (blk s); cbn; lia. Qed.
Print Assumptions C27_each_response_once.
(** If the peer only answers open requests and no call gave up, the response returned by a call arrived after its request. *)
Theorem C27_fresh : forall n t s t1 k b t2, lruns (linit n) t s -> polite t -> (forall j, ~ In (EGave j) t) -> t = t1 ++ EGot k b :: t2 ->
  exists u req v w, t1 = u ++ ESent k req :: v ++ ERx b :: w /\ Forall (fun e => ~ is_req_ev e) v /\ Forall (fun e => ~ is_req_ev e) w.
Proof.
  intros n t s t1 k b t2 H P N E. destruct (run_split _ _ _ H _ _ _ E) as (ta & sa & e1 & e2 & sb & RA & SA & EA). destruct (got_step _ _ _ _ _ _ SA) as (-> & op & K & BL & M).
  rewrite app_nil_r in EA. subst ta. subst t. apply polite_app in P. assert (N1 : no_give t1) by (intros j J; apply (N j), in_or_app; now left).
  destruct (fresh_runs _ _ _ RA P N1 b BL) as (u & k' & op' & r & v & w & -> & F1 & F2 & K'). assert (k' = k) by (eapply waiter_unique; [exact (inv_runs _ _ _ RA)|exact K'|exact K|reflexivity]). subst k'.
  now exists u, (op' :: r), v, w.
Qed.
Print Assumptions C27_fresh.
(** examples *)
Definition hold (c : list kph) : lst := mkL false c None [] [] false true.
Lemma ex_run : lruns (linit 2) [ESent 0 [10; 1; 0]; ERx [11; 7]; EGot 0 [11; 7]; ESent 1 [10; 2; 0]] (hold [KIdle; KWait 10]).
Proof.
  assert (R0 := lr_nil (linit 2)).
  assert (R1 := lr_step _ _ _ _ _ R0 (l_acquire (linit 2) 0 eq_refl eq_refl)).
  assert (R2 := lr_step _ _ _ _ _ R1 (l_send (hold [KHold; KIdle]) 0 10 [1; 0] eq_refl)).
  assert (R3 := lr_step _ _ _ _ _ R2 (l_rx (hold [KWait 10; KIdle]) [11; 7] eq_refl eq_refl)).
  assert (R4 := lr_step _ _ _ _ _ R3 (l_got (mkL false [KWait 10; KIdle] (Some [11; 7]) [] [] false true) 0 10 [11; 7] eq_refl eq_refl eq_refl)).
  assert (R5 := lr_step _ _ _ _ _ R4 (l_acquire (linit 2) 1 eq_refl eq_refl)).
  exact (lr_step _ _ _ _ _ R5 (l_send (hold [KIdle; KHold]) 1 10 [2; 0] eq_refl)).
Qed.
Example C27_example : exists t s, lruns (linit 2) t s /\ polite t /\ In (EGot 0 [11; 7]) t.
Proof.
  eexists _, _. split; [exact ex_run|]. split; [|cbn; tauto]. intros t1 b t2 E R. destruct t1 as [|e1 t1]; [discriminate|]. injection E as <- E. destruct t1 as [|e2 t1].
  - injection E as <- _. exists [], 0%nat, [10; 1; 0], []. split; [reflexivity|constructor].
  - injection E as <- E. destruct t1 as [|e3 t1]; [discriminate|]. injection E as <- E. destruct t1 as [|e4 t1]; [discriminate|]. injection E as <- E. destruct t1; discriminate.
Qed.
(** A response sent before the request is returned as its answer. *)
Theorem C84_unsolicited_refuted : exists s, lruns (linit 1) [ERx [11; 9]; ESent 0 [10; 1; 0]; EGot 0 [11; 9]] s.
Proof.
  assert (R0 := lr_nil (linit 1)).
  assert (R1 := lr_step _ _ _ _ _ R0 (l_rx (linit 1) [11; 9] eq_refl eq_refl)).
  assert (R2 := lr_step _ _ _ _ _ R1 (l_acquire (mkL true [KIdle] (Some [11; 9]) [] [] false true) 0 eq_refl eq_refl)).
  assert (R3 := lr_step _ _ _ _ _ R2 (l_send (mkL false [KHold] (Some [11; 9]) [] [] false true) 0 10 [1; 0] eq_refl)).
  eexists. exact (lr_step _ _ _ _ _ R3 (l_got (mkL false [KWait 10] (Some [11; 9]) [] [] false true) 0 10 [11; 9] eq_refl eq_refl eq_refl)).
Qed.
Print Assumptions C84_unsolicited_refuted.
(** The answer to a request that timed out is returned as the answer to the next one. *)
Theorem C84_late_response_refuted : exists s, lruns (linit 1) [ESent 0 [10; 1; 0]; EGave 0; ERx [11; 1]; ESent 0 [10; 2; 0]; EGot 0 [11; 1]] s.
Proof.
  assert (R0 := lr_nil (linit 1)).
  assert (R1 := lr_step _ _ _ _ _ R0 (l_acquire (linit 1) 0 eq_refl eq_refl)).
  assert (R2 := lr_step _ _ _ _ _ R1 (l_send (hold [KHold]) 0 10 [1; 0] eq_refl)).
  assert (R3 := lr_step _ _ _ _ _ R2 (l_timeout (hold [KWait 10]) 0 10 eq_refl)).
  assert (R4 := lr_step _ _ _ _ _ R3 (l_rx (linit 1) [11; 1] eq_refl eq_refl)).
  assert (R5 := lr_step _ _ _ _ _ R4 (l_acquire (mkL true [KIdle] (Some [11; 1]) [] [] false true) 0 eq_refl eq_refl)).
  assert (R6 := lr_step _ _ _ _ _ R5 (l_send (mkL false [KHold] (Some [11; 1]) [] [] false true) 0 10 [2; 0] eq_refl)).
  eexists. exact (lr_step _ _ _ _ _ R6 (l_got (mkL false [KWait 10] (Some [11; 1]) [] [] false true) 0 10 [11; 1] eq_refl eq_refl eq_refl)).
Qed.
Print Assumptions C84_late_response_refuted.

(** ---- C28 ---- *)
(** Exactly one confirmation per indication read, none otherwise. *)
Theorem C28_confirmed_once : forall n t s, lruns (linit n) t s -> confirmations t = indications t.
Proof. intros n t s H. apply (nv_cfm _ _ (ninv_runs _ _ _ H)). Qed.
Print Assumptions C28_confirmed_once.
(** Notifications received are those handed to the handler, in order, then at most 16 waiting ones, interleaved with the dropped ones. *)
Theorem C28_in_order : forall n t s, lruns (linit n) t s -> exists waiting, merge (handed t ++ waiting) (drops t) (notes t) /\ (length waiting <= 16)%nat.
Proof. intros n t s H. destruct (ninv_runs _ _ _ H) as [M L _]. now exists (nq s). Qed.
Print Assumptions C28_in_order.
(** One is dropped only when 16 wait. *)
Theorem C28_dropped_only_when_full : forall n t s t1 b t2, lruns (linit n) t s -> t = t1 ++ EDrop b :: t2 ->
  exists t0, t1 = t0 ++ [ERx b] /\ notification_pdu b = true /\ length (notes t0) = (length (handed t0) + length (drops t0) + 16)%nat.
Proof.
  intros n t s t1 b t2 H E. destruct (run_split _ _ _ H _ _ _ E) as (ta & sa & e1 & e2 & sb & RA & SA & EA). destruct (ninv_runs _ _ _ RA) as [M L _].
  destruct (drop_step _ _ _ _ _ L SA) as (-> & N & Q). exists ta. split; [exact EA|]. split; [exact N|]. apply merge_length in M. rewrite app_length in M. lia.
Qed.
Print Assumptions C28_dropped_only_when_full.
Example C28_example : exists s, lruns (linit 0) [ERx [29; 3; 0; 1]; ECfm; ERx [27; 3; 0; 2]; ENotify [29; 3; 0; 1]; ENotify [27; 3; 0; 2]] s.
Proof.
  assert (R0 := lr_nil (linit 0)).
  assert (R1 := lr_step _ _ _ _ _ R0 (l_rx (linit 0) [29; 3; 0; 1] eq_refl eq_refl)).
  assert (R2 := lr_step _ _ _ _ _ R1 (l_rx (mkL true [] None [[29; 3; 0; 1]] [] false true) [27; 3; 0; 2] eq_refl eq_refl)).
  assert (R3 := lr_step _ _ _ _ _ R2 (l_notify (mkL true [] None [[29; 3; 0; 1]; [27; 3; 0; 2]] [] false true) _ _ eq_refl)).
  eexists. exact (lr_step _ _ _ _ _ R3 (l_notify (mkL true [] None [[27; 3; 0; 2]] [] false true) _ _ eq_refl)).
Qed.
(** A response nobody asked for blocks the reading goroutine: until some caller sends a request no indication is read, confirmed or delivered. *)
Theorem C85_unsolicited_response_blocks_refuted : forall n s0 b, lruns (linit n) [ERx b] s0 -> response_pdu b = true ->
  forall t s, lruns s0 t s -> (forall k r, ~ In (ESent k r) t) -> forall x, ~ In (ERx x) t.
Proof.
  intros n s0 b H R. assert (I := inv_runs _ _ _ H).
  assert (B0 : blk s0 = Some b). { assert (Q := iv_rsp _ _ I). unfold responses, taken in Q. cbn [flat_map app] in Q. rewrite R in Q. cbn [app] in Q. destruct (blk s0); [injection Q as <-; reflexivity|discriminate]. }
  assert (W0 : cnt waits (callers s0) = 0) by (rewrite <- (iv_open _ _ I); reflexivity).
  assert (G : forall t s, lruns s0 t s -> (forall k r, ~ In (ESent k r) t) -> (forall x, ~ In (ERx x) t) /\ blk s = Some b /\ cnt waits (callers s) = 0).
  { intros t s L. induction L as [s|s t s1 e s2 L IH S]; intro N; [cbn; auto|].
    destruct (IH H I B0 W0 ltac:(intros k r K; apply (N k r), in_or_app; now left)) as (NR & B1 & W1).
    assert (NW : forall k op, nth_error (callers s1) k = Some (KWait op) -> False) by (intros k op K; assert (Q := cnt_nth _ waits _ _ _ K eq_refl); lia).
    assert (G : (forall x, ~ In (ERx x) e) -> blk s2 = Some b /\ cnt waits (callers s2) = 0 -> (forall x, ~ In (ERx x) (t ++ e)) /\ blk s2 = Some b /\ cnt waits (callers s2) = 0).
    { intros NE Q. split; [|exact Q]. intros x X. apply in_app_or in X. destruct X as [X|X]; [now apply (NR x)|now apply (NE x)]. }
    destruct S as [s1 k T K|s1 k op r K|s1 k K|s1 k K|s1 b0 AL BN|s1 k op b0 K BL M|s1 k op b0 K BL M|s1 k op b0 K BL M|s1 k op K|s1 k op K FL|s1 AL BN|s1 b0 q Q|s1 b0 q Q]; try (exfalso; eapply NW; eassumption); try congruence.
    - apply G; [intros x []|]. split; [exact B1|]. cbn [set_caller callers]. rewrite (cnt_upd _ _ _ _ _ _ K). cbn [waits]. lia.
    - exfalso. apply (N k (op :: r)), in_or_app. right. now left.
    - apply G; [intros x [X|[]]; discriminate|]. split; [exact B1|]. cbn [set_caller callers]. rewrite (cnt_upd _ _ _ _ _ _ K). cbn [waits]. lia.
    - apply G; [intros x []|]. split; [exact B1|]. cbn [set_caller callers]. rewrite (cnt_upd _ _ _ _ _ _ K). cbn [waits]. lia.
    - apply G; [intros x [X|[]]; discriminate|]. now split.
    - apply G; [intros x [X|[]]; discriminate|]. now split. }
  intros t s L N. now apply (G t s).
Qed.
Print Assumptions C85_unsolicited_response_blocks_refuted.
