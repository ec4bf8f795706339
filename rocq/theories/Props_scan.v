(** C116-C120: the calls Scan, Find and Connect, in every schedule. *)
Require Import Verif.Base Verif.M_scan Verif.S_scan Verif.P_scan Verif.P_scan2 Verif.P_scan3 Verif.P_scan4 Verif.P_scan5 Verif.P_scan6.

(** C116.  What Connect dials was reported by the controller and passed the filter, and the controller has stopped scanning; it dials once *)
Theorem C116_dials_a_match : forall sync late f s a, reach CConnect sync late f s -> s_main s = P7 a -> In a (s_hist s) /\ f a = true /\ s_scan s = false /\ s_cmd s = None.
Proof.
  intros sync late f s a R M. destruct (reach_inv _ _ _ _ _ R) as (PI & V & _). destruct (i_called _ _ V a (i_p7 _ _ V a M)) as [H F]. unfold phase_inv in PI. rewrite M in PI. tauto.
Qed.
Theorem C116_dials_once : forall sync late f s a l s', reach CConnect sync late f s -> s_main s = P7 a -> execs CConnect sync late f s l s' -> s_main s' = P7 a.
Proof. intros sync late f s a l s' R M H. rewrite <- M. refine (proj1 (ended_final _ _ _ _ _ _ _ H _)). unfold ended. now rewrite M. Qed.
(** Progress: a matching report is on its way, nothing was refused, the deadline has not passed: in every schedule the program comes, in a bounded number of its own
    steps, to dialling a matching report; it cannot stop before *)
Theorem C116_connects : forall late f s a, reach CConnect false late f s -> in_flight a s -> f a = true -> s_ctx s <> Some Deadline -> ~ In (EReply false) (s_q s) -> s_main s <> PRet RErr ->
  exists n, forall l s', execs CConnect false late f s l s' -> Forall (fun x => internal x = true) l ->
    (length l <= n)%nat /\ ((exists b, s_main s' = P7 b) \/ exists x s2, internal x = true /\ exec CConnect false late f s' x = Some s2).
Proof.
  intros late f s a R FL FA DL NR ME. exists (mu s). intros l s' H IN. split; [pose proof (execs_mu _ _ _ _ _ _ _ H IN); lia|].
  destruct (reach_inv _ _ _ _ _ R) as (_ & _ & J). assert (C : calm CConnect s) by (split; [exact NR|]; split; [exact ME|]; intros _; split; [exact DL|]; intro X; exact (DL (j_dl _ _ _ J X))).
  destruct (run_keeps _ _ _ _ _ a H IN R C FA (or_introl FL)) as (R' & C' & [FL'|[b P]]); [|left; now exists b].
  destruct (reach_inv _ _ _ _ _ R') as (PI' & _ & J').
  assert (DEC : stuck CConnect false late f s' \/ exists x s2, internal x = true /\ exec CConnect false late f s' x = Some s2).
  { destruct (exec CConnect false late f s' AMain) as [s2|] eqn:E1; [right; now exists AMain, s2|]. destruct (exec CConnect false late f s' ALoop) as [s2|] eqn:E2; [right; now exists ALoop, s2|].
    destruct (exec CConnect false late f s' ATaskL) as [s2|] eqn:E3; [right; now exists ATaskL, s2|]. destruct (exec CConnect false late f s' ARecvL) as [s2|] eqn:E4; [right; now exists ARecvL, s2|].
    destruct (exec CConnect false late f s' (ACtl true)) as [s2|] eqn:E5; [right; now exists (ACtl true), s2|]. destruct (exec CConnect false late f s' APropagate) as [s2|] eqn:E6; [right; now exists APropagate, s2|].
    destruct (exec CConnect false late f s' AHelper) as [s2|] eqn:E7; [right; now exists AHelper, s2|].
    assert (D : forall n, (forall i, (i < n)%nat -> exec CConnect false late f s' (ATask i) = None /\ exec CConnect false late f s' (ARecv i) = None) \/ exists x s2, internal x = true /\ exec CConnect false late f s' x = Some s2).
    { induction n as [|n [IH|IH]]; [left; intros; lia| |now right]. destruct (exec CConnect false late f s' (ATask n)) as [s2|] eqn:T1; [right; now exists (ATask n), s2|]. destruct (exec CConnect false late f s' (ARecv n)) as [s2|] eqn:T2; [right; now exists (ARecv n), s2|].
      left. intros i LI. destruct (Nat.eq_dec i n) as [-> |NE]; [now split|]. apply IH. lia. }
    destruct (D (length (s_gos s'))) as [D1|D1]; [left|now right].
    assert (D2 : forall i, (length (s_gos s') <= i)%nat -> nth_error (s_gos s') i = None) by (intros i LI; now apply nth_error_None).
    intros x IX. destruct x as [| | |i| |i|[]|addr data|r| | |]; try discriminate; try assumption.
    - destruct (Nat.lt_ge_cases i (length (s_gos s'))) as [LI|LI]; [now apply D1|]. cbn. now rewrite (D2 i LI).
    - destruct (Nat.lt_ge_cases i (length (s_gos s'))) as [LI|LI]; [now apply D1|]. cbn. rewrite (D2 i LI). now destruct (s_main s'). }
  destruct DEC as [ST|DEC]; [|now right]. left.
  destruct (loop_live _ _ _ _ _ ST (reach_nd _ _ _ _ _ R') (or_intror eq_refl) J') as [L Q].
  assert (SEND : s_main s' <> P6 /\ s_ctx2 s' <> None).
  { apply flight_tasks in FL'. rewrite Q in FL'. destruct FL' as [[]|(t & T1 & T2)]. pose proof (j_task _ _ _ J' t T1) as JT. unfold tasks in T1. rewrite L in T1. cbn in T1. destruct (gos_live _ _ _ _ _ _ ST T1) as [-> |(b & -> & N)]; [destruct T2|]. now split. }
  destruct (stuck_at _ _ _ _ _ ST PI' J' L Q) as [E|[[M W]|M]].
  - unfold ended in E. pose proof (j_ph _ _ _ J') as PH. destruct (s_main s') as [| | | | | | |b|[r|]] eqn:M; try contradiction; [now exists b|now destruct PH|]. now destruct C' as (_ & C' & _).
  - now destruct SEND.
  - now destruct SEND.
Qed.
(** Connect fails only if the controller refused a scan command, a command was not answered in time, or the deadline of the context passed *)
Theorem C116_fails_only : forall sync late f l s r, execs CConnect sync late f start l s -> s_main s = PRet r -> In ATimeout l \/ In (ACtl false) l \/ In (ACancel Deadline) l.
Proof.
  intros sync late f l s r H M. assert (R : reach CConnect sync late f s) by now exists l. destruct (reach_inv _ _ _ _ _ R) as (_ & _ & J). pose proof (j_ph _ _ _ J) as PH. rewrite M in PH. destruct r as [r|]; [now destruct PH|].
  assert (EQ : forall x y : act, (x = y) \/ x <> y) by (intros x y; destruct x, y; try (right; discriminate); try (now left);
    [destruct (Nat.eq_dec i i0) as [-> |N]; [now left|right; congruence]|destruct (Nat.eq_dec i i0) as [-> |N]; [now left|right; congruence]|destruct accept, accept0; (now left) || (right; discriminate)|
     destruct (Z.eq_dec addr addr0) as [-> |N]; [destruct (list_eq_dec Z.eq_dec data data0) as [-> |N]; [now left|right; congruence]|right; congruence]|destruct r, r0; (now left) || (right; discriminate)]).
  assert (IN : forall x, In x l \/ ~ In x l) by (intro x; induction l as [|y l' IH] in |- *; [now right|destruct IH as [IH|IH]; [left; now right|destruct (EQ y x) as [-> |N]; [left; now left|right; intros [Z|Z]; contradiction]]]).
  destruct (IN ATimeout) as [X|X1]; [now left|]. destruct (IN (ACtl false)) as [X|X2]; [right; now left|]. destruct (IN (ACancel Deadline)) as [X|X3]; [right; now right|]. exfalso.
  assert (C : calm CConnect s). { apply (calm_run _ _ _ _ _ _ _ H); [split; [intros []|]; split; [discriminate|]; intros _; split; discriminate|]. intros x I E. destruct x as [| | |i| |i|[]|addr data|[]| | |]; cbn in E; try contradiction. }
  now destruct C as (_ & C & _).
Qed.

(** C117.  The handler is called at most once for a report, and only for reports that were received and pass the filter *)
Theorem C117_calls : forall k sync late f s, reach k sync late f s -> NoDup (map a_id (s_called s)) /\ forall a, In a (s_called s) -> In a (s_hist s) /\ f a = true.
Proof. intros k sync late f s R. destruct (reach_inv _ _ _ _ _ R) as (_ & V & _). split; [exact (i_nodup _ _ V)|exact (i_called _ _ V)]. Qed.
(** reports are numbered, so two calls for the same report would show in the list *)
Theorem C117_reports_numbered : forall k sync late f s i a, reach k sync late f s -> nth_error (s_hist s) i = Some a -> a_id a = i.
Proof. intros k sync late f s i a R. destruct (reach_inv _ _ _ _ _ R) as (_ & V & _). exact (i_hist _ _ V i a). Qed.
(** Every matching report is handed over: when the program has no step left, the handler was called for all of them *)
Theorem C117_all_handled : forall k sync late f s, k <> CConnect -> reach k sync late f s -> (forall x, internal x = true -> exec k sync late f s x = None) -> forall a, In a (s_hist s) -> f a = true -> In a (s_called s).
Proof.
  intros k sync late f s K R ST a A FA. destruct (reach_inv _ _ _ _ _ R) as (_ & _ & J). destruct (loop_live _ _ _ _ _ ST (reach_nd _ _ _ _ _ R) (or_introl K) J) as [L Q].
  destruct (reach_cov _ _ _ _ _ R a A) as [X|[X|[X|X]]]; [rewrite Q in X; destruct X| |exact X|congruence]. unfold tasks in X. rewrite L in X. cbn in X. destruct (gos_live _ _ _ _ _ _ ST X) as [E|(b & E & _)]; discriminate.
Qed.
(** Scan and Find return after their context has ended, with its error, and scanning is off then *)
Theorem C117_result : forall k sync late f s r, reach k sync late f s -> s_main s = PRet (RCtx r) -> s_ctx s = Some r /\ s_scan s = false /\ s_cmd s = None /\ s_q s = [].
Proof.
  intros k sync late f s r R M. destruct (reach_inv _ _ _ _ _ R) as (PI & _ & J). pose proof (j_ph _ _ _ J) as PH. pose proof (reach_qend _ _ _ _ _ R) as [Q _]. unfold phase_inv in PI. rewrite M in *. tauto.
Qed.
Theorem C117_returns : forall k sync late f s r, k <> CConnect -> reach k sync late f s -> s_ctx s = Some r -> ~ In (EReply false) (s_q s) -> s_main s <> PRet RErr ->
  exists n, forall l s', execs k sync late f s l s' -> Forall (fun x => internal x = true) l ->
    (length l <= n)%nat /\ ((forall x, internal x = true -> exec k sync late f s' x = None) -> s_main s' = PRet (RCtx r)).
Proof.
  intros k sync late f s r K R CX NR ME. exists (mu s). intros l s' H IN. split; [pose proof (execs_mu _ _ _ _ _ _ _ H IN); lia|]. intro ST.
  assert (C : calm k s) by (split; [exact NR|]; split; [exact ME|]; intro; contradiction). destruct (run_keeps_scan _ _ _ _ _ _ _ H IN R C) as (R' & C' & CX'). destruct (reach_inv _ _ _ _ _ R') as (PI' & _ & J').
  destruct (loop_live _ _ _ _ _ ST (reach_nd _ _ _ _ _ R') (or_introl K) J') as [L Q]. pose proof (j_ph _ _ _ J') as PH. destruct (stuck_at _ _ _ _ _ ST PI' J' L Q) as [E|[[M W]|M]].
  - unfold ended in E. destruct (s_main s') as [| | | | | | |b|[r'|]] eqn:M; try contradiction; [now destruct PH|destruct PH; congruence|]. now destruct C' as (_ & C' & _).
  - exfalso. unfold waited in W. destruct k; congruence.
  - rewrite M in PH. now destruct PH.
Qed.
(** What Find returns are matching reports, none twice *)
Theorem C117_find : forall sync late f s, reach CFind sync late f s -> NoDup (map a_id (s_out s)) /\ forall a, In a (s_out s) -> In a (s_hist s) /\ f a = true.
Proof. intros sync late f s R. destruct (reach_inv _ _ _ _ _ R) as (_ & V & _). split; [apply (i_lists _ _ V); right; now left|]. intros a A. apply (i_called _ _ V), (i_out _ _ V), A. Qed.

(** Concrete runs *)
Fixpoint run (k : kind) (sync late : bool) (f : adv -> bool) (s : st) (l : list act) : option st := match l with [] => Some s | a :: r => match exec k sync late f s a with Some s' => run k sync late f s' r | None => None end end.
Lemma run_execs : forall k sync late f l s s', run k sync late f s l = Some s' -> execs k sync late f s l s'.
Proof. intros k sync late f. induction l as [|a l IH]; intros s s' H; cbn in H; [injection H as <-; apply ex_nil|]. destruct (exec k sync late f s a) as [s1|] eqn:E; [|discriminate]. exact (ex_cons _ _ _ _ _ _ _ _ _ E (IH _ _ H)). Qed.
Definition want (a : adv) : bool := Z.eqb (a_addr a) 7.
Definition up : list act := [AMain; AMain; ACtl true; ALoop].
Ltac state := match goal with |- context [run ?k ?y ?t ?f ?s ?l] => let x := eval vm_compute in (run k y t f s l) in match x with Some ?v => exists v end end.
Example C116_example : exists s, run CConnect false true want start (up ++ [AEmit 5 []; AEmit 7 [1]; ALoop; ALoop; ATask 0]) = Some s /\ in_flight (mkA 1 7 [1]) s /\ want (mkA 1 7 [1]) = true /\ s_ctx s <> Some Deadline /\ ~ In (EReply false) (s_q s) /\ s_main s = P3.
Proof. state. split; [vm_compute; reflexivity|]. cbn. repeat split; try discriminate; try tauto. right. right. exists (TNew (mkA 1 7 [1])). split; [right; now left|reflexivity]. Qed.
Example C116_example_dials : exists s, run CConnect false true want start (up ++ [AEmit 5 []; AEmit 7 [1]; ALoop; ALoop; ATask 0; ATask 1; ATask 1; AMain; ACtl true; ALoop; AMain; ARecv 1]) = Some s /\ s_main s = P7 (mkA 1 7 [1]).
Proof. state. split; vm_compute; reflexivity. Qed.
Example C117_example : exists s, run CFind true true want start (up ++ [AEmit 7 [1]; AEmit 5 []; AEmit 7 [2]; ALoop; ATaskL; ATaskL; ATaskL; ALoop; ATaskL; ACancel Deadline; AMain; ACtl true; ALoop; ATaskL; ATaskL; ATaskL; ALoop; AMain]) = Some s /\
  s_main s = PRet (RCtx Deadline) /\ s_out s = [mkA 0 7 [1]; mkA 2 7 [2]] /\ s_called s = [mkA 0 7 [1]; mkA 2 7 [2]].
Proof. state. repeat split; vm_compute; reflexivity. Qed.

(** C118 (ideal): Connect returns when its context is cancelled.  It does not: after a cancellation before any match it waits for a report for ever *)
Theorem C118_cancel_refuted : forall late f, exists s, reach CConnect false late f s /\ s_ctx s = Some Canceled /\ forall l s', execs CConnect false late f s l s' -> s_main s' = P6.
Proof.
  intros late f. exists (mkS (Some Canceled) (Some Canceled) false None [] true None [] P6 [] [] [] []). split; [|split; [reflexivity|]].
  - exists (up ++ [ACancel Canceled; APropagate; AMain; ACtl true; ALoop; AMain]). apply run_execs. reflexivity.
  - intros l s' H. apply (waits_forever _ _ _ _ _ H); try reflexivity. intros t [].
Qed.
(** the same with a deadline, if the helper goroutine is faster than the context's own propagation *)
Theorem C118_deadline_refuted : forall late f, exists s, reach CConnect false late f s /\ s_ctx s = Some Deadline /\ forall l s', execs CConnect false late f s l s' -> s_main s' = P6.
Proof.
  intros late f. exists (mkS (Some Deadline) (Some Canceled) false None [] true None [] P6 [] [] [] []). split; [|split; [reflexivity|]].
  - exists (up ++ [ACancel Deadline; AHelper; AMain; ACtl true; ALoop; AMain]). apply run_execs. reflexivity.
  - intros l s' H. apply (waits_forever _ _ _ _ _ H); try reflexivity. intros t [].
Qed.
(** C119 (ideal): Connect works with the synchronous handler option and leaves nothing behind.  With that option it never dials, and the first match blocks the event loop for ever *)
Theorem C119_sync_refuted : forall late f, (forall s a, reach CConnect true late f s -> s_main s <> P7 a) /\
  (forall s a l s', reach CConnect true late f s -> s_loop s = Some (TSend a) -> execs CConnect true late f s l s' -> s_loop s' = Some (TSend a) /\ forall e q, s_q s = e :: q -> exists r, s_q s' = e :: q ++ r).
Proof. intros late f. split; [intros s a; apply sync_never|intros s a l s' R L H; exact (loop_blocked _ _ _ _ _ _ H R L)]. Qed.
Theorem C119_sync_blocked_refuted : forall late f addr data, f (mkA 0 addr data) = true -> exists s, reach CConnect true late f s /\ s_loop s = Some (TSend (mkA 0 addr data)).
Proof.
  intros late f addr data F. exists (mkS None (Some Canceled) true None [] true (Some (TSend (mkA 0 addr data))) [] P3 [mkA 0 addr data] [mkA 0 addr data] [] []). split; [|reflexivity].
  exists (up ++ [AEmit addr data; ALoop; ATaskL; ATaskL]). cbn [app up]. repeat (eapply ex_cons; [lazy; rewrite ?F; reflexivity|]). apply ex_nil.
Qed.
(** after two matches a goroutine stays for ever *)
Theorem C119_leak_refuted : forall late f a1 d1 a2 d2, f (mkA 0 a1 d1) = true -> f (mkA 1 a2 d2) = true ->
  exists s, reach CConnect false late f s /\ s_main s = P7 (mkA 0 a1 d1) /\ forall l s', execs CConnect false late f s l s' -> In (TSend (mkA 1 a2 d2)) (s_gos s').
Proof.
  intros late f a1 d1 a2 d2 F1 F2. set (x := mkA 0 a1 d1). set (y := mkA 1 a2 d2). exists (mkS None (Some Canceled) false None [] true None [TDone; TSend y] (P7 x) [x; y] [x; y] [] []). split; [|split; [reflexivity|]].
  - exists (up ++ [AEmit a1 d1; AEmit a2 d2; ALoop; ALoop; ATask 0; ATask 1; ATask 0; ATask 1; AMain; ACtl true; ALoop; AMain; ARecv 0]). cbn [app up]. repeat (eapply ex_cons; [lazy; rewrite ?F1, ?F2; reflexivity|]). apply ex_nil.
  - intros l s' H. apply (nth_error_In _ 1). apply (sender_stays _ _ _ _ _ _ _ 1 y H); [exact Logic.I|reflexivity].
Qed.
(** C120 (ideal): no call of the handler after Scan has returned, and Find returns every report it took *)
Theorem C120_late_call_refuted : forall late f addr data, f (mkA 0 addr data) = true -> exists s s', reach CScan false late f s /\ s_main s = PRet (RCtx Canceled) /\ s_called s = [] /\ exec CScan false late f s (ATask 0) = Some s' /\ s_called s' = [mkA 0 addr data].
Proof.
  intros late f addr data F. set (x := mkA 0 addr data). exists (mkS (Some Canceled) None false None [] true None [TNew x] (PRet (RCtx Canceled)) [x] [] [] []). eexists. split; [|split; [reflexivity|split; [reflexivity|]]].
  - exists (up ++ [AEmit addr data; ALoop; ACancel Canceled; AMain; ACtl true; ALoop; AMain]). cbn [app up]. repeat (eapply ex_cons; [lazy; reflexivity|]). apply ex_nil.
  - unfold x. lazy. rewrite F. split; reflexivity.
Qed.
Theorem C120_find_lost_refuted : forall f a1 d1 a2 d2, f (mkA 0 a1 d1) = true -> f (mkA 1 a2 d2) = true ->
  exists s, reach CFind false true f s /\ s_main s = PRet (RCtx Canceled) /\ s_called s = [mkA 0 a1 d1; mkA 1 a2 d2] /\ (forall t, In t (s_gos s) -> t = TDone) /\ s_out s = [mkA 1 a2 d2].
Proof.
  intros f a1 d1 a2 d2 F1 F2. set (x := mkA 0 a1 d1). set (y := mkA 1 a2 d2). exists (mkS (Some Canceled) None false None [] true None [TDone; TDone] (PRet (RCtx Canceled)) [x; y] [x; y] [y] [y]). split; [|repeat split].
  - exists (up ++ [AEmit a1 d1; AEmit a2 d2; ALoop; ALoop; ATask 0; ATask 1; ATask 0; ATask 1; ATask 0; ATask 1; ACancel Canceled; AMain; ACtl true; ALoop; AMain]). cbn [app up]. repeat (eapply ex_cons; [lazy; rewrite ?F1, ?F2; reflexivity|]). apply ex_nil.
  - intros t [<-|[<-|[]]]; reflexivity.
Qed.

Print Assumptions C116_dials_a_match. Print Assumptions C116_dials_once. Print Assumptions C116_connects. Print Assumptions C116_fails_only.
Print Assumptions C117_calls. Print Assumptions C117_reports_numbered. Print Assumptions C117_all_handled. Print Assumptions C117_result. Print Assumptions C117_returns. Print Assumptions C117_find.
Print Assumptions C118_cancel_refuted. Print Assumptions C118_deadline_refuted. Print Assumptions C119_sync_refuted. Print Assumptions C119_sync_blocked_refuted. Print Assumptions C119_leak_refuted.
Print Assumptions C120_late_call_refuted. Print Assumptions C120_find_lost_refuted.
