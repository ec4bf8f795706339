(** Properties C166 to C169: interrupts during calls. *)
Require Import Verif.Base Verif.M_sig Verif.S_sig Verif.P_sig Verif.P_sig2 Verif.P_sig3 Verif.P_sig4.

(** * C166 *)
(** An interrupt while any call with a handler is in its operation does not end the process. *)
Theorem C166_process_survives : forall l s i s', runs l s -> in_operation s i -> with_handler s i -> exec s ASignal = Some s' -> alive s' = true.
Proof.
  intros l s i s' R O H E. destruct (op_trap s i (runs_inv _ _ R) O H) as (t & v & V & _ & G).
  destruct (trap_step _ _ _ _ _ E V) as (v' & _ & _ & _ & _ & _ & _ & _ & _ & S & _). now apply S.
Qed.
Print Assumptions C166_process_survives.

(** After it, whatever happens: a goroutine of that call has called the handler, or can call it at once, or a context of the call has ended. *)
Theorem C166_handler_runs : forall l s i s1 l2 s2, runs l s -> in_operation s i -> with_handler s i -> exec s ASignal = Some s1 -> exec_all s1 l2 = Some s2 -> alive s2 = true ->
  exists t, owner s2 t = Some i /\ (In (AFire t) (l ++ ASignal :: l2) \/ (exists s3, exec s2 (AFire t) = Some s3) \/ ctx_ended s2 i).
Proof.
  intros l s i s1 l2 s2 R O H E E2 AL. assert (I := runs_inv _ _ R). destruct (op_trap s i I O H) as (t & v & V & C & G).
  destruct (trap_step _ _ _ _ _ E V) as (v1 & V1 & C1 & X1 & _ & F & _ & _ & _ & S & _). destruct (S eq_refl G) as (_ & P1 & W1). assert (I1 := exec_inv _ _ _ I E).
  assert (Q : t_called v1 = true \/ is_done s1 (t_ctx v1) = true \/ (t_wait v1 = true /\ t_pend v1 = true)).
  { destruct (t_wait v1) eqn:W; [auto|]. destruct (i_wait _ I1 _ _ V1) as [_ D]. destruct (D W) as [D1|D1]; auto. }
  destruct (pending_forever l2 s1 s2 t v1 I1 E2 V1 Q) as (v2 & V2 & C2 & X2 & Q2).
  assert (R2 : runs (l ++ ASignal :: l2) s2) by (unfold runs; rewrite exec_all_app, R; cbn [exec_all]; rewrite E; exact E2). assert (I2 := runs_inv _ _ R2).
  exists t. split; [unfold owner; rewrite V2; congruence|]. destruct Q2 as [Q2|[Q2|[Q2 Q3]]].
  - left. clear - R2 V2 Q2. revert t v2 V2 Q2. revert R2. generalize (l ++ ASignal :: l2). intros m R. revert m s2 R.
    apply (runs_snoc_ind (fun m s => forall t v, nth_error (traps s) t = Some v -> t_called v = true -> In (AFire t) m)).
    + intros t v V. destruct t; discriminate V.
    + intros m s a s' R IH E t v' V' C'. apply in_or_app. destruct (nth_error (traps s) t) as [v|] eqn:V.
      * destruct (trap_step _ _ _ _ _ E V) as (w & W & _ & _ & _ & F & _). assert (w = v') as -> by congruence.
        assert (D : a = AFire t \/ a <> AFire t) by (destruct a; try (right; discriminate); destruct (Nat.eq_dec t0 t); [left; congruence|right; congruence]).
        destruct D as [->|D]; [right; now left|]. left. apply (IH t v V). now rewrite <- (F D).
      * exfalso. apply nth_error_None in V. assert (L : (t < length (traps s'))%nat) by (apply nth_error_Some; congruence).
        destruct (traps_grow s a s' E) as [G|(i & c & v & K & PC & G1 & G2 & G3 & _)]; [lia|]. assert (t = length (traps s)) as -> by lia. congruence.
  - right; right. rewrite <- X2 in Q2. destruct (i_own _ I2 _ _ V2) as (c & x & K & X & _ & PP). rewrite C2, C1, C in K. exists c. split; [exact K|].
    exists (t_ctx v2), x. split; [exact X|]. split; [unfold is_done in Q2; now rewrite X in Q2|exact PP].
  - right; left. unfold exec. rewrite AL, V2. cbn [negb]. rewrite Q2, Q3. cbn [andb]. eauto.
Qed.
Print Assumptions C166_handler_runs.
Lemma fired_in : forall m s, runs m s -> forall t v, nth_error (traps s) t = Some v -> t_called v = true -> In (AFire t) m.
Proof.
  apply (runs_snoc_ind (fun m s => forall t v, nth_error (traps s) t = Some v -> t_called v = true -> In (AFire t) m)).
  - intros t v V. destruct t; discriminate V.
  - intros m s a s' R IH E t v' V' C'. apply in_or_app. destruct (nth_error (traps s) t) as [v|] eqn:V.
    + destruct (trap_step _ _ _ _ _ E V) as (w & W & _ & _ & _ & F & _). assert (w = v') as -> by congruence.
      assert (D : a = AFire t \/ a <> AFire t) by (destruct a; try (right; discriminate); destruct (Nat.eq_dec t0 t); [left; congruence|right; congruence]).
      destruct D as [->|D]; [right; now left|]. left. apply (IH t v V). now rewrite <- (F D).
    + exfalso. apply nth_error_None in V. assert (L : (t < length (traps s'))%nat) by (apply nth_error_Some; congruence).
      destruct (traps_grow s a s' E) as [G|(i & c & v & K & PC & G1 & G2 & G3 & _)]; [lia|]. assert (t = length (traps s)) as -> by lia. congruence.
Qed.
(** For a call that advertises, scans (Scan, Find) or dials, also on behalf of Connect, the context is the one the caller gave. *)
Theorem C166_own_context : forall l s i c s1 l2 s2, runs l s -> in_operation s i -> with_handler s i -> exec s ASignal = Some s1 -> exec_all s1 l2 = Some s2 -> alive s2 = true ->
  nth_error (calls s) i = Some c -> (c_kind c <> KConnect \/ (length (c_pc c) <= 2)%nat (* not scanning for Connect *)) ->
  exists t, owner s2 t = Some i /\ (In (AFire t) (l ++ ASignal :: l2) \/ (exists s3, exec s2 (AFire t) = Some s3) \/ is_done s2 (c_given c) = true).
Proof.
  intros l s i c s1 l2 s2 R O H E E2 AL K N. assert (I := runs_inv _ _ R). destruct (op_trap_ctx s i c I O H K) as (t & v & V & C & G & CX).
  assert (CG : c_ctx c = c_given c). { destruct O as (c' & r & K' & P). assert (c' = c) as -> by congruence. apply (runs_own_ctx _ _ R i c K); [destruct N; [now left|right; lia]|congruence]. }
  destruct (trap_step _ _ _ _ _ E V) as (v1 & V1 & C1 & X1 & _ & F & _ & _ & _ & S & _). destruct (S eq_refl G) as (_ & P1 & W1). assert (I1 := exec_inv _ _ _ I E).
  assert (Q : t_called v1 = true \/ is_done s1 (t_ctx v1) = true \/ (t_wait v1 = true /\ t_pend v1 = true)).
  { destruct (t_wait v1) eqn:W; [auto|]. destruct (i_wait _ I1 _ _ V1) as [_ D]. destruct (D W) as [D1|D1]; auto. }
  destruct (pending_forever l2 s1 s2 t v1 I1 E2 V1 Q) as (v2 & V2 & C2 & X2 & Q2).
  assert (R2 : runs (l ++ ASignal :: l2) s2) by (unfold runs; rewrite exec_all_app, R; cbn [exec_all]; rewrite E; exact E2).
  exists t. split; [unfold owner; rewrite V2; congruence|]. destruct Q2 as [Q2|[Q2|[Q2 Q3]]].
  - left. exact (fired_in _ _ R2 _ _ V2 Q2).
  - right; right. rewrite X1, CX, CG in Q2. exact Q2.
  - right; left. unfold exec. rewrite AL, V2. cbn [negb]. rewrite Q2, Q3. cbn [andb]. eauto.
Qed.
Print Assumptions C166_own_context.

(** The handler is called on behalf of a call only after an interrupt while the call was in progress; at most once for advertising,
    scanning and dialling, at most twice for Find and Connect. *)
Theorem C166_only_then : forall l s i, runs l s -> (0 < handler_calls l s i)%nat -> interrupted l i.
Proof.
  intros l s i R H. rewrite (calls_counted l s R i) in H. destruct (filter (fun v => own i v && t_called v) (traps s)) as [|v r] eqn:F; [cbn in H; lia|].
  assert (J : In v (filter (fun v => (own i v && t_called v)%bool) (traps s))) by (rewrite F; now left). apply filter_In in J as [J1 J2]. apply andb_true_iff in J2 as [J2 J3].
  unfold own in J2. apply Nat.eqb_eq in J2. subst i. apply In_nth_error in J1 as [t V]. apply (only_interrupted l s R t v V). now right.
Qed.
Print Assumptions C166_only_then.
Theorem C166_at_most : forall l s i c, runs l s -> nth_error (calls s) i = Some c -> (handler_calls l s i <= match c_kind c with KOne => 1 | _ => 2 end)%nat.
Proof.
  intros l s i c R K. rewrite (calls_counted l s R i). assert (Q := i_count _ (runs_inv _ _ R) _ _ K).
  assert (L : (length (filter (fun v => own i v && t_called v) (traps s)) <= length (filter (own i) (traps s)))%nat).
  { clear. induction (traps s) as [|v ts IH]; [cbn; lia|]. cbn [filter]. destruct (own i v); cbn [andb]; [|exact IH]. destruct (t_called v); cbn [length]; lia. }
  assert (N : ntraps (prog (c_kind c)) = match c_kind c with KOne => 1 | _ => 2 end%nat) by (destruct (c_kind c); reflexivity). lia.
Qed.
Print Assumptions C166_at_most.

(** When all calls have returned the process reacts to interrupts as if there had been none: it ends. The same at any time if no
    context ever carried a handler. *)
Theorem C166_restored : forall l s, runs l s -> alive s = true -> (forall i, (i < length (calls s))%nat -> returned s i) -> exists s', exec s ASignal = Some s' /\ alive s' = false.
Proof.
  intros l s R AL H. assert (I := runs_inv _ _ R). unfold exec. rewrite AL. cbn [negb]. destruct (existsb t_reg (traps s)) eqn:X; [|eexists; split; reflexivity].
  apply existsb_exists in X as (v & V & G). apply In_nth_error in V as [t V]. destruct (i_reg _ I _ _ V G) as (c & K & T).
  destruct (H (t_call v)) as (c2 & K2 & P); [apply nth_error_Some; congruence|]. assert (c2 = c) as -> by congruence.
  assert (B := i_bal _ I _ _ K). rewrite P in B. destruct (c_traps c); [destruct T|inversion B].
Qed.
Print Assumptions C166_restored.
Theorem C166_without_handler : forall l s, runs l s -> alive s = true -> (forall i, ~ with_handler s i) -> traps s = [] /\ exists s', exec s ASignal = Some s' /\ alive s' = false.
Proof.
  intros l s R AL H. assert (I := runs_inv _ _ R). assert (T : traps s = []).
  { destruct (traps s) as [|v r] eqn:T; [reflexivity|]. exfalso. assert (V : nth_error (traps s) 0 = Some v) by (now rewrite T).
    destruct (i_own _ I _ _ V) as (c & x & K & X & HH & PP). apply (H (t_call v)). destruct PP as [PP|PP].
    - exists c, x. rewrite <- PP. auto.
    - destruct (i_par _ I _ _ _ X PP) as (_ & y & Y & _ & YH & _). exists c, y. split; [exact K|]. split; [exact Y|congruence]. }
  split; [exact T|]. unfold exec. rewrite AL, T. eexists. split; reflexivity.
Qed.
Print Assumptions C166_without_handler.
(** A waiting goroutine ends when its context has ended. *)
Theorem C166_goroutines_end : forall l s t v, runs l s -> alive s = true -> nth_error (traps s) t = Some v -> t_wait v = true -> is_done s (t_ctx v) = true ->
  exists s' v', exec s (AQuit t) = Some s' /\ nth_error (traps s') t = Some v' /\ t_wait v' = false /\ t_called v' = t_called v.
Proof.
  intros l s t v R AL V W D. unfold exec. rewrite AL, V, W, D. cbn [negb andb]. eexists. eexists. split; [reflexivity|]. cbn [set_trap traps]. split; [exact (upd_same _ _ _ _ V)|]. auto.
Qed.
Print Assumptions C166_goroutines_end.
(** Without a default device a call returns at once, leaving no trace. *)
Theorem C166_no_device : forall l s i c, runs l s -> alive s = true -> dev s = false -> nth_error (calls s) i = Some c -> c_pc c = prog (c_kind c) ->
  exists s', exec s (AStep i) = Some s' /\ returned s' i /\ traps s' = traps s.
Proof.
  intros l s i c R AL D K P. unfold exec. rewrite AL, K, P. cbn [negb]. destruct (c_kind c); cbn [prog prog_one app]; rewrite D; cbn [skipn]; (eexists; split; [reflexivity|]; split; [|reflexivity]);
  (eexists; split; [exact (upd_same _ _ _ _ K)|reflexivity]).
Qed.
Print Assumptions C166_no_device.
Lemma some_inj : forall {A} (a b : A), Some a = Some b -> a = b.
Proof. intros A a b H. now injection H. Qed.
(** So it is from the start: before the application sets a default device no call gets to its operation, no handler is called and an interrupt ends the process. *)
Theorem C166_before_set_device : forall l s, runs l s -> ~ In (ASetDevice true) l ->
  (forall i, ~ in_operation s i) /\ (forall i, handler_calls l s i = 0%nat) /\ (alive s = true -> exists s', exec s ASignal = Some s' /\ alive s' = false).
Proof.
  intros l s R NI.
  assert (J : dev s = false /\ traps s = [] /\ forall i c, nth_error (calls s) i = Some c -> c_pc c = prog (c_kind c) \/ c_pc c = []).
  { revert NI. revert l s R. apply (runs_snoc_ind (fun l s => ~ In (ASetDevice true) l -> dev s = false /\ traps s = [] /\ forall i c, nth_error (calls s) i = Some c -> c_pc c = prog (c_kind c) \/ c_pc c = [])).
    - intros _. split; [reflexivity|]. split; [reflexivity|]. intros [|i] c H; discriminate H.
    - intros l s a s' R IH E NI. assert (NA : a <> ASetDevice true) by (intro; subst a; apply NI, in_or_app; right; now left).
      destruct (IH (fun H => NI (in_or_app _ _ _ (or_introl H)))) as (D & T & C). clear IH NI. unfold exec in E. destruct (alive s); [|discriminate E]. cbn [negb] in E.
      destruct a as [b|h|x|k x|i|i| |t|t].
      + apply some_inj in E; subst s'. destruct b; [now elim NA|]. now split.
      + apply some_inj in E; subst s'. now split.
      + apply some_inj in E; subst s'. now split.
      + destruct (nth_error (ctxs s) x) as [v|]; [|discriminate E]. destruct (x_parent v); [discriminate E|].
        assert (X : exists y xs al, s' = mkSys (dev s) xs (calls s ++ [mkCall k x y (prog k) []]) (traps s) al) by (destruct k; apply some_inj in E; rewrite <- E; eexists; eexists; eexists; reflexivity).
        destruct X as (y & xs & al & ->). cbn [dev traps calls]. split; [exact D|]. split; [exact T|]. intros i c H. destruct (Nat.lt_ge_cases i (length (calls s))) as [LT|GE].
        * rewrite nth_error_app1 in H by exact LT. exact (C _ _ H).
        * rewrite nth_error_app2 in H by exact GE. destruct (i - length (calls s))%nat as [|m]; [injection H as <-; now left|destruct m; discriminate H].
      + destruct (nth_error (calls s) i) as [c|] eqn:K; [|discriminate E]. destruct (C _ _ K) as [P|P]; rewrite P in E; [|discriminate E].
        assert (X : s' = set_call s i (mkCall (c_kind c) (c_given c) (c_ctx c) [] (c_traps c))) by (destruct (c_kind c); cbn [prog prog_one app] in E; rewrite D in E; cbn [skipn] in E; apply some_inj in E; now rewrite <- E).
        rewrite X. cbn [set_call dev traps calls]. split; [exact D|]. split; [exact T|]. intros j d H. destruct (Nat.eq_dec i j) as [<-|N].
        * rewrite (upd_same _ _ _ _ K) in H. injection H as <-. now right.
        * rewrite upd_other in H by exact N. exact (C _ _ H).
      + destruct (nth_error (calls s) i) as [c|] eqn:K; [|discriminate E]. destruct (C _ _ K) as [P|P]; rewrite P in E; [destruct (c_kind c); discriminate E|discriminate E].
      + rewrite T in E. cbn [existsb] in E. apply some_inj in E; subst s'. now split.
      + rewrite T in E. destruct t; discriminate E.
      + rewrite T in E. destruct t; discriminate E. }
  destruct J as (D & T & C). split; [|split].
  - intros i (c & r & K & P). destruct (C _ _ K) as [Q|Q]; rewrite Q in P; [destruct (c_kind c); discriminate P|discriminate P].
  - intro i. rewrite (calls_counted l s R i), T. reflexivity.
  - intro AL. unfold exec. rewrite AL, T. cbn [negb existsb]. eexists. split; reflexivity.
Qed.
Print Assumptions C166_before_set_device.
(** Two concurrent calls, interrupted: both handlers run, the first call's twice as it is Find; then all return and the next interrupt ends the process. *)
Definition ex_calls : list act := [ASetDevice true; AContext true; ACall KFind 0; ACall KOne 0; AStep 0; AStep 0; AStep 1; AStep 1; AStep 0; AStep 0].
Definition after (l : list act) : sys := match exec_all sys0 l with Some s => s | None => sys0 end.
Definition possible (l : list act) : bool := match exec_all sys0 l with Some _ => true | None => false end.
Lemma possible_runs : forall l, possible l = true -> runs l (after l).
Proof. intros l H. unfold possible, after, runs in *. destruct (exec_all sys0 l); [reflexivity|discriminate H]. Qed.
Definition ex_end : list act := ex_calls ++ [ASignal; AFire 0; AFire 1; AFire 2; AStep 1; AStep 1; AStep 0; AStep 0; AStep 0].
Definition op_b (s : sys) (i : nat) : bool := match nth_error (calls s) i with Some c => match c_pc c with IOp :: _ => true | _ => false end | None => false end.
Definition ret_b (s : sys) (i : nat) : bool := match nth_error (calls s) i with Some c => match c_pc c with [] => true | _ => false end | None => false end.
Definition han_b (s : sys) (i : nat) : bool := match nth_error (calls s) i with Some c => match nth_error (ctxs s) (c_given c) with Some x => x_handler x | None => false end | None => false end.
Lemma op_b_ok : forall s i, op_b s i = true -> in_operation s i.
Proof. intros s i H. unfold op_b, in_operation in *. destruct (nth_error (calls s) i) as [c|]; [|discriminate H]. exists c. destruct (c_pc c) as [|[] r]; try discriminate H. eauto. Qed.
Lemma ret_b_ok : forall s i, ret_b s i = true -> returned s i.
Proof. intros s i H. unfold ret_b, returned in *. destruct (nth_error (calls s) i) as [c|]; [|discriminate H]. exists c. destruct (c_pc c); [auto|discriminate H]. Qed.
Lemma han_b_ok : forall s i, han_b s i = true -> with_handler s i.
Proof. intros s i H. unfold han_b, with_handler in *. destruct (nth_error (calls s) i) as [c|]; [|discriminate H]. destruct (nth_error (ctxs s) (c_given c)) as [x|] eqn:X; [|discriminate H]. exists c, x. auto. Qed.
Example C166_example : runs ex_calls (after ex_calls) /\ in_operation (after ex_calls) 0 /\ in_operation (after ex_calls) 1 /\ with_handler (after ex_calls) 0 /\ with_handler (after ex_calls) 1 /\
  runs ex_end (after ex_end) /\ returned (after ex_end) 0 /\ returned (after ex_end) 1 /\ alive (after ex_end) = true /\ handler_calls ex_end (after ex_end) 0 = 2%nat.
Proof.
  split; [apply possible_runs; vm_compute; reflexivity|]. split; [apply op_b_ok; vm_compute; reflexivity|]. split; [apply op_b_ok; vm_compute; reflexivity|].
  split; [apply han_b_ok; vm_compute; reflexivity|]. split; [apply han_b_ok; vm_compute; reflexivity|]. split; [apply possible_runs; vm_compute; reflexivity|].
  split; [apply ret_b_ok; vm_compute; reflexivity|]. split; [apply ret_b_ok; vm_compute; reflexivity|]. split; vm_compute; reflexivity.
Qed.

(** * C167 (not so): nothing of a call is left when it has returned *)
(** The goroutine of every call with a handler stays until the context ends: the number of them is not bounded by anything. *)
Fixpoint many (n i : nat) : list act := match n with O => [] | S n => [ACall KOne 0; AStep i; AStep i; AStep i; AStep i] ++ many n (S i) end.
Lemma many_run : forall n s, alive s = true -> dev s = true -> nth_error (ctxs s) 0 = Some (mkCtx true false None) ->
  exists s', exec_all s (many n (length (calls s))) = Some s' /\ alive s' = true /\ dev s' = true /\ ctxs s' = ctxs s /\
    (exists ts, traps s' = traps s ++ ts /\ length ts = n /\ Forall (fun v => t_wait v = true) ts) /\ (exists cs, calls s' = calls s ++ cs /\ length cs = n /\ Forall (fun c => c_pc c = []) cs).
Proof.
  induction n as [|n IH]; intros s AL D X.
  - exists s. split; [reflexivity|]. split; [exact AL|]. split; [exact D|]. split; [reflexivity|]. split; exists []; (split; [now rewrite app_nil_r|split; [reflexivity|constructor]]).
  - set (c := mkCall KOne 0 0 [] []). set (v := mkTrap (length (calls s)) 0 false false true false).
    set (s1 := mkSys true (ctxs s) (calls s ++ [c]) (traps s ++ [v]) true).
    assert (E : exec_all s [ACall KOne 0; AStep (length (calls s)); AStep (length (calls s)); AStep (length (calls s)); AStep (length (calls s))] = Some s1).
    { destruct s as [dv xs cs ts al]. cbn [alive dev ctxs calls traps] in *. subst al dv. cbn [exec_all]. unfold exec at 1. cbn [alive ctxs negb]. rewrite X. cbn [x_parent dev calls traps prog].
      unfold exec at 1. cbn [alive negb calls]. rewrite nth_len. cbn [c_pc prog prog_one dev c_kind c_given c_ctx c_traps]. unfold set_call. cbn [dev ctxs calls traps alive]. rewrite upd_app_r.
      unfold exec at 1. cbn [alive negb calls]. rewrite nth_len. cbn [c_pc]. unfold do_trap. cbn [ctxs c_ctx]. rewrite X. cbn [x_handler dev ctxs calls traps alive c_kind c_given c_ctx c_traps]. rewrite upd_app_r.
      unfold exec at 1. cbn [alive negb calls]. rewrite nth_len. cbn [c_pc c_kind c_given c_ctx c_traps]. unfold set_call. cbn [dev ctxs calls traps alive]. rewrite upd_app_r.
      unfold exec at 1. cbn [alive negb calls]. rewrite nth_len. cbn [c_pc c_kind c_given c_ctx c_traps]. unfold set_call. cbn [dev ctxs calls traps alive]. rewrite upd_app_r.
      cbn [do_untrap traps]. rewrite nth_len. unfold set_trap. cbn [dev ctxs calls traps alive t_call t_ctx t_pend t_wait t_called]. rewrite upd_app_r. reflexivity. }
    destruct (IH s1 eq_refl eq_refl X) as (s' & E' & A1 & A2 & A3 & (ts & T1 & T2 & T3) & (cs & C1 & C2 & C3)).
    replace (length (calls s1)) with (S (length (calls s))) in E' by (cbn [s1 calls]; rewrite app_length; cbn; lia).
    exists s'. split; [cbn [many]; rewrite exec_all_app, E; exact E'|]. split; [exact A1|]. split; [exact A2|]. split; [exact A3|]. split.
    + exists (v :: ts). split; [rewrite T1; cbn [s1 traps]; now rewrite <- app_assoc|]. split; [cbn; lia|]. constructor; [reflexivity|exact T3].
    + exists (c :: cs). split; [rewrite C1; cbn [s1 calls]; now rewrite <- app_assoc|]. split; [cbn; lia|]. constructor; [reflexivity|exact C3].
Qed.
Theorem C167_goroutines_left_refuted : forall n, exists l s, runs l s /\ (forall i, (i < length (calls s))%nat -> returned s i) /\ length (filter t_wait (traps s)) = n.
Proof.
  intros n. set (s := mkSys true [mkCtx true false None] [] [] true). destruct (many_run n s eq_refl eq_refl eq_refl) as (s' & E & _ & _ & _ & (ts & T1 & T2 & T3) & (cs & C1 & C2 & C3)).
  exists ([ASetDevice true; AContext true] ++ many n 0), s'. split; [unfold runs; rewrite exec_all_app; exact E|]. cbn [s traps calls app] in *. split.
  - intros i H. rewrite C1 in *. destruct (nth_error cs i) as [c|] eqn:K; [|apply nth_error_None in K; lia]. exists c. rewrite C1. split; [exact K|]. rewrite Forall_forall in C3. apply C3. now apply nth_error_In with (n := i).
  - rewrite T1. rewrite <- T2. clear - T3. induction T3 as [|v ts H T IH]; [reflexivity|]. cbn [filter]. rewrite H. cbn [length]. now rewrite IH.
Qed.
Print Assumptions C167_goroutines_left_refuted.
(** The handler can run after the call has returned, although the interrupt came during it. *)
Theorem C167_handler_after_return_refuted : exists l s s', runs l s /\ returned s 0 /\ handler_calls l s 0 = 0%nat /\ exec s (AFire 0) = Some s'.
Proof.
  set (l := [ASetDevice true; AContext true; ACall KOne 0; AStep 0; AStep 0; ASignal; AStep 0; AStep 0]). exists l, (after l), (after (l ++ [AFire 0])).
  split; [apply possible_runs; vm_compute; reflexivity|]. split; [apply ret_b_ok; vm_compute; reflexivity|]. split; vm_compute; reflexivity.
Qed.
Print Assumptions C167_handler_after_return_refuted.

(** * C168 (not so): one interrupt, one call of the handler *)
Theorem C168_find_calls_twice_refuted : exists l s, runs l s /\ length (filter (fun a => match a with ASignal => true | _ => false end) l) = 1%nat /\
  (exists c, nth_error (calls s) 0 = Some c /\ c_kind c = KFind) /\ length (calls s) = 1%nat /\ handler_calls l s 0 = 2%nat.
Proof.
  set (l := [ASetDevice true; AContext true; ACall KFind 0; AStep 0; AStep 0; AStep 0; AStep 0; ASignal; AFire 0; AFire 1]). exists l, (after l).
  split; [apply possible_runs; vm_compute; reflexivity|]. split; [reflexivity|].
  split; [exists (mkCall KFind 0 0 (skipn 4 (prog KFind)) [Some 1%nat; Some 0%nat]); split; vm_compute; reflexivity|]. split; vm_compute; reflexivity.
Qed.
Print Assumptions C168_find_calls_twice_refuted.
(** * C169 (not so): Connect with a handler survives an interrupt at every moment *)
Theorem C169_between_scan_and_dial_refuted : exists l s s', runs l s /\ with_handler s 0 /\ (exists c, nth_error (calls s) 0 = Some c /\ c_kind c = KConnect /\ c_pc c <> [] /\ (length (c_pc c) < length (prog KConnect))%nat) /\
  exec s ASignal = Some s' /\ alive s' = false.
Proof.
  set (l := [ASetDevice true; AContext true; ACall KConnect 0; AStep 0; AStep 0; AStep 0; AStep 0]). exists l, (after l), (after (l ++ [ASignal])).
  split; [apply possible_runs; vm_compute; reflexivity|]. split; [apply han_b_ok; vm_compute; reflexivity|].
  split; [exists (mkCall KConnect 0 1 (skipn 4 (prog KConnect)) []); split; [vm_compute; reflexivity|]; split; [reflexivity|]; split; [discriminate|cbn; lia]|]. split; vm_compute; reflexivity.
Qed.
Print Assumptions C169_between_scan_and_dial_refuted.
(** The hypotheses of C166_own_context are met by a Connect that is dialling. *)
Example C166_own_context_example : let l := [ASetDevice true; AContext true; ACall KConnect 0; AStep 0; AStep 0; AStep 0; AStep 0; AStep 0; AStep 0; AStep 0; AStep 0] in
  runs l (after l) /\ in_operation (after l) 0 /\ with_handler (after l) 0 /\ possible (l ++ [ASignal]) = true /\
  exists c, nth_error (calls (after l)) 0 = Some c /\ c_kind c = KConnect /\ length (c_pc c) = 2%nat.
Proof.
  intros l. split; [apply possible_runs; vm_compute; reflexivity|]. split; [exists (mkCall KConnect 0 0 [IOp; IUntrap] [Some 1%nat]), [IUntrap]; split; vm_compute; reflexivity|].
  split; [apply han_b_ok; vm_compute; reflexivity|]. split; [vm_compute; reflexivity|]. exists (mkCall KConnect 0 0 [IOp; IUntrap] [Some 1%nat]). split; [vm_compute; reflexivity|]. split; reflexivity.
Qed.
