(** Proofs about M_sig: what happens to a trap. *)
Require Import Verif.Base Verif.M_sig Verif.S_sig Verif.P_sig Verif.P_sig2 Verif.P_sig3.
(** the trap of a call in its operation *)
Lemma op_trap : forall s i, inv s -> in_operation s i -> with_handler s i ->
  exists t v, nth_error (traps s) t = Some v /\ t_call v = i /\ t_reg v = true.
Proof.
  intros s i I (c & r & K & P) (c2 & g & K2 & G & H). assert (c2 = c) as -> by congruence. assert (B := i_bal _ I _ _ K). rewrite P in B.
  destruct (c_traps c) as [|o os] eqn:T; [inversion B|]. destruct (i_ctx _ I _ _ K) as (g' & x & G' & X & HH & _ & O).
  assert (N : o <> None) by (apply O; [rewrite T; now left|congruence]). destruct o as [t|]; [|congruence].
  destruct (i_stack _ I i c t K ltac:(rewrite T; now left)) as (v & V & R & C & _). exists t, v. auto.
Qed.
Lemma op_trap_ctx : forall s i c, inv s -> in_operation s i -> with_handler s i -> nth_error (calls s) i = Some c ->
  exists t v, nth_error (traps s) t = Some v /\ t_call v = i /\ t_reg v = true /\ t_ctx v = c_ctx c.
Proof.
  intros s i c I (c1 & r & K1 & P) (c2 & g & K2 & G & H) K. assert (c1 = c) as -> by congruence. assert (c2 = c) as -> by congruence. assert (B := i_bal _ I _ _ K). rewrite P in B.
  destruct (c_traps c) as [|o os] eqn:T; [inversion B|]. destruct (i_ctx _ I _ _ K) as (g' & x & G' & X & HH & _ & O).
  assert (N : o <> None) by (apply O; [rewrite T; now left|congruence]). destruct o as [t|]; [|congruence].
  destruct (i_stack _ I i c t K ltac:(rewrite T; now left)) as (v & V & R & C & D). exists t, v. auto.
Qed.
Lemma done_step : forall s a s' x, exec s a = Some s' -> is_done s x = true -> is_done s' x = true.
Proof.
  intros s a s' x E D. unfold is_done in *. destruct (nth_error (ctxs s) x) as [c|] eqn:X; [|discriminate D].
  assert (Q : ctxs s' = ctxs s \/ (exists m, ctxs s' = ctxs s ++ m) \/ exists y, ctxs s' = mapi (end_ctx y) 0 (ctxs s)).
  { unfold exec in E. destruct (negb (alive s)); [discriminate E|]. destruct a as [b|h|y|k y|i|i| |t|t].
    - left. now injection E as <-.
    - right; left. injection E as <-. eexists. reflexivity.
    - right; right. injection E as <-. eexists. reflexivity.
    - destruct (nth_error (ctxs s) y) as [w|]; [|discriminate E]. destruct (x_parent w); [discriminate E|]. destruct k; injection E as <-; [now left|now left|right; left; eexists; reflexivity].
    - left. destruct (nth_error (calls s) i) as [w|]; [|discriminate E]. destruct (c_pc w) as [|[] r]; try discriminate E; try (now injection E as <-).
      + injection E as <-. unfold do_trap. destruct (nth_error (ctxs s) (c_ctx w)) as [z|]; [destruct (x_handler z)|]; reflexivity.
      + destruct (c_traps w) as [|o os]; [discriminate E|]. injection E as <-. destruct o as [t|]; [|reflexivity]. cbn [do_untrap set_call traps]. destruct (nth_error (traps s) t); reflexivity.
    - left. destruct (nth_error (calls s) i) as [w|]; [|discriminate E]. destruct (c_pc w) as [|[] r]; try discriminate E. now injection E as <-.
    - left. destruct (existsb _ _); now injection E as <-.
    - left. destruct (nth_error (traps s) t) as [w|]; [|discriminate E]. destruct (_ && _)%bool; [|discriminate E]. now injection E as <-.
    - left. destruct (nth_error (traps s) t) as [w|]; [|discriminate E]. destruct (_ && _)%bool; [|discriminate E]. now injection E as <-. }
  destruct Q as [->|[[m ->]|[y ->]]]; [now rewrite X|now rewrite (nth_app1 _ _ _ _ X)|]. rewrite nth_mapi, X. cbn [option_map end_ctx x_done]. now rewrite D.
Qed.
(** one step and one trap *)
Lemma trap_step : forall s a s' t v, exec s a = Some s' -> nth_error (traps s) t = Some v ->
  exists v', nth_error (traps s') t = Some v' /\ t_call v' = t_call v /\ t_ctx v' = t_ctx v /\
    (a = AFire t -> t_called v' = true /\ t_called v' = true /\ t_wait v = true /\ t_pend v = true) /\ (a <> AFire t -> t_called v' = t_called v) /\
    (t_wait v' = true -> t_wait v = true) /\
    (t_wait v = true -> t_pend v = true -> (t_wait v' = true /\ t_pend v' = true) \/ a = AFire t \/ (a = AQuit t /\ is_done s (t_ctx v) = true)) /\
    (t_pend v' = true -> t_pend v = true \/ (a = ASignal /\ t_reg v = true)) /\
    (a = ASignal -> t_reg v = true -> alive s' = true /\ t_pend v' = true /\ t_wait v' = t_wait v) /\
    (t_reg v' = true -> t_reg v = true).
Proof.
  intros s a s' t v E V. unfold exec in E. destruct (negb (alive s)) eqn:AL; [discriminate E|].
  assert (Same : (forall u, a <> AFire u) -> a <> ASignal -> nth_error (traps s') t = Some v -> exists v', nth_error (traps s') t = Some v' /\ t_call v' = t_call v /\ t_ctx v' = t_ctx v /\
    (a = AFire t -> t_called v' = true /\ t_called v' = true /\ t_wait v = true /\ t_pend v = true) /\ (a <> AFire t -> t_called v' = t_called v) /\
    (t_wait v' = true -> t_wait v = true) /\
    (t_wait v = true -> t_pend v = true -> (t_wait v' = true /\ t_pend v' = true) \/ a = AFire t \/ (a = AQuit t /\ is_done s (t_ctx v) = true)) /\
    (t_pend v' = true -> t_pend v = true \/ (a = ASignal /\ t_reg v = true)) /\
    (a = ASignal -> t_reg v = true -> alive s' = true /\ t_pend v' = true /\ t_wait v' = t_wait v) /\
    (t_reg v' = true -> t_reg v = true)).
  { intros N1 N2 H. exists v. split; [exact H|]. split; [reflexivity|]. split; [reflexivity|]. split; [intros X; now elim (N1 t)|]. split; [reflexivity|]. split; [auto|]. split; [auto|]. split; [auto|]. split; [now intros|auto]. }
  destruct a as [b|h|y|k y|i|i| |u|u].
  - apply Same; [discriminate|discriminate|]. now injection E as <-.
  - apply Same; [discriminate|discriminate|]. now injection E as <-.
  - apply Same; [discriminate|discriminate|]. now injection E as <-.
  - apply Same; [discriminate|discriminate|]. destruct (nth_error (ctxs s) y) as [w|]; [|discriminate E]. destruct (x_parent w); [discriminate E|]. destruct k; now injection E as <-.
  - destruct (nth_error (calls s) i) as [w|]; [|discriminate E]. destruct (c_pc w) as [|[] r]; try discriminate E;
      try (apply Same; [discriminate|discriminate|]; now injection E as <-).
    + apply Same; [discriminate|discriminate|]. injection E as <-. unfold do_trap. destruct (nth_error (ctxs s) (c_ctx w)) as [z|]; [destruct (x_handler z)|]; [now apply nth_app1|exact V|exact V].
    + destruct (c_traps w) as [|o os]; [discriminate E|]. destruct o as [u|]; [|apply Same; [discriminate|discriminate|]; now injection E as <-].
      injection E as <-. cbn [do_untrap set_call traps]. destruct (nth_error (traps s) u) as [z|] eqn:U; [|apply Same; [discriminate|discriminate|exact V]].
      cbn [set_trap traps]. destruct (Nat.eq_dec u t) as [->|N].
      * assert (z = v) as -> by congruence. eexists. split; [exact (upd_same _ _ _ _ V)|]. cbn [t_call t_ctx t_called t_wait t_pend t_reg].
        split; [reflexivity|]. split; [reflexivity|]. split; [discriminate|]. split; [reflexivity|]. split; [auto|]. split; [auto|]. split; [auto|]. split; [discriminate|discriminate].
      * apply Same; [discriminate|discriminate|]. cbn [traps set_trap]. now rewrite upd_other by congruence.
  - apply Same; [discriminate|discriminate|]. destruct (nth_error (calls s) i) as [w|]; [|discriminate E]. destruct (c_pc w) as [|[] r]; try discriminate E. now injection E as <-.
  - destruct (existsb t_reg (traps s)) eqn:X; injection E as <-; cbn [traps alive].
    + rewrite nth_error_map, V. cbn [option_map]. eexists. split; [reflexivity|]. destruct (t_reg v) eqn:R; cbn [t_call t_ctx t_called t_wait t_pend t_reg].
      * split; [reflexivity|]. split; [reflexivity|]. split; [discriminate|]. split; [reflexivity|]. split; [auto|]. split; [auto|]. split; [auto|]. split; [|auto]. intros _ _. split; [now destruct (alive s)|auto].
      * split; [reflexivity|]. split; [reflexivity|]. split; [discriminate|]. split; [reflexivity|]. split; [auto|]. split; [auto|]. split; [auto|]. split; [discriminate|]. congruence.
    + assert (RF : t_reg v = false).
      { destruct (t_reg v) eqn:R; [|reflexivity]. rewrite <- X. symmetry. apply existsb_exists. exists v. split; [now apply nth_error_In with (n := t)|exact R]. }
      exists v. split; [exact V|]. split; [reflexivity|]. split; [reflexivity|]. split; [discriminate|]. split; [reflexivity|]. split; [auto|]. split; [auto|]. split; [auto|]. split; [congruence|auto].
  - destruct (nth_error (traps s) u) as [z|] eqn:U; [|discriminate E]. destruct (t_wait z && t_pend z)%bool eqn:W; [|discriminate E]. injection E as <-. cbn [set_trap traps alive].
    apply andb_true_iff in W as [W1 W2]. destruct (Nat.eq_dec u t) as [->|N].
    + assert (z = v) as -> by congruence. eexists. split; [exact (upd_same _ _ _ _ V)|]. cbn [t_call t_ctx t_called t_wait t_pend t_reg].
      split; [reflexivity|]. split; [reflexivity|]. split; [auto|]. split; [congruence|]. split; [discriminate|]. split; [auto|]. split; [discriminate|]. split; [discriminate|auto].
    + exists v. split; [now rewrite upd_other by congruence|]. split; [reflexivity|]. split; [reflexivity|]. split; [congruence|]. split; [reflexivity|]. split; [auto|]. split; [auto|]. split; [auto|]. split; [discriminate|auto].
  - destruct (nth_error (traps s) u) as [z|] eqn:U; [|discriminate E]. destruct (t_wait z && is_done s (t_ctx z))%bool eqn:W; [|discriminate E]. injection E as <-. cbn [set_trap traps alive].
    apply andb_true_iff in W as [W1 W2]. destruct (Nat.eq_dec u t) as [->|N].
    + assert (z = v) as -> by congruence. eexists. split; [exact (upd_same _ _ _ _ V)|]. cbn [t_call t_ctx t_called t_wait t_pend t_reg].
      split; [reflexivity|]. split; [reflexivity|]. split; [discriminate|]. split; [reflexivity|]. split; [discriminate|]. split; [auto|]. split; [auto|]. split; [discriminate|auto].
    + exists v. split; [now rewrite upd_other by congruence|]. split; [reflexivity|]. split; [reflexivity|]. split; [discriminate|]. split; [reflexivity|]. split; [auto|]. split; [auto|]. split; [auto|]. split; [discriminate|auto].
Qed.
(** once a signal waits in the channel of a trap: the handler has been called, or can be, or the context has ended *)
Lemma pending_forever : forall l s s' t v, inv s -> exec_all s l = Some s' -> nth_error (traps s) t = Some v ->
  (t_called v = true \/ is_done s (t_ctx v) = true \/ (t_wait v = true /\ t_pend v = true)) ->
  exists v', nth_error (traps s') t = Some v' /\ t_call v' = t_call v /\ t_ctx v' = t_ctx v /\ (t_called v' = true \/ is_done s' (t_ctx v) = true \/ (t_wait v' = true /\ t_pend v' = true)).
Proof.
  induction l as [|a l IH]; intros s s' t v I E V H; cbn [exec_all] in E.
  - assert (s' = s) as -> by congruence. exists v. auto.
  - destruct (exec s a) as [s1|] eqn:X; [|discriminate E]. destruct (trap_step s a s1 t v X V) as (v1 & V1 & C1 & C2 & F1 & F2 & _ & P & _ & _).
    assert (H1 : t_called v1 = true \/ is_done s1 (t_ctx v1) = true \/ (t_wait v1 = true /\ t_pend v1 = true)).
    { rewrite C2. destruct H as [H|[H|[H1 H2]]].
      - left. assert (D : a = AFire t \/ a <> AFire t) by (destruct a; try (right; discriminate); destruct (Nat.eq_dec t0 t); [left; congruence|right; congruence]).
        destruct D as [D|D]; [apply (F1 D)|now rewrite (F2 D)].
      - right; left. exact (done_step _ _ _ _ X H).
      - destruct (P H1 H2) as [Q|[Q|[Q1 Q2]]]; [now right; right|left; apply (F1 Q)|right; left; exact (done_step _ _ _ _ X Q2)]. }
    destruct (IH s1 s' t v1 (exec_inv _ _ _ I X) E V1 H1) as (v' & V' & D1 & D2 & R). exists v'. rewrite <- C2. split; [exact V'|]. split; [congruence|]. split; [congruence|exact R].
Qed.
(** calls keep their context; a call that has begun does not vanish *)
Lemma call_step : forall s a s' i c, exec s a = Some s' -> nth_error (calls s) i = Some c -> exists c', nth_error (calls s') i = Some c' /\ c_given c' = c_given c /\ c_kind c' = c_kind c.
Proof.
  intros s a s' i c E K. unfold exec in E. destruct (negb (alive s)); [discriminate E|].
  assert (U : forall j w w', nth_error (calls s) j = Some w -> c_given w' = c_given w -> c_kind w' = c_kind w -> exists c', nth_error (upd (calls s) j w') i = Some c' /\ c_given c' = c_given c /\ c_kind c' = c_kind c).
  { intros j w w' J E1 E2. destruct (Nat.eq_dec j i) as [->|N]; [assert (w = c) as -> by congruence; exists w'; split; [exact (upd_same _ _ _ _ K)|auto]|].
    exists c. split; [now rewrite upd_other by congruence|auto]. }
  assert (St : calls s' = calls s -> exists c', nth_error (calls s') i = Some c' /\ c_given c' = c_given c /\ c_kind c' = c_kind c) by (intros ->; eauto).
  destruct a as [b|h|y|k y|j|j| |u|u]; try (apply St; injection E as <-; reflexivity).
  - destruct (nth_error (ctxs s) y) as [w|]; [|discriminate E]. destruct (x_parent w); [discriminate E|].
    destruct k; injection E as <-; cbn [calls]; exists c; (split; [now apply nth_app1|auto]).
  - destruct (nth_error (calls s) j) as [w|] eqn:J; [|discriminate E]. destruct (c_pc w) as [|[] r]; try discriminate E;
      try (injection E as <-; apply (U _ _ _ J); reflexivity).
    + injection E as <-. unfold do_trap. destruct (nth_error (ctxs s) (c_ctx w)) as [z|]; [destruct (x_handler z)|]; apply (U _ _ _ J); reflexivity.
    + destruct (c_traps w) as [|o os]; [discriminate E|]. injection E as <-. destruct o as [u|]; [|apply (U _ _ _ J); reflexivity].
      cbn [do_untrap set_call traps]. destruct (nth_error (traps s) u); apply (U _ _ _ J); reflexivity.
  - destruct (nth_error (calls s) j) as [w|] eqn:J; [|discriminate E]. destruct (c_pc w) as [|[] r]; try discriminate E. injection E as <-. apply (U _ _ _ J); reflexivity.
  - apply St. destruct (existsb _ _); now injection E as <-.
  - apply St. destruct (nth_error (traps s) u) as [w|]; [|discriminate E]. destruct (_ && _)%bool; [|discriminate E]. now injection E as <-.
  - apply St. destruct (nth_error (traps s) u) as [w|]; [|discriminate E]. destruct (_ && _)%bool; [|discriminate E]. now injection E as <-.
Qed.
(** traps come one at a time, by the call that runs trap *)
Lemma traps_grow : forall s a s', exec s a = Some s' ->
  length (traps s') = length (traps s) \/ exists i c v, nth_error (calls s) i = Some c /\ c_pc c <> [] /\ length (traps s') = S (length (traps s)) /\
    nth_error (traps s') (length (traps s)) = Some v /\ t_called v = false /\ t_pend v = false /\ t_call v = i /\ a = AStep i.
Proof.
  intros s a s' E. unfold exec in E. destruct (negb (alive s)); [discriminate E|]. destruct a as [b|h|y|k y|j|j| |u|u]; try (left; injection E as <-; reflexivity).
  - left. destruct (nth_error (ctxs s) y) as [w|]; [|discriminate E]. destruct (x_parent w); [discriminate E|]. destruct k; now injection E as <-.
  - destruct (nth_error (calls s) j) as [w|] eqn:J; [|discriminate E]. destruct (c_pc w) as [|[] r] eqn:P; try discriminate E; try (left; injection E as <-; reflexivity).
    + injection E as <-. unfold do_trap. destruct (nth_error (ctxs s) (c_ctx w)) as [z|]; [destruct (x_handler z)|]; [|now left|now left]. right. cbn [traps].
      exists j, w. eexists. split; [exact J|]. split; [rewrite P; discriminate|]. split; [rewrite app_length; cbn; lia|]. split; [apply nth_len|]. auto.
    + left. destruct (c_traps w) as [|o os]; [discriminate E|]. injection E as <-. destruct o as [u|]; [|reflexivity]. cbn [do_untrap set_call traps]. destruct (nth_error (traps s) u); [cbn [set_trap traps]; apply upd_len|reflexivity].
  - left. destruct (nth_error (calls s) j) as [w|] eqn:J; [|discriminate E]. destruct (c_pc w) as [|[] r]; try discriminate E. now injection E as <-.
  - left. destruct (existsb _ _); injection E as <-; cbn [traps]; [now rewrite map_length|reflexivity].
  - left. destruct (nth_error (traps s) u) as [w|]; [|discriminate E]. destruct (_ && _)%bool; [|discriminate E]. injection E as <-. cbn [set_trap traps]. apply upd_len.
  - left. destruct (nth_error (traps s) u) as [w|]; [|discriminate E]. destruct (_ && _)%bool; [|discriminate E]. injection E as <-. cbn [set_trap traps]. apply upd_len.
Qed.
(** a handler call on behalf of a call follows an interrupt during the call *)
Lemma only_interrupted : forall l s, runs l s -> forall t v, nth_error (traps s) t = Some v -> t_pend v = true \/ t_called v = true -> interrupted l (t_call v).
Proof.
  apply (runs_snoc_ind (fun l s => forall t v, nth_error (traps s) t = Some v -> t_pend v = true \/ t_called v = true -> interrupted l (t_call v))).
  - intros t v V. destruct t; discriminate V.
  - intros l s a s' R IH E t v' V' H. assert (I := runs_inv _ _ R).
    destruct (nth_error (traps s) t) as [v|] eqn:V.
    + destruct (trap_step s a s' t v E V) as (v2 & V2 & C1 & _ & F1 & F2 & _ & _ & P & _ & _). assert (v2 = v') as -> by congruence.
      assert (Ext : interrupted l (t_call v) -> interrupted (l ++ [a]) (t_call v)).
      { intros (l1 & l2 & s1 & c & -> & Q). exists l1, (l2 ++ [a]), s1, c. rewrite <- app_assoc. auto. }
      rewrite C1. assert (D : a = AFire t \/ a <> AFire t) by (destruct a; try (right; discriminate); destruct (Nat.eq_dec t0 t); [left; congruence|right; congruence]).
      assert (G : t_pend v = true \/ t_called v = true \/ (a = ASignal /\ t_reg v = true)).
      { destruct H as [H|H]; [destruct (P H) as [Q|Q]; auto|]. destruct D as [D|D]; [destruct (F1 D) as (_ & _ & _ & Q); auto|]. rewrite (F2 D) in H. auto. }
      destruct G as [G|[G|[-> G]]]; [apply Ext; apply (IH t v V); auto|apply Ext; apply (IH t v V); auto|].
      destruct (i_reg _ I _ _ V G) as (c & K & T). exists l, [], s, c. split; [reflexivity|]. split; [exact R|]. split; [exact K|].
      intros PC. assert (B := i_bal _ I _ _ K). rewrite PC in B. destruct (c_traps c); [destruct T|inversion B].
    + apply nth_error_None in V. assert (L : (t < length (traps s'))%nat) by (apply nth_error_Some; congruence).
      destruct (traps_grow s a s' E) as [G|(i & c & v & K & PC & G1 & G2 & G3 & G4 & _)]; [lia|]. assert (t = length (traps s)) as -> by lia.
      assert (v = v') as -> by congruence. destruct H; congruence.
Qed.
(** every handler call is that of one trap, once *)
Lemma calls_counted : forall l s, runs l s -> forall i, handler_calls l s i = length (filter (fun v => own i v && t_called v) (traps s)).
Proof.
  apply (runs_snoc_ind (fun l s => forall i, handler_calls l s i = length (filter (fun v => own i v && t_called v) (traps s)))).
  - reflexivity.
  - intros l s a s' R IH E i. assert (I := runs_inv _ _ R).
    (* fired goroutines exist *)
    assert (FE : forall t, In (AFire t) l -> exists v, nth_error (traps s) t = Some v).
    { revert R. clear. revert l s. apply (runs_snoc_ind (fun l s => forall t, In (AFire t) l -> exists v, nth_error (traps s) t = Some v)).
      - intros t [].
      - intros l s a s' R IH E t H. apply in_app_or in H. assert (Q : exists v, nth_error (traps s) t = Some v).
        { destruct H as [H|[->|[]]]; [now apply IH|]. unfold exec in E. destruct (negb (alive s)); [discriminate E|]. destruct (nth_error (traps s) t) as [v|]; [eauto|discriminate E]. }
        destruct Q as [v V]. destruct (trap_step _ _ _ _ _ E V) as (v' & V' & _). eauto. }
    assert (OS : forall t, In (AFire t) l -> owner s' t = owner s t).
    { intros t H. destruct (FE t H) as [v V]. destruct (trap_step _ _ _ _ _ E V) as (v' & V' & C & _). unfold owner. now rewrite V, V', C. }
    unfold handler_calls in *. rewrite filter_app, app_length.
    replace (filter (fun b => match b with AFire t => onat_eqb (owner s' t) i | _ => false end) l) with (filter (fun b => match b with AFire t => onat_eqb (owner s t) i | _ => false end) l).
    2:{ apply filter_ext_in. intros b B. destruct b; try reflexivity. now rewrite (OS _ B). }
    rewrite IH. clear IH FE OS. set (f := fun v => (own i v && t_called v)%bool).
    (* what the step does to the count *)
    assert (Cnt : forall ts ts' : list trapt, length ts' = length ts -> (forall t v v', nth_error ts t = Some v -> nth_error ts' t = Some v' -> f v' = f v) -> length (filter f ts') = length (filter f ts)).
    { clear. induction ts as [|v ts IH]; intros [|v' ts'] L H; cbn [length] in L; try discriminate L; [reflexivity|]. cbn [filter]. rewrite (H 0%nat v v' eq_refl eq_refl).
      specialize (IH ts' ltac:(lia) (fun t => H (S t))). destruct (f v); cbn [length]; lia. }
    destruct (match a with AFire _ => true | _ => false end) eqn:FA.
    + destruct a; try discriminate FA. unfold exec in E. destruct (negb (alive s)); [discriminate E|]. destruct (nth_error (traps s) t) as [v|] eqn:V; [|discriminate E].
      destruct (t_wait v && t_pend v)%bool eqn:W; [|discriminate E]. injection E as <-. apply andb_true_iff in W as [W _]. cbn [set_trap traps filter]. unfold owner. cbn [traps set_trap]. rewrite (upd_same _ _ _ _ V). cbn [t_call onat_eqb].
      destruct (i_wait _ I _ _ V) as [Q _]. assert (CF : t_called v = false) by (destruct (t_called v); [rewrite Q in W by reflexivity; discriminate W|reflexivity]).
      set (v' := mkTrap (t_call v) (t_ctx v) (t_reg v) false false true).
      assert (F0 : f v = false) by (unfold f; now rewrite CF, andb_false_r). assert (F1 : f v' = Nat.eqb (t_call v) i) by (unfold f, v', own; cbn [t_call t_called]; apply andb_true_r).
      clearbody f v'. clear - V F0 F1. revert t V. induction (traps s) as [|x ts IH]; intros [|t] V; cbn [nth_error upd] in *; try discriminate V.
      * assert (x = v) as -> by congruence. cbn [filter]. rewrite F0, F1. rewrite Nat.add_comm. destruct (Nat.eqb (t_call v) i); reflexivity.
      * cbn [filter]. specialize (IH t V). destruct (Nat.eqb (t_call v) i); destruct (f x); cbn [length] in *; lia.
    + replace (length (filter _ [a])) with 0%nat by (destruct a; [reflexivity..|discriminate FA|reflexivity]). rewrite Nat.add_0_r. symmetry.
      assert (NF : forall t, a <> AFire t) by (intros t ->; discriminate FA).
      assert (Old : forall t v v', nth_error (traps s) t = Some v -> nth_error (traps s') t = Some v' -> f v' = f v).
      { intros t v v' V V'. destruct (trap_step _ _ _ _ _ E V) as (w & W & C1 & _ & _ & C2 & _). assert (w = v') as -> by congruence. unfold f, own. now rewrite C1, (C2 (NF t)). }
      destruct (traps_grow s a s' E) as [G|(j & c & v & K & PC & G1 & G2 & G3 & _)]; [now apply Cnt|].
      assert (SP : exists ts, traps s' = ts ++ [v] /\ length ts = length (traps s)).
      { clear - G1 G2. exists (firstn (length (traps s)) (traps s')). split; [|rewrite firstn_length; lia]. rewrite <- (firstn_skipn (length (traps s)) (traps s')) at 1. f_equal.
        assert (Q := nth_error_split _ _ G2). destruct Q as (l1 & l2 & E & L). rewrite E in *. rewrite app_length in G1. cbn [length] in G1. assert (l2 = []) as -> by (destruct l2; [reflexivity|cbn in G1; lia]).
        rewrite <- L. rewrite skipn_app, skipn_all, Nat.sub_diag. reflexivity. }
      destruct SP as (ts & SP & L). rewrite SP, filter_app, app_length. cbn [filter]. replace (f v) with false by (unfold f; now rewrite G3, andb_false_r). cbn [length]. rewrite Nat.add_0_r.
      apply Cnt; [exact L|]. intros t w w' W W'. apply (Old t w w' W). rewrite SP. now apply nth_app1.
Qed.

(** Except while Connect scans, a call in progress uses the context it was given. *)
Definition own_ctx (s : sys) : Prop := forall i c, nth_error (calls s) i = Some c ->
  (exists k, c_pc c = skipn k (prog (c_kind c))) /\ (c_kind c <> KConnect \/ (length (c_pc c) <= 4)%nat -> c_pc c <> [] -> c_ctx c = c_given c).
Lemma own_ctx_upd : forall s i c c', own_ctx s -> nth_error (calls s) i = Some c ->
  (exists k, c_pc c' = skipn k (prog (c_kind c'))) -> (c_kind c' <> KConnect \/ (length (c_pc c') <= 4)%nat -> c_pc c' <> [] -> c_ctx c' = c_given c') ->
  forall j d, nth_error (upd (calls s) i c') j = Some d -> (exists k, c_pc d = skipn k (prog (c_kind d))) /\ (c_kind d <> KConnect \/ (length (c_pc d) <= 4)%nat -> c_pc d <> [] -> c_ctx d = c_given d).
Proof.
  intros s i c c' O K A B j d J. destruct (Nat.eq_dec j i) as [->|N].
  - rewrite (upd_same _ _ _ _ K) in J. assert (d = c') as -> by congruence. now split.
  - rewrite upd_other in J by congruence. exact (O _ _ J).
Qed.
Lemma skipn_tail : forall {A} k (l : list A) x r, x :: r = skipn k l -> r = skipn (S k) l.
Proof.
  induction k as [|k IH]; intros l x r H; [cbn [skipn] in H; subst l; reflexivity|]. destruct l as [|y l]; [discriminate H|]. cbn [skipn] in H. exact (IH _ _ _ H).
Qed.
Lemma skipn_both : forall {A} n k (l : list A), exists m, skipn n (skipn k l) = skipn m l.
Proof.
  intros A n k l. exists (k + n)%nat. revert l. induction k as [|k IH]; intros l; [reflexivity|]. destruct l as [|y l]; [destruct n; reflexivity|]. cbn [skipn Nat.add]. apply IH.
Qed.
Lemma connect_tails : forall k x r, x :: r = skipn k (prog KConnect) -> (length r <= 4)%nat -> (length (x :: r) <= 4)%nat \/ x = IBack.
Proof.
  intros k x r H L. destruct (Nat.le_gt_cases 10 k) as [G|G].
  - rewrite skipn_all2 in H by (cbn; lia). discriminate H.
  - assert (L2 : length (x :: r) = (10 - k)%nat) by (rewrite H, skipn_length; reflexivity). cbn [length] in *. destruct (Nat.eq_dec k 5) as [->|N]; [right; cbn in H; congruence|left; lia].
Qed.
Lemma own_ctx_step : forall s a s', own_ctx s -> exec s a = Some s' -> own_ctx s'.
Proof.
  intros s a s' O E. unfold exec in E. destruct (negb (alive s)); [discriminate E|]. destruct a as [b|h|y|k y|i|i| |t|t].
  - injection E as <-. exact O.
  - injection E as <-. exact O.
  - injection E as <-. exact O.
  - destruct (nth_error (ctxs s) y) as [w|]; [|discriminate E]. destruct (x_parent w); [discriminate E|].
    assert (N : forall n, (k <> KConnect -> n = y) -> own_ctx (mkSys (dev s) (ctxs s') (calls s ++ [mkCall k y n (prog k) []]) (traps s) (alive s))).
    { intros n Hn i c K. cbn [calls] in K. destruct (Nat.lt_ge_cases i (length (calls s))) as [L|L]; [rewrite nth_error_app1 in K by exact L; exact (O _ _ K)|]. rewrite nth_error_app2 in K by exact L.
      destruct (i - length (calls s))%nat as [|j]; [|destruct j; discriminate K]. injection K as <-. cbn [c_pc c_kind c_ctx c_given]. split; [exists 0%nat; reflexivity|]. intros [H|H] _; [auto|]. destruct k; [apply Hn; discriminate|apply Hn; discriminate|cbn in H; lia]. }
    destruct k; assert (Q := f_equal (fun o => match o with Some z => z | None => s end) E); cbv beta in Q.
    + intros i c K. rewrite <- Q in K. refine (N y _ i c K). auto.
    + intros i c K. rewrite <- Q in K. refine (N y _ i c K). auto.
    + intros i c K. rewrite <- Q in K. refine (N (length (ctxs s)) _ i c K). intros H. congruence.
  - destruct (nth_error (calls s) i) as [c|] eqn:K; [|discriminate E]. destruct (O _ _ K) as [[k Hk] HC]. destruct (c_pc c) as [|x r] eqn:P; [discriminate E|].
    assert (T : exists k, r = skipn k (prog (c_kind c))) by (exists (S k); exact (skipn_tail _ _ _ _ Hk)).
    assert (C : x <> IBack -> c_kind c <> KConnect \/ (length r <= 4)%nat -> c_ctx c = c_given c).
    { intros NB [H|H]; [apply HC; [now left|discriminate]|]. destruct (c_kind c) eqn:KK; try (apply HC; [left; discriminate|discriminate]). destruct (connect_tails _ _ _ Hk H) as [L|B]; [|contradiction]. apply HC; [now right|discriminate]. }
    assert (S1 : forall os, x <> IBack -> own_ctx (set_call s i (mkCall (c_kind c) (c_given c) (c_ctx c) r os))).
    { intros os NB j d J. cbn [set_call calls] in J. refine (own_ctx_upd s i c _ O K _ _ j d J); [exact T|]. cbn [c_kind c_pc c_ctx c_given]. intros H _. exact (C NB H). }
    destruct x.
    + injection E as <-. intros j d J. cbn [set_call calls] in J. refine (own_ctx_upd s i c _ O K _ _ j d J); cbn [c_kind c_pc c_ctx c_given].
      * destruct (dev s); [exact T|]. destruct T as [m ->]. apply skipn_both.
      * intros H NE. destruct (dev s); [apply C; [discriminate|exact H]|]. destruct T as [m Tm]. destruct (c_kind c) eqn:KK; try (apply C; [discriminate|left; discriminate]). exfalso. apply NE. clear - Hk Tm. subst r.
        cbn [prog prog_one app] in *; (do 11 (destruct k as [|k]; [cbn [skipn] in Hk; try discriminate Hk; injection Hk; intros Hr ->; rewrite Hr; reflexivity|])); destruct k; discriminate Hk.
    + injection E as <-. unfold do_trap. destruct (nth_error (ctxs s) (c_ctx c)) as [z|]; [destruct (x_handler z)|]; apply (S1 _ ltac:(discriminate)).
    + injection E as <-. apply (S1 _ ltac:(discriminate)).
    + destruct (c_traps c) as [|o os]; [discriminate E|]. injection E as <-. destruct o as [t|]; [|apply (S1 _ ltac:(discriminate))]. cbn [do_untrap set_call traps]. destruct (nth_error (traps s) t); apply (S1 _ ltac:(discriminate)).
    + injection E as <-. apply (S1 _ ltac:(discriminate)).
    + injection E as <-. intros j d J. cbn [set_call calls] in J. refine (own_ctx_upd s i c _ O K _ _ j d J); [exact T|reflexivity].
  - destruct (nth_error (calls s) i) as [c|] eqn:K; [|discriminate E]. destruct (c_pc c) as [|[] r] eqn:P; try discriminate E. injection E as <-. intros j d J. cbn [set_call calls] in J.
    refine (own_ctx_upd s i c _ O K _ _ j d J); cbn [c_kind c_pc c_ctx c_given]; [|congruence]. exists 10%nat. destruct (c_kind c); reflexivity.
  - destruct (existsb _ _); injection E as <-; exact O.
  - destruct (nth_error (traps s) t) as [w|]; [|discriminate E]. destruct (_ && _)%bool; [|discriminate E]. injection E as <-. exact O.
  - destruct (nth_error (traps s) t) as [w|]; [|discriminate E]. destruct (_ && _)%bool; [|discriminate E]. injection E as <-. exact O.
Qed.
Lemma runs_own_ctx : forall l s, runs l s -> own_ctx s.
Proof.
  apply (runs_snoc_ind (fun _ s => own_ctx s)).
  - intros i c K. destruct i; discriminate K.
  - intros m s a s' _ O E. exact (own_ctx_step _ _ _ O E).
Qed.
