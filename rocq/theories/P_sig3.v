(** Proofs about M_sig: executions. *)
Require Import Verif.Base Verif.M_sig Verif.S_sig Verif.P_sig Verif.P_sig2.
Lemma exec_inv : forall s a s', inv s -> exec s a = Some s' -> inv s'.
Proof.
  intros s a s' I E. unfold exec in E. destruct (negb (alive s)) eqn:AL; [discriminate E|]. destruct a as [b|h|x|k x|i|i| |t|t].
  - injection E as <-. destruct I. split; assumption.
  - injection E as <-. apply (ctx_inv s _ I).
    + intros j x X. exists x. split; [now apply nth_app1|auto].
    + intros j x p X P. apply nth_snoc in X as [X|[-> ->]]; [|discriminate P]. destruct (i_par _ I _ _ _ X P) as (L & y & Y & D). split; [exact L|]. exists y. split; [now apply nth_app1|exact D].
  - injection E as <-. apply (ctx_inv s _ I).
    + intros j v X. rewrite nth_mapi, X. cbn [option_map]. eexists. split; [reflexivity|]. cbn [end_ctx x_handler x_parent x_done]. split; [reflexivity|]. split; [reflexivity|]. intros ->. reflexivity.
    + intros j v p X P. rewrite nth_mapi in X. destruct (nth_error (ctxs s) j) as [w|] eqn:W; [|discriminate X]. cbn [option_map] in X.
      assert (v = end_ctx x (0 + j) w) as -> by congruence. cbn [end_ctx x_parent] in P. destruct (i_par _ I _ _ _ W P) as (L & y & Y & YP & YH & D).
      split; [exact L|]. rewrite nth_mapi, Y. cbn [option_map]. eexists. split; [reflexivity|]. cbn [end_ctx x_done x_parent x_handler Nat.add]. split; [exact YP|]. split; [exact YH|]. rewrite P, YP. intros Q.
      apply orb_true_iff in Q as [Q|Q]; [|discriminate Q].
      apply orb_true_iff in Q as [Q|Q]; [rewrite (D Q); reflexivity|]. rewrite Q. apply orb_true_r.
  - destruct (nth_error (ctxs s) x) as [c|] eqn:X; [|discriminate E]. destruct (x_parent c) eqn:XP; [discriminate E|].
    assert (Simple : s' = mkSys (dev s) (ctxs s) (calls s ++ [mkCall k x x (prog k) []]) (traps s) (alive s) -> inv s').
    { intros ->. apply call_inv; [exact I|apply prog_bal|reflexivity|cbn [c_pc c_kind]; lia|]. cbn [c_given c_ctx]. exists c, c. auto. }
    destruct k; [injection E as <-; now apply Simple|injection E as <-; now apply Simple|]. injection E as <-. clear Simple.
    assert (I2 : inv (mkSys (dev s) (ctxs s ++ [mkCtx (x_handler c) (x_done c) (Some x)]) (calls s) (traps s) (alive s))).
    { apply (ctx_inv s _ I).
      - intros j y Y. exists y. split; [now apply nth_app1|auto].
      - intros j y p Y P. apply nth_snoc in Y as [Y|[-> ->]].
        + destruct (i_par _ I _ _ _ Y P) as (L & z & Z & D). split; [exact L|]. exists z. split; [now apply nth_app1|exact D].
        + cbn [x_parent] in P. assert (p = x) as -> by congruence. split; [apply nth_error_Some; congruence|]. exists c. split; [now apply nth_app1|]. split; [exact XP|]. cbn [x_done x_handler]. auto. }
    apply (call_inv _ (mkCall KConnect x (length (ctxs s)) (prog KConnect) []) I2); [apply prog_bal|reflexivity|cbn [c_pc c_kind]; lia|].
    cbn [c_given c_ctx ctxs]. exists c, (mkCtx (x_handler c) (x_done c) (Some x)). split; [now apply nth_app1|]. split; [apply nth_len|]. split; [reflexivity|]. now right.
  - destruct (nth_error (calls s) i) as [c|] eqn:K; [|discriminate E]. assert (B := i_bal _ I _ _ K).
    assert (Mv : forall pc, bal pc (length (c_traps c)) -> (ntraps pc <= ntraps (c_pc c))%nat ->
      inv (set_call s i (mkCall (c_kind c) (c_given c) (c_ctx c) pc (c_traps c)))).
    { intros pc Bp N. apply (move_inv s i c _ I K); cbn [c_kind c_given c_ctx c_pc c_traps]; auto. }
    destruct (c_pc c) as [|[n| | | | |] r] eqn:P; [discriminate E| | | | | |].
    + injection E as <-. inversion B as [| | | |? ? ? B1 B2| |]; subst. apply Mv; [destruct (dev s); assumption|].
      assert (NS := ntraps_skip n r). unfold ntraps in *. cbn [filter is_trap]. destruct (dev s); lia.
    + injection E as <-. now apply trap_inv.
    + injection E as <-. inversion B; subst. apply Mv; [congruence|unfold ntraps; cbn [filter is_trap]; lia].
    + destruct (c_traps c) as [|o os] eqn:T; [discriminate E|]. injection E as <-. now apply untrap_inv.
    + injection E as <-. destruct (bal_take _ _ B) as [B2 B1]. apply Mv; [exact B1|unfold ntraps; cbn [filter is_trap]; lia].
    + injection E as <-. destruct (bal_back _ _ B) as [B2 B1].
      apply (move_inv s i c _ I K); cbn [c_kind c_given c_ctx c_pc c_traps]; auto.
      * right. split; [reflexivity|]. destruct (c_traps c); [reflexivity|discriminate B2].
      * rewrite P. unfold ntraps; cbn [filter is_trap]; lia.
  - destruct (nth_error (calls s) i) as [c|] eqn:K; [|discriminate E]. assert (B := i_bal _ I _ _ K). destruct (c_pc c) as [|[] r] eqn:P; try discriminate E. injection E as <-.
    destruct (bal_take _ _ B) as [B2 B1]. apply (move_inv s i c _ I K); cbn [c_kind c_given c_ctx c_pc c_traps]; auto.
    + rewrite B2. constructor.
    + unfold ntraps at 1. cbn [filter length]. lia.
  - destruct (existsb t_reg (traps s)) eqn:X; injection E as <-.
    + apply (traps_inv s _ I (map_length _ _)).
      * intros t v' V. rewrite nth_error_map in V. destruct (nth_error (traps s) t) as [v|] eqn:W; [|discriminate V]. cbn [option_map] in V. exists v. split; [reflexivity|].
        assert (Q := i_wait _ I _ _ W). destruct (t_reg v) eqn:R.
        -- assert (v' = mkTrap (t_call v) (t_ctx v) true true (t_wait v) (t_called v)) as -> by congruence. cbn [t_call t_ctx t_reg t_wait t_called]. auto.
        -- assert (v' = v) as -> by congruence. auto.
      * rewrite map_map. apply map_ext. intros v. now destruct (t_reg v).
    + destruct I. split; assumption.
  - destruct (nth_error (traps s) t) as [v|] eqn:V; [|discriminate E]. destruct (t_wait v && t_pend v)%bool eqn:W; [|discriminate E]. injection E as <-.
    apply (set_trap_inv s t v _ I V); cbn [t_call t_ctx t_reg t_wait t_called]; auto.
  - destruct (nth_error (traps s) t) as [v|] eqn:V; [|discriminate E]. destruct (t_wait v && is_done s (t_ctx v))%bool eqn:W; [|discriminate E]. injection E as <-.
    apply andb_true_iff in W as [W1 W2]. apply (set_trap_inv s t v _ I V); cbn [t_call t_ctx t_reg t_wait t_called]; auto.
Qed.
Lemma exec_all_app : forall l1 l2 s, exec_all s (l1 ++ l2) = match exec_all s l1 with Some s1 => exec_all s1 l2 | None => None end.
Proof. induction l1 as [|a l1 IH]; intros l2 s; [reflexivity|]. cbn [app exec_all]. destruct (exec s a); [apply IH|reflexivity]. Qed.
Lemma exec_all_inv : forall l s s', inv s -> exec_all s l = Some s' -> inv s'.
Proof. induction l as [|a l IH]; intros s s' I E; cbn [exec_all] in E; [congruence|]. destruct (exec s a) as [s1|] eqn:X; [|discriminate E]. exact (IH s1 s' (exec_inv _ _ _ I X) E). Qed.
Lemma runs_inv : forall l s, runs l s -> inv s.
Proof. intros l s R. exact (exec_all_inv l sys0 s inv0 R). Qed.
Lemma runs_snoc_ind : forall (P : list act -> sys -> Prop), P [] sys0 ->
  (forall l s a s', runs l s -> P l s -> exec s a = Some s' -> P (l ++ [a]) s') -> forall l s, runs l s -> P l s.
Proof.
  intros P H0 HS l. induction l as [|a l IH] using rev_ind; intros s R.
  - unfold runs in R. cbn in R. assert (s = sys0) as -> by congruence. exact H0.
  - unfold runs in R. rewrite exec_all_app in R. destruct (exec_all sys0 l) as [s1|] eqn:X; [|discriminate R]. cbn [exec_all] in R. destruct (exec s1 a) as [s2|] eqn:Y; [|discriminate R].
    assert (s2 = s) as -> by congruence. apply (HS l s1 a s X (IH s1 X) Y).
Qed.
