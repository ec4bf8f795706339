Require Import Verif.Base Verif.S_l2cap Verif.M_l2cap Verif.M_aclw Verif.S_aclw Verif.P_aclw Verif.P_aclw2 Verif.P_aclw3 Verif.P_aclw4 Verif.P_aclw5 Verif.P_aclw6.
From Coq Require Import Lia.
Local Open Scope nat_scope.

Lemma can_step : forall s bl t k p, Inv s bl -> nth_error (k_thr s) t = Some (mkT k p) -> (forall ok, p <> Ended ok) ->
  can s t \/ (k_lock s <> None /\ hold p = false) \/ (k_lock s = Some t /\ k_free s = []).
Proof.
  intros s bl t k p (IT & _) N NE. destruct (IT t _ N) as (CL & (HL & _) & T). cbn [t_call t_ph] in *. unfold can, exec, step. rewrite N. destruct (nth_error (k_conns s) (conn_of k)) as [x|] eqn:X; [|apply nth_error_None in X; lia].
  unfold tinv in T. cbn [t_call t_ph] in T. destruct p as [| | |pdu lft|pdu lft|pdu first lft|b pdu first lft|b pdu lft|b pdu lft|r|r| | | |ok|]; try contradiction; try (left; destruct T as [(c & sdu & ->) _]; eexists; left; reflexivity);
    try (left; eexists; left; reflexivity).
  - left. destruct T as [(c & sdu & -> & _) _]. eexists. left. reflexivity.
  - destruct (k_lock s); [right; left; split; [discriminate|reflexivity]|left; eexists; left; reflexivity].
  - left. destruct (c_done x); eexists; left; reflexivity.
  - destruct pdu as [|y pdu]; [left; eexists; left; reflexivity|]. destruct (k_free s) as [|b f]; [|left; eexists; left; reflexivity]. right. right. split; [now apply HL|reflexivity].
  - left. destruct (c_done x); eexists; left; reflexivity.
  - left. eexists. right. reflexivity.
  - destruct (k_lock s); [right; left; split; [discriminate|reflexivity]|left; eexists; left; reflexivity].
  - now elim (NE ok).
Qed.
Lemma progress : forall s bl t k p, Inv s bl -> lkI s -> nth_error (k_thr s) t = Some (mkT k p) -> (forall ok, p <> Ended ok) ->
  can s t \/ exists u, k_lock s = Some u /\ (can s u \/ k_free s = []).
Proof.
  intros s bl t k p IV LK N NE. destruct (can_step s bl t k p IV N NE) as [C|[[L H]|[L F]]]; [now left| |right; exists t; tauto].
  right. destruct (k_lock s) as [u|] eqn:Q; [|contradiction]. exists u. split; [reflexivity|]. assert (Lu := LK u Q). apply nth_error_Some in Lu. destruct (nth_error (k_thr s) u) as [[k' p']|] eqn:Nu; [|contradiction].
  assert (IV2 := IV). destruct IV2 as (IT & _). destruct (IT u _ Nu) as (_ & (_ & HU) & _). cbn [t_ph] in HU. specialize (HU Q).
  destruct (can_step s bl u k' p' IV Nu) as [C|[[_ H']|[_ F]]]; [|now left|congruence|now right]. intros ok ->. discriminate.
Qed.

Definition meas (th : thr) : nat :=
  match t_ph th with
  | WCheck => 4 * length (pdu_of (t_call th)) + 5 | WLen => 4 * length (pdu_of (t_call th)) + 4
  | PLock p _ => 4 * length p + 3 | PDone p _ => 4 * length p + 2 | PGet p _ _ => 4 * length p + 1 | PFill _ p _ _ => 4 * length p
  | PChk _ p _ => 4 * length p + 3 | PSend _ p _ => 4 * length p + 2
  | CClose => 3 | CLock => 2 | CPut => 1 | _ => 0
  end.
Definition tm (s : kst) (t : nat) : nat := match nth_error (k_thr s) t with Some th => meas th | None => 0 end.
Lemma tm_upd : forall s (s' : kst) t k p0 p, nth_error (k_thr s) t = Some (mkT k p0) -> k_thr s' = upd (k_thr s) t (mkT k p) -> meas (mkT k p) + 1 <= meas (mkT k p0) ->
  tm s' t + 1 <= tm s t /\ forall t', t' <> t -> tm s' t' = tm s t'.
Proof.
  intros s s' t k p0 p N E L. unfold tm. rewrite E. split; [rewrite (nth_upd_eq _ _ _ _ N), N; exact L|]. intros t' D. now rewrite nth_upd_ne by congruence.
Qed.
Lemma step_meas : forall s bl t s', 1 <= k_bufsz s -> Inv s bl -> step s t = Some s' -> exists k p0 p, nth_error (k_thr s) t = Some (mkT k p0) /\ k_thr s' = upd (k_thr s) t (mkT k p) /\ meas (mkT k p) + 1 <= meas (mkT k p0).
Proof.
  intros s bl t s' NB (IT & _) E. unfold step in E. destruct (nth_error (k_thr s) t) as [[k p]|] eqn:N; [|discriminate]. destruct (nth_error (k_conns s) (conn_of k)) as [x|] eqn:X; [|discriminate].
  destruct (IT t _ N) as (_ & _ & T). unfold tinv in T. cbn [t_call t_ph] in T. exists k, p.
  destruct p as [| | |pdu lft|pdu lft|pdu first lft|b pdu first lft|b pdu lft|b pdu lft|r|r| | | |ok|]; try discriminate; try contradiction.
  - destruct T as [(c & sdu & ->) _]. apply some_inj in E. subst s'. eexists. split; [reflexivity|]. split; [reflexivity|]. unfold meas. cbn [t_call t_ph]. destruct (Nat.ltb _ _); lia.
  - destruct T as [(c & sdu & -> & L) _]. unfold mtu in L. rewrite X in L. destruct (Nat.ltb_spec (c_mtu x) (length sdu)); [lia|]. destruct (frame_all sdu) as [Q _]. rewrite Q in E. apply some_inj in E. subst s'. eexists. split; [reflexivity|]. split; [reflexivity|]. unfold meas. cbn [t_call t_ph pdu_of]. lia.
  - destruct (k_lock s); [discriminate|]. apply some_inj in E. subst s'. eexists. split; [reflexivity|]. split; [reflexivity|]. unfold meas. cbn [t_call t_ph]. lia.
  - destruct (c_done x); apply some_inj in E; subst s'; eexists; (split; [reflexivity|]; split; [reflexivity|]); unfold meas; cbn [t_call t_ph]; lia.
  - destruct T as (_ & -> & _). destruct pdu as [|y pdu].
    + apply some_inj in E. subst s'. eexists. split; [reflexivity|]. split; [reflexivity|]. unfold meas. cbn [t_call t_ph next_of]. lia.
    + destruct (k_free s); [discriminate|]. apply some_inj in E. subst s'. eexists. split; [reflexivity|]. split; [reflexivity|]. unfold meas. cbn [t_call t_ph]. lia.
  - destruct T as (_ & NE & _). destruct (piece_cut (k_bufsz s) pdu NB NE) as (P1 & P2 & _). apply some_inj in E. subst s'. eexists. split; [reflexivity|]. split; [reflexivity|]. unfold meas. cbn [t_call t_ph]. rewrite skipn_length. lia.
  - destruct (c_done x); apply some_inj in E; subst s'; eexists; (split; [reflexivity|]; split; [reflexivity|]); unfold meas; cbn [t_call t_ph]; lia.
  - apply some_inj in E. subst s'. eexists. split; [reflexivity|]. split; [reflexivity|]. unfold meas. cbn [t_call t_ph]. lia.
  - destruct (k_lock s); [discriminate|]. apply some_inj in E. subst s'. eexists. split; [reflexivity|]. split; [reflexivity|]. unfold meas. cbn [t_call t_ph]. lia.
  - apply some_inj in E. subst s'. eexists. split; [reflexivity|]. split; [reflexivity|]. unfold meas. cbn [t_call t_ph]. lia.
Qed.
Definition own1 (t : nat) (a : act) : nat := match a with AStep u => if Nat.eqb u t then 1 else 0 | AWrite u _ => if Nat.eqb u t then 1 else 0 | _ => 0 end.
Lemma own_app : forall t l a, own t (l ++ [a]) = own t l + own1 t a.
Proof.
  intros t l a. unfold own. rewrite filter_app, app_length. f_equal. unfold own1. destruct a as [k|u|u ok|c n|c v|h v]; try reflexivity; cbn [filter]; destruct (Nat.eqb u t); reflexivity.
Qed.
Lemma few : forall cnt n l s t k, 1 <= n -> handles_ok l -> calm cnt n l -> runs cnt n l s -> call_of s t = Some k -> own t l + tm s t <= 4 * length (pdu_of k) + 5.
Proof.
  intros cnt n l. induction l as [|a l IH] using rev_ind; intros s t k NB HO CA R C.
  - apply some_inj in R. subst s. unfold call_of, k0 in C. cbn in C. destruct t; discriminate.
  - apply runs_app in R. destruct R as (s1 & R1 & R2). cbn [exec_all] in R2. destruct (exec s1 a) as [s2|] eqn:E; [|discriminate]. apply some_inj in R2. subst s2.
    destruct (runs_inv cnt n l s1 NB (handles_pre _ _ HO) (calm_pre _ _ _ _ CA) R1) as ((bl & IV) & _ & BS). destruct (act_shape _ _ _ E) as (_ & _ & _ & _ & CK & _). rewrite own_app.
    assert (G : (exists k', call_of s1 t = Some k') -> tm s t + own1 t a <= tm s1 t -> own t l + own1 t a + tm s t <= 4 * length (pdu_of k) + 5).
    { intros (k' & C') L. assert (k' = k) by (apply CK in C'; congruence). subst k'. specialize (IH s1 t k NB (handles_pre _ _ HO) (calm_pre _ _ _ _ CA) R1 C'). lia. }
    assert (UP : forall u k0 p0 p, nth_error (k_thr s1) u = Some (mkT k0 p0) -> k_thr s = upd (k_thr s1) u (mkT k0 p) -> meas (mkT k0 p) + 1 <= meas (mkT k0 p0) -> (forall t', own1 t' a = if Nat.eqb u t' then 1 else 0) -> own t l + own1 t a + tm s t <= 4 * length (pdu_of k) + 5).
    { intros u k0 p0 p N Q L O. destruct (tm_upd s1 s u k0 p0 p N Q L) as [T1 T2]. apply G.
      - unfold call_of in C. rewrite Q in C. destruct (Nat.eq_dec u t) as [->|D]; [exists k0; unfold call_of; now rewrite N|]. rewrite nth_upd_ne in C by exact D. now exists k.
      - rewrite O. destruct (Nat.eqb_spec u t) as [->|D]; [lia|]. rewrite T2 by congruence. lia. }
    destruct a as [k0|u|u ok|c m|c v|h v].
    + unfold exec in E. destruct (Nat.ltb (conn_of k0) (length (k_conns s1))); [|discriminate]. apply some_inj in E. subst s. unfold call_of, tm in *. cbn [k_thr own1] in *. destruct (Nat.lt_ge_cases t (length (k_thr s1))) as [L|L].
      * rewrite nth_error_app1 in * by exact L. specialize (IH s1 t k NB (handles_pre _ _ HO) (calm_pre _ _ _ _ CA) R1). unfold call_of, tm in IH. specialize (IH C). lia.
      * rewrite nth_error_app2 in * by exact L. destruct (t - length (k_thr s1)) as [|d] eqn:D; [|destruct d; discriminate]. cbn [nth_error option_map t_call] in *. injection C as <-.
        assert (Z : own t l = 0).
        { clear - R1 L. revert s1 R1 L. induction l as [|a l IH] using rev_ind; intros s1 R L; [reflexivity|]. apply runs_app in R. destruct R as (s0 & R0 & R). cbn [exec_all] in R. destruct (exec s0 a) as [s2|] eqn:E; [|discriminate]. apply some_inj in R. subst s2.
          destruct (act_shape _ _ _ E) as (_ & _ & _ & _ & CK & _). assert (L0 : length (k_thr s0) <= t).
          { destruct (Nat.le_gt_cases (length (k_thr s0)) t) as [Q|Q]; [exact Q|]. exfalso. apply nth_error_Some in Q. destruct (nth_error (k_thr s0) t) as [th|] eqn:N; [|contradiction]. specialize (CK t (t_call th)). unfold call_of in CK. rewrite N in CK. specialize (CK eq_refl).
            apply nth_error_None in L. rewrite L in CK. discriminate. }
          rewrite own_app, (IH s0 R0 L0). apply nth_error_None in L0. unfold own1. destruct a as [k0|u|u ok|c m|c v|h v]; try reflexivity; destruct (Nat.eqb_spec u t) as [->|D]; try reflexivity; exfalso; unfold exec, step in E; rewrite L0 in E; discriminate. }
        rewrite Z. unfold meas. cbn [t_call t_ph]. destruct k0; cbn [pdu_of]; lia.
    + destruct (step_meas s1 bl u s ltac:(lia) IV E) as (k0 & p0 & p & N & Q & L). apply (UP u k0 p0 p N Q L). intros t'. reflexivity.
    + unfold exec in E. destruct (nth_error (k_thr s1) u) as [[k0 p0]|] eqn:N; [|discriminate]. destruct p0 as [| | |pdu lft|pdu lft|pdu first lft|b pdu first lft|b pdu lft|b pdu lft|r|r| | | |ok0|]; try discriminate.
      destruct ok; apply some_inj in E; subst s.
      * apply (UP u k0 _ (PGet pdu false lft) N eq_refl); [unfold meas; cbn [t_call t_ph]; lia|reflexivity].
      * apply (UP u k0 _ (Ended false) N eq_refl); [unfold meas; cbn [t_call t_ph]; lia|reflexivity].
    + unfold exec in E. destruct (nth_error (k_conns s1) c) as [x|]; [|discriminate]. apply some_inj in E. subst s. apply G; [now exists k|cbn [own1]; unfold tm; cbn [with_conn with_free k_thr]; lia].
    + unfold exec in E. destruct (nth_error (k_conns s1) c) as [x|]; [|discriminate]. apply some_inj in E. subst s. apply G; [now exists k|cbn [own1]; unfold tm; cbn [with_conn with_free k_thr]; lia].
    + unfold exec in E. apply some_inj in E. subst s. apply G; [now exists k|cbn [own1]; unfold tm; cbn [k_thr]; lia].
Qed.
