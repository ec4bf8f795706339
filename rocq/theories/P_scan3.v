(** Proofs about M_scan: invariants of all executions; progress of Connect. *)
Require Import Verif.Base Verif.M_scan Verif.S_scan Verif.P_scan Verif.P_scan2.

Lemma inv_pop : forall f s q a lo g, inv f s -> s_q s = ERep a :: q -> s_loop s = None -> ((lo = Some (TNew a) /\ g = s_gos s) \/ (lo = None /\ g = s_gos s ++ [TNew a]) \/ (lo = None /\ g = s_gos s)) -> inv f (set_tasks (set_q s q) lo g).
Proof.
  intros f s q a lo g [A1 A2 A3 A4 A5 A6 A7 A8 A9 A10 A11 A12] EQ EL ALT. rewrite EQ in *.
  assert (TK : exists d, (d = TNew a \/ d = TDone) /\ (forall t, In t (tasks (set_tasks (set_q s q) lo g)) -> In t (tasks s) \/ t = d) /\ forall w, w TDone = 0%nat -> tsum w (tasks (set_tasks (set_q s q) lo g)) = (tsum w (tasks s) + w d)%nat).
  { destruct ALT as [[-> ->]|[[-> ->]|[-> ->]]]; unfold tasks; rewrite EL; cbn [set_tasks set_q s_loop s_gos app].
    - exists (TNew a). split; [now left|]. split; [intros t [<-|H]; [now right|now left]|]. intros w _. cbn [app]. rewrite tsum_cons. lia.
    - exists (TNew a). split; [now left|]. split; [intros t H; apply in_app_or in H; destruct H as [H|[<-|[]]]; [now left|now right]|]. intros w _. cbn [app]. rewrite tsum_app, tsum_cons. unfold tsum at 2. cbn. lia.
    - exists TDone. split; [now right|]. split; [intros t H; now left|]. intros w D. cbn [app]. lia. }
  destruct TK as (d & DA & SUB & SUM). set (l' := tasks (set_tasks (set_q s q) lo g)) in *.
  assert (GL : forall l c, In (TGot c l) l' -> In (TGot c l) (tasks s)) by (intros l c X; destruct (SUB _ X) as [Y|Y]; [exact Y|destruct DA; subst; discriminate]).
  constructor; fold l'; cbn [set_tasks set_q s_hist s_q s_called s_advs s_out s_main] in *; try assumption.
  - intros b H. apply A2. now right.
  - intros t H. destruct (SUB t H) as [H'| ->]; [exact (A4 t H')|]. destruct DA as [-> | ->]; [apply A2; now left|exact I].
  - intro n. rewrite (SUM (w_all n) eq_refl). pose proof (A8 n) as Q. rewrite cq_cons in Q. destruct DA as [-> | ->]; cbn [w_all]; lia.
  - intros b H. rewrite (SUM (w_new (a_id b)) eq_refl). pose proof (A9 b H) as Q. rewrite cq_cons in Q. destruct DA as [-> | ->]; cbn [w_new]; lia.
  - intros b l L B. rewrite (SUM (w_busy (a_id b)) eq_refl). assert (L' : l = s_advs s \/ exists c, In (TGot c l) (tasks s)) by (destruct L as [L|[c L]]; [now left|right; exists c; now apply GL]).
    pose proof (A11 b l L' B) as Q. rewrite cq_cons in Q. destruct DA as [-> | ->]; cbn [w_busy]; lia.
  - intros l L. apply A12. destruct L as [L|[L|[c L]]]; [now left|right; now left|right; right; exists c; now apply GL].
Qed.
Lemma inv_pres : forall k sync late f s a s', inv f s -> exec k sync late f s a = Some s' -> inv f s'.
Proof.
  intros k sync late f s a s' V H. destruct a as [| | |i| |i|b|addr data|r| | |]; cbn in H.
  - unfold main_step in H. destruct (s_main s) eqn:M; try discriminate.
    + injection H as <-. apply (inv_same f s); auto; cbn; intros; discriminate.
    + injection H as <-. apply (inv_same f s); auto; cbn; intros; discriminate.
    + destruct (waited k s); [|discriminate]. injection H as <-. apply (inv_same f s); auto; cbn; intros; discriminate.
    + destruct (waited k s) as [r|]; [|discriminate]. destruct k; [|destruct late|destruct r]; injection H as <-; (apply (inv_same f s); auto; cbn; [try tauto; intros; discriminate..|]); try tauto; intros; discriminate.
  - unfold loop_step in H. destruct (s_loop s) eqn:L; [discriminate|]. destruct (s_q s) as [|[a|ok] q] eqn:Q; [discriminate| |].
    + change (s_hset (set_q s q)) with (s_hset s) in H. assert (ST : forall x, Some x = Some s' -> inv f x -> inv f s') by (intros x E; injection E as ->; tauto).
      destruct (s_hset s); [destruct sync|].
      * apply (ST _ H). apply (inv_pop f s q a); auto.
      * apply (ST _ H). apply (inv_pop f s q a); auto.
      * apply (ST _ H). replace (set_q s q) with (set_tasks (set_q s q) None (s_gos s)) by (destruct s; cbn in *; now rewrite L). apply (inv_pop f s q a); auto.
    + assert (X : inv f (set_q s q)).
      { destruct V as [A1 A2 A3 A4 A5 A6 A7 A8 A9 A10 A11 A12]. rewrite Q in *. constructor; try assumption. intros b B. apply A2. now right. }
      cbn in H. destruct (s_main s) eqn:M; try (injection H as <-; exact X); injection H as <-; apply (inv_same f (set_q s q)); auto; cbn; intros b; destruct ok; discriminate.
  - destruct (s_loop s) as [t|] eqn:L; [|discriminate]. destruct (task_step k f s t) as [[s1 t1]|] eqn:T; [|discriminate]. injection H as <-. apply (inv_task k f s s1 t t1 ((match norm t1 with Some x => [x] | None => [] end) ++ s_gos s)); [exact V|exact T| |].
    + unfold tasks. rewrite L. apply stepped_loop.
    + destruct (task_frame _ _ _ _ _ _ T) as (_ & _ & _ & _ & _ & _ & G & _). now rewrite G.
  - destruct (nth_error (s_gos s) i) as [t|] eqn:N; [|discriminate]. destruct (task_step k f s t) as [[s1 t1]|] eqn:T; [|discriminate]. injection H as <-. destruct (task_frame _ _ _ _ _ _ T) as (_ & _ & _ & _ & _ & LO & G & _).
    apply (inv_task k f s s1 t t1 ((match s_loop s with Some x => [x] | None => [] end) ++ upd (s_gos s) i t1)); [exact V|exact T| |rewrite LO, G; reflexivity]. unfold tasks. now apply stepped_go.
  - destruct (s_main s) eqn:M; try discriminate. destruct (s_loop s) as [[a|a|a l|a|]|] eqn:L; try discriminate. injection H as <-.
    assert (ST : stepped (tasks s) (s_gos s) (TSend a) TDone) by (unfold tasks; rewrite L; exact (stepped_loop (s_gos s) (TSend a) TDone)).
    destruct V as [A1 A2 A3 A4 A5 A6 A7 A8 A9 A10 A11 A12]. destruct ST as (IN & SUB & SUM). assert (GL : forall l c, In (TGot c l) (s_gos s) -> In (TGot c l) (tasks s)) by (intros l c X; destruct (SUB _ X) as [Y|Y]; [exact Y|discriminate]).
    assert (TK : tasks (set_main (set_tasks s None (s_gos s)) (P7 a)) = s_gos s) by reflexivity.
    constructor; rewrite ?TK; cbn [set_main set_tasks s_hist s_q s_called s_advs s_out s_main] in *; try assumption.
    + intros t X. destruct (SUB t X) as [X'| ->]; [exact (A4 t X')|exact I].
    + intros b B. injection B as <-. exact (A4 (TSend a) IN).
    + intro n. pose proof (SUM (w_all n) eq_refl) as Q. cbn [w_all] in Q. pose proof (A8 n). lia.
    + intros b B. pose proof (SUM (w_new (a_id b)) eq_refl) as Q. cbn [w_new] in Q. pose proof (A9 b B). lia.
    + intros b l X B. pose proof (SUM (w_busy (a_id b)) eq_refl) as Q. cbn [w_busy] in Q. assert (X' : l = s_advs s \/ exists c, In (TGot c l) (tasks s)) by (destruct X as [X|[c X]]; [now left|right; exists c; now apply GL]). pose proof (A11 b l X' B). lia.
    + intros l X. apply A12. destruct X as [X|[X|[c X]]]; [now left|right; now left|right; right; exists c; now apply GL].
  - destruct (s_main s) eqn:M; try discriminate. destruct (nth_error (s_gos s) i) as [[a|a|a l|a|]|] eqn:N; try discriminate. injection H as <-.
    set (l' := (match s_loop s with Some x => [x] | None => [] end) ++ upd (s_gos s) i TDone). assert (ST : stepped (tasks s) l' (TSend a) TDone) by (unfold tasks; now apply stepped_go).
    destruct V as [A1 A2 A3 A4 A5 A6 A7 A8 A9 A10 A11 A12]. destruct ST as (IN & SUB & SUM). assert (GL : forall l c, In (TGot c l) l' -> In (TGot c l) (tasks s)) by (intros l c X; destruct (SUB _ X) as [Y|Y]; [exact Y|discriminate]).
    assert (TK : tasks (set_main (set_tasks s (s_loop s) (upd (s_gos s) i TDone)) (P7 a)) = l') by reflexivity.
    constructor; rewrite ?TK; cbn [set_main set_tasks s_hist s_q s_called s_advs s_out s_main] in *; try assumption.
    + intros t X. destruct (SUB t X) as [X'| ->]; [exact (A4 t X')|exact I].
    + intros b B. injection B as <-. exact (A4 (TSend a) IN).
    + intro n. pose proof (SUM (w_all n) eq_refl) as Q. cbn [w_all] in Q. pose proof (A8 n). lia.
    + intros b B. pose proof (SUM (w_new (a_id b)) eq_refl) as Q. cbn [w_new] in Q. pose proof (A9 b B). lia.
    + intros b l X B. pose proof (SUM (w_busy (a_id b)) eq_refl) as Q. cbn [w_busy] in Q. assert (X' : l = s_advs s \/ exists c, In (TGot c l) (tasks s)) by (destruct X as [X|[c X]]; [now left|right; exists c; now apply GL]). pose proof (A11 b l X' B). lia.
    + intros l X. apply A12. destruct X as [X|[X|[c X]]]; [now left|right; now left|right; right; exists c; now apply GL].
  - destruct (s_cmd s) as [e|]; [|discriminate]. injection H as <-. assert (CQ : forall n, cq n (s_q s ++ [EReply b]) = cq n (s_q s)) by (intro n; rewrite cq_app, cq_reply; unfold cq at 2; cbn; lia).
    destruct V as [A1 A2 A3 A4 A5 A6 A7 A8 A9 A10 A11 A12]. constructor; cbn [set_ctl s_hist s_q s_called s_advs s_out s_main] in *; try assumption.
    + intros a X. apply in_app_or in X. destruct X as [X|[X|[]]]; [now apply A2|discriminate].
    + intro n. rewrite CQ. apply A8.
    + intros a X. rewrite CQ. now apply A9.
    + intros a l X B. rewrite CQ. exact (A11 a l X B).
  - destruct (s_scan s); [|discriminate]. injection H as <-. set (a := mkA (length (s_hist s)) addr data). pose proof (in_seq_hist f s) as LT.
    assert (CQ : forall n, cq n (s_q s ++ [ERep a]) = (cq n (s_q s) + hit n a)%nat) by (intro n; rewrite cq_app, cq_cons; unfold cq at 2; cbn; lia).
    assert (NEW : forall b, In b (s_hist s) -> hit (a_id b) a = 0%nat) by (intros b B; specialize (LT b V B); unfold hit; cbn; destruct (Nat.eqb_spec (length (s_hist s)) (a_id b)); [lia|reflexivity]).
    destruct V as [A1 A2 A3 A4 A5 A6 A7 A8 A9 A10 A11 A12].
    constructor; cbn [emit s_hist s_q s_called s_advs s_out s_main] in *; change (tasks (emit s a)) with (tasks s); try assumption.
    + intros i b X. destruct (Nat.lt_ge_cases i (length (s_hist s))) as [LI|LI]; [rewrite nth_error_app1 in X by exact LI; now apply A1|]. rewrite nth_error_app2 in X by exact LI. destruct (i - length (s_hist s))%nat eqn:E; [injection X as <-; cbn; lia|destruct n; discriminate].
    + intros b X. apply in_app_or in X. apply in_or_app. destruct X as [X|[X|[]]]; [left; now apply A2|right; left; now injection X as <-].
    + intros b X. destruct (A3 b X). split; [apply in_or_app; now left|assumption].
    + intros t X. specialize (A4 t X). destruct t; try assumption. apply in_or_app. now left.
    + intro n. rewrite CQ. unfold hit at 1. cbn [a a_id]. destruct (Nat.eqb_spec (length (s_hist s)) n) as [E|E]; [|pose proof (A8 n); lia].
      assert (Z : cq n (s_q s) = 0%nat).
      { clear - A2 E LT A1 A3 A4 A5 A6 A7 A8 A9 A10 A11 A12. assert (LT' : forall b, In b (s_hist s) -> (a_id b < length (s_hist s))%nat) by (intros b B; apply LT; [constructor; assumption|exact B]).
        assert (X : forall q, (forall b, In (ERep b) q -> In b (s_hist s)) -> cq n q = 0%nat); [|now apply X]. induction q as [|[b|b] q IH]; intro HQ; [reflexivity| |rewrite cq_reply; apply IH; intros c C; apply HQ; now right].
        rewrite cq_cons, IH by (intros c C; apply HQ; now right). unfold hit. pose proof (LT' b (HQ b (or_introl eq_refl))). destruct (Nat.eqb_spec (a_id b) n); [lia|reflexivity]. }
      assert (Z2 : tsum (w_all n) (tasks s) = 0%nat).
      { clear - A3 A4 E LT A1 A2 A5 A6 A7 A8 A9 A10 A11 A12. assert (LT' : forall b, In b (s_hist s) -> (a_id b < length (s_hist s))%nat) by (intros b B; apply LT; [constructor; assumption|exact B]).
        assert (X : forall l, (forall t, In t l -> In t (tasks s)) -> tsum (w_all n) l = 0%nat); [|apply X; auto]. induction l as [|t l IH]; intro HL; [reflexivity|]. rewrite tsum_cons, IH by (intros c C; apply HL; now right).
        assert (HT : forall b, In b (s_hist s) -> hit n b = 0%nat) by (intros b B; unfold hit; pose proof (LT' b B); destruct (Nat.eqb_spec (a_id b) n); [lia|reflexivity]).
        pose proof (A4 t (HL t (or_introl eq_refl))) as Q. destruct t; cbn [w_all]; try reflexivity; rewrite HT; try reflexivity; try exact Q; apply A3; first [exact Q|exact (proj1 Q)]. }
      rewrite Z, Z2. lia.
    + intros b X. rewrite CQ, (NEW b (proj1 (A3 b X))). rewrite Nat.add_0_r. now apply A9.
    + intros b l X B. assert (HB : In b (s_hist s)). { destruct X as [X|[c X]]; [subst l; apply A3; now apply A5|apply A3; exact (proj2 (A4 _ X) b B)]. } rewrite CQ, (NEW b HB), Nat.add_0_r. exact (A11 b l X B).
  - destruct (s_ctx s); [discriminate|]. injection H as <-. apply (inv_same f s); auto.
  - destruct (s_ctx s); [|discriminate]. destruct (s_ctx2 s); [discriminate|]. injection H as <-. apply (inv_same f s); auto.
  - destruct (s_ctx s); [|discriminate]. destruct (s_ctx2 s); [discriminate|]. injection H as <-. apply (inv_same f s); auto.
  - destruct (s_main s); try discriminate; injection H as <-; apply (inv_same f s); auto; cbn; intros; discriminate.
Qed.
