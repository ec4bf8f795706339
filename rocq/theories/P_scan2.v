(** Proofs about M_scan: every report is in one place and handed over at most once. *)
Require Import Verif.Base Verif.M_scan Verif.S_scan Verif.P_scan.

Definition tasks (s : st) : list task := (match s_loop s with Some t => [t] | None => [] end) ++ s_gos s.
Definition hit (n : nat) (a : adv) : nat := if Nat.eqb (a_id a) n then 1 else 0.
Definition cq (n : nat) (q : list ev) : nat := list_sum (map (fun e => match e with ERep a => hit n a | EReply _ => 0%nat end) q).
Definition w_all (n : nat) (t : task) : nat := match t with TNew a | TIn a | TGot a _ | TSend a => hit n a | TDone => 0 end.
Definition w_new (n : nat) (t : task) : nat := match t with TNew a => hit n a | _ => 0 end.
Definition w_busy (n : nat) (t : task) : nat := match t with TNew a | TIn a | TGot a _ => hit n a | _ => 0 end.
Definition tsum (w : task -> nat) (l : list task) : nat := list_sum (map w l).
Lemma lsum_app : forall a b, list_sum (a ++ b) = (list_sum a + list_sum b)%nat. Proof. intros. apply list_sum_app. Qed.
Lemma tsum_app : forall w a b, tsum w (a ++ b) = (tsum w a + tsum w b)%nat. Proof. intros. unfold tsum. rewrite map_app. apply list_sum_app. Qed.
Lemma cq_app : forall n a b, cq n (a ++ b) = (cq n a + cq n b)%nat. Proof. intros. unfold cq. rewrite map_app. apply list_sum_app. Qed.
Lemma tsum_cons : forall w t l, tsum w (t :: l) = (w t + tsum w l)%nat. Proof. reflexivity. Qed.
Lemma cq_cons : forall n a q, cq n (ERep a :: q) = (hit n a + cq n q)%nat. Proof. reflexivity. Qed.
Lemma cq_reply : forall n b q, cq n (EReply b :: q) = cq n q. Proof. reflexivity. Qed.
Lemma hit_self : forall a, hit (a_id a) a = 1%nat. Proof. intro a. unfold hit. now rewrite Nat.eqb_refl. Qed.
Lemma tsum_upd : forall w l i t t', nth_error l i = Some t -> (tsum w (upd l i t') + w t = tsum w l + w t')%nat.
Proof.
  induction l as [|x l IH]; intros i t t' H; [destruct i; discriminate|]. destruct i as [|i]; cbn [nth_error upd] in *; rewrite !tsum_cons; [injection H as ->; lia|]. specialize (IH i t t' H). lia.
Qed.
Lemma in_upd : forall {A} (l : list A) i x y, In y (upd l i x) -> In y l \/ y = x.
Proof. induction l as [|z l IH]; intros i x y H; [now left|]. destruct i as [|i]; cbn [upd] in H; destruct H as [H|H]; [right; now symmetry|left; now right|left; now left|destruct (IH i x y H); [left; now right|now right]]. Qed.
(** a step of one task: the list of tasks before and after *)
Definition stepped (l l' : list task) (t t' : task) : Prop := (In t l /\ (forall y, In y l' -> In y l \/ y = t') /\ forall w, w TDone = 0%nat -> (tsum w l' + w t = tsum w l + w t')%nat).
Lemma stepped_loop : forall g t t', stepped (t :: g) ((match norm t' with Some x => [x] | None => [] end) ++ g) t t'.
Proof.
  intros g t t'. split; [now left|]. split.
  - intros y H. apply in_app_or in H. destruct H as [H|H]; [|left; now right]. destruct t'; cbn in H; try contradiction; destruct H as [<-|[]]; now right.
  - intros w D. rewrite tsum_app, tsum_cons. destruct t'; cbn [norm]; rewrite ?tsum_cons; unfold tsum; cbn [map list_sum fold_right]; try lia; rewrite D; lia.
Qed.
Lemma stepped_go : forall p g i t t', nth_error g i = Some t -> stepped (p ++ g) (p ++ upd g i t') t t'.
Proof.
  intros p g i t t' H. split; [apply in_or_app; right; now apply nth_error_In in H|]. split.
  - intros y Y. apply in_app_or in Y. destruct Y as [Y|Y]; [left; apply in_or_app; now left|]. destruct (in_upd _ _ _ _ Y); [left; apply in_or_app; now right|now right].
  - intros w D. rewrite !tsum_app. pose proof (tsum_upd w g i t t' H). lia.
Qed.

Record inv (f : adv -> bool) (s : st) : Prop := mkInv {
  i_hist : forall i a, nth_error (s_hist s) i = Some a -> a_id a = i;
  i_q : forall a, In (ERep a) (s_q s) -> In a (s_hist s);
  i_called : forall a, In a (s_called s) -> In a (s_hist s) /\ f a = true;
  i_task : forall t, In t (tasks s) -> match t with TNew a => In a (s_hist s) | TIn a | TSend a => In a (s_called s) | TGot a l => In a (s_called s) /\ (forall x, In x l -> In x (s_called s)) | TDone => True end;
  i_advs : forall a, In a (s_advs s) -> In a (s_called s);
  i_out : forall a, In a (s_out s) -> In a (s_called s);
  i_p7 : forall a, s_main s = P7 a -> In a (s_called s);
  i_one : forall n, (cq n (s_q s) + tsum (w_all n) (tasks s) <= 1)%nat;
  i_fresh : forall a, In a (s_called s) -> (cq (a_id a) (s_q s) + tsum (w_new (a_id a)) (tasks s) = 0)%nat;
  i_nodup : NoDup (map a_id (s_called s));
  i_free : forall a l, (l = s_advs s \/ exists b, In (TGot b l) (tasks s)) -> In a l -> (cq (a_id a) (s_q s) + tsum (w_busy (a_id a)) (tasks s) = 0)%nat;
  i_lists : forall l, (l = s_advs s \/ l = s_out s \/ exists b, In (TGot b l) (tasks s)) -> NoDup (map a_id l) }.
Lemma inv_start : forall f, inv f start.
Proof.
  intro f. constructor; cbn; try (intros; contradiction); try discriminate.
  - intros [|i] a H; discriminate.
  - intro n. unfold cq, tsum. cbn. lia.
  - apply NoDup_nil.
  - intros a l [-> |[b []]] [].
  - intros l [-> |[ -> |[b []]]]; apply NoDup_nil.
Qed.
Lemma in_seq_hist : forall f s a, inv f s -> In a (s_hist s) -> (a_id a < length (s_hist s))%nat.
Proof. intros f s a I H. apply In_nth_error in H. destruct H as [i H]. rewrite (i_hist f s I i a H). apply nth_error_Some. congruence. Qed.
Lemma same_id : forall f s a b, inv f s -> In a (s_hist s) -> In b (s_hist s) -> a_id a = a_id b -> a = b.
Proof. intros f s a b I HA HB E. apply In_nth_error in HA. apply In_nth_error in HB. destruct HA as [i HA]. destruct HB as [j HB]. pose proof (i_hist f s I i a HA). pose proof (i_hist f s I j b HB). assert (i = j) by congruence. subst j. congruence. Qed.
Lemma no_busy : forall n l, tsum (w_all n) l = 0%nat -> tsum (w_busy n) l = 0%nat /\ tsum (w_new n) l = 0%nat.
Proof. induction l as [|t l IH]; intro H; [now split|]. rewrite tsum_cons in *. destruct (IH ltac:(lia)) as [A B]. rewrite !tsum_cons, A, B. destruct t; cbn [w_all w_busy w_new] in *; lia. Qed.
Lemma busy_all : forall n l, (tsum (w_busy n) l <= tsum (w_all n) l)%nat.
Proof. induction l as [|t l IH]; [apply Nat.le_refl|]. rewrite !tsum_cons. destruct t; cbn [w_all w_busy] in *; lia. Qed.
Lemma new_busy : forall n l, (tsum (w_new n) l <= tsum (w_busy n) l)%nat.
Proof. induction l as [|t l IH]; [apply Nat.le_refl|]. rewrite !tsum_cons. destruct t; cbn [w_new w_busy] in *; lia. Qed.
Lemma in_tsum : forall w t l, In t l -> (w t <= tsum w l)%nat.
Proof. induction l as [|x l IH]; intros H; [destruct H|]. rewrite tsum_cons. destruct H as [-> |H]; [lia|]. specialize (IH H). lia. Qed.
(** same data, other control state *)
Lemma inv_same : forall f s s', inv f s -> s_hist s' = s_hist s -> s_q s' = s_q s -> tasks s' = tasks s -> s_called s' = s_called s -> s_advs s' = s_advs s -> (s_out s' = s_out s \/ s_out s' = s_advs s \/ s_out s' = []) ->
  (forall a, s_main s' = P7 a -> s_main s = P7 a) -> inv f s'.
Proof.
  intros f s s' [A1 A2 A3 A4 A5 A6 A7 A8 A9 A10 A11 A12] E1 E2 E3 E4 E5 E6 E7. constructor; rewrite ?E1, ?E2, ?E3, ?E4, ?E5; try assumption.
  - intros a H. destruct E6 as [E6|[E6|E6]]; rewrite E6 in H; [now apply A6|now apply A5|destruct H].
  - intros a H. apply A7. now apply E7.
  - intros l H. destruct H as [-> |[ -> |H]]; [apply A12; now left| |apply A12; right; now right]. destruct E6 as [E6|[E6|E6]]; rewrite E6; [apply A12; right; now left|apply A12; now left|apply NoDup_nil].
Qed.
(** the queue changes to a smaller one, the tasks gain a new one *)
Lemma inv_task : forall k f s s1 t t' l', inv f s -> task_step k f s t = Some (s1, t') -> stepped (tasks s) l' t t' -> forall lo g, (match lo with Some x => [x] | None => [] end) ++ g = l' -> inv f (set_tasks s1 lo g).
Proof.
  intros k f s s1 t t' l' [A1 A2 A3 A4 A5 A6 A7 A8 A9 A10 A11 A12] T (IN & SUB & SUM) lo g EL. destruct (task_frame _ _ _ _ _ _ T) as (_ & _ & _ & F1 & _ & _ & _ & F2 & F3 & F4 & _).
  assert (TK : tasks (set_tasks s1 lo g) = l') by (unfold tasks; cbn; exact EL). pose proof (A4 t IN) as TI.
  assert (TG : forall b l, In (TGot b l) l' -> In (TGot b l) (tasks s) \/ TGot b l = t') by (intros b l X; now apply SUB).
  destruct t as [a|a|a l0|a|]; cbn in T; try discriminate.
  - destruct (f a) eqn:FA; injection T as <- <-.
    + constructor; cbn [set_tasks s_hist s_q s_called s_advs s_out s_main call] in *; rewrite ?TK; try assumption.
      * intros b H. apply in_app_or in H. destruct H as [H|[<-|[]]]; [now apply A3|now split].
      * intros t H. destruct (SUB t H) as [H'| -> ]; [|apply in_or_app; right; now left]. pose proof (A4 t H') as Q. destruct t; try exact Q; try (apply in_or_app; now left). destruct Q as [Q1 Q2]. split; [apply in_or_app; now left|intros x X; apply in_or_app; left; now apply Q2].
      * intros b H. apply in_or_app. left. now apply A5.
      * intros b H. apply in_or_app. left. now apply A6.
      * intros b H. apply in_or_app. left. now apply A7.
      * intro n. pose proof (SUM (w_all n) eq_refl) as Q. cbn [w_all] in Q. pose proof (A8 n). lia.
      * intros b H. apply in_app_or in H. pose proof (SUM (w_new (a_id b)) eq_refl) as Q. cbn [w_new] in Q. destruct H as [H|[<-|[]]]; [pose proof (A9 b H); lia|]. rewrite hit_self in Q. pose proof (A8 (a_id a)) as O. pose proof (busy_all (a_id a) (tasks s)). pose proof (new_busy (a_id a) (tasks s)).
        pose proof (in_tsum (w_new (a_id a)) (TNew a) (tasks s) IN) as Y. cbn [w_new] in Y. rewrite hit_self in Y. lia.
      * rewrite map_app. cbn [map]. rewrite <- (rev_involutive (map a_id (s_called s) ++ [a_id a])). apply NoDup_rev. rewrite rev_app_distr. cbn [rev app]. apply NoDup_cons; [|now apply NoDup_rev].
        intro X. apply in_rev in X. apply in_map_iff in X. destruct X as (b & E & B). pose proof (A9 b B) as Y. rewrite E in Y. pose proof (in_tsum (w_new (a_id a)) (TNew a) (tasks s) IN) as Z. cbn [w_new] in Z. rewrite hit_self in Z. lia.
      * intros b l L B. assert (L' : l = s_advs s \/ exists c, In (TGot c l) (tasks s)) by (destruct L as [-> |[c L]]; [now left|right; exists c; destruct (TG c l L) as [X|X]; [exact X|discriminate]]).
        pose proof (A11 b l L' B) as Y. pose proof (SUM (w_busy (a_id b)) eq_refl) as Q. cbn [w_busy] in Q. lia.
      * intros l L. apply A12. destruct L as [-> |[ -> |[c L]]]; [now left|right; now left|right; right; exists c; destruct (TG c l L) as [X|X]; [exact X|discriminate]].
    + constructor; cbn [set_tasks s_hist s_q s_called s_advs s_out s_main call] in *; rewrite ?TK; try assumption.
      * intros t H. destruct (SUB t H) as [H'| -> ]; [exact (A4 t H')|exact I].
      * intro n. pose proof (SUM (w_all n) eq_refl) as Q. cbn [w_all] in Q. pose proof (A8 n). lia.
      * intros b H. pose proof (SUM (w_new (a_id b)) eq_refl) as Q. cbn [w_new] in Q. pose proof (A9 b H). lia.
      * intros b l L B. assert (L' : l = s_advs s \/ exists c, In (TGot c l) (tasks s)) by (destruct L as [-> |[c L]]; [now left|right; exists c; destruct (TG c l L) as [X|X]; [exact X|discriminate]]).
        pose proof (A11 b l L' B) as Y. pose proof (SUM (w_busy (a_id b)) eq_refl) as Q. cbn [w_busy] in Q. lia.
      * intros l L. apply A12. destruct L as [-> |[ -> |[c L]]]; [now left|right; now left|right; right; exists c; destruct (TG c l L) as [X|X]; [exact X|discriminate]].
  - assert (ALT : (s1 = s /\ t' = TDone) \/ (s1 = s /\ t' = TGot a (s_advs s)) \/ (s1 = set_ctx2 s Canceled /\ t' = TSend a)) by (destruct k; injection T as <- <-; tauto). clear T.
    assert (D1 : s_hist s1 = s_hist s /\ s_q s1 = s_q s /\ s_called s1 = s_called s /\ s_advs s1 = s_advs s /\ s_out s1 = s_out s /\ s_main s1 = s_main s) by (destruct ALT as [[-> _]|[[-> _]|[ -> _]]]; now repeat split).
    destruct D1 as (D1 & D2 & D3 & D4 & D5 & D6).
    assert (GL : forall l c, In (TGot c l) l' -> l = s_advs s \/ exists c, In (TGot c l) (tasks s)).
    { intros l c X. destruct (TG c l X) as [Y|Y]; [right; now exists c|left]. destruct ALT as [[_ ->]|[[_ ->]|[_ ->]]]; try discriminate. now injection Y as _ ->. }
    constructor; cbn [set_tasks s_hist s_q s_called s_advs s_out s_main]; rewrite ?TK, ?D1, ?D2, ?D3, ?D4, ?D5, ?D6; try assumption.
    + intros t H. destruct (SUB t H) as [H'| -> ]; [exact (A4 t H')|]. destruct ALT as [[_ ->]|[[_ ->]|[_ ->]]]; [exact I|split; [exact TI|exact A5]|exact TI].
    + intro n. pose proof (SUM (w_all n) eq_refl) as Q. pose proof (A8 n). destruct ALT as [[_ ->]|[[_ ->]|[_ ->]]]; cbn [w_all] in Q; lia.
    + intros b H. pose proof (SUM (w_new (a_id b)) eq_refl) as Q. pose proof (A9 b H). destruct ALT as [[_ ->]|[[_ ->]|[_ ->]]]; cbn [w_new] in Q; lia.
    + intros b l L B. assert (L' : l = s_advs s \/ exists c, In (TGot c l) (tasks s)) by (destruct L as [-> |[c L]]; [now left|exact (GL l c L)]).
      pose proof (A11 b l L' B) as Y. pose proof (SUM (w_busy (a_id b)) eq_refl) as Q. destruct ALT as [[_ ->]|[[_ ->]|[_ ->]]]; cbn [w_busy] in Q; lia.
    + intros l L. apply A12. destruct L as [-> |[ -> |[c L]]]; [now left|right; now left|]. destruct (GL l c L) as [-> |X]; [now left|right; now right].
  - injection T as <- <-. destruct TI as [T1 T2]. pose proof (in_tsum (w_busy (a_id a)) (TGot a l0) (tasks s) IN) as BZ. cbn [w_busy] in BZ. rewrite hit_self in BZ.
    assert (GL : forall l c, In (TGot c l) l' -> In (TGot c l) (tasks s)) by (intros l c X; destruct (TG c l X) as [Y|Y]; [exact Y|discriminate]).
    constructor; cbn [set_tasks set_advs s_hist s_q s_called s_advs s_out s_main] in *; rewrite ?TK; try assumption.
    + intros t H. destruct (SUB t H) as [H'| -> ]; [exact (A4 t H')|exact I].
    + intros b H. apply in_app_or in H. destruct H as [H|[<-|[]]]; [now apply T2|exact T1].
    + intro n. pose proof (SUM (w_all n) eq_refl) as Q. pose proof (A8 n). cbn [w_all] in Q. lia.
    + intros b H. pose proof (SUM (w_new (a_id b)) eq_refl) as Q. pose proof (A9 b H). cbn [w_new] in Q. lia.
    + intros b l L B. pose proof (SUM (w_busy (a_id b)) eq_refl) as Q. cbn [w_busy] in Q.
      assert (OLD : forall l2, (exists c, In (TGot c l2) (tasks s)) -> In b l2 -> (cq (a_id b) (s_q s) + tsum (w_busy (a_id b)) l' = 0)%nat) by (intros l2 L2 B2; pose proof (A11 b l2 (or_intror L2) B2); lia).
      destruct L as [-> |[c L]]; [|apply (OLD l); [exists c; now apply GL|exact B]]. apply in_app_or in B. destruct B as [B|[<-|[]]]; [apply (OLD l0); [now exists a|exact B]|].
      rewrite hit_self in Q. pose proof (A8 (a_id a)) as O. pose proof (busy_all (a_id a) (tasks s)). lia.
    + intros l L. destruct L as [-> |[ -> |[c L]]]; [|apply A12; right; now left|apply A12; right; right; exists c; now apply GL].
      rewrite map_app. cbn [map]. rewrite <- (rev_involutive (map a_id l0 ++ [a_id a])). apply NoDup_rev. rewrite rev_app_distr. cbn [rev app]. apply NoDup_cons; [|apply NoDup_rev, A12; right; right; now exists a].
      intro X. apply in_rev in X. apply in_map_iff in X. destruct X as (b & E & B). pose proof (A11 b l0 (or_intror (ex_intro _ a IN)) B) as Y. rewrite E in Y. lia.
Qed.
