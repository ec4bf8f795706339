(** Proofs about M_scan: the program's own steps are bounded, and where they stop. *)
Require Import Verif.Base Verif.M_scan Verif.S_scan Verif.P_scan Verif.P_scan2 Verif.P_scan3 Verif.P_scan4.

Definition ph (p : phase) : nat := match p with P0 => 30 | P1 => 25 | P2 => 20 | P3 => 15 | P4 => 10 | P5 => 8 | P6 => 5 | P7 _ | PRet _ => 0 end.
Definition we (e : ev) : nat := match e with ERep _ => 5 | EReply _ => 1 end.
Definition wt (t : task) : nat := match t with TNew _ => 3 | TIn _ => 2 | TGot _ _ => 1 | TSend _ => 1 | TDone => 0 end.
Definition wq (q : list ev) : nat := list_sum (map we q).
Definition wo {A} (o : option A) (x y : nat) : nat := match o with Some _ => x | None => y end.
Definition mu (s : st) : nat := (ph (s_main s) + wo (s_cmd s) 2 0 + wo (s_ctx2 s) 0 1 + wq (s_q s) + tsum wt (tasks s))%nat.
Lemma wq_app : forall a b, wq (a ++ b) = (wq a + wq b)%nat. Proof. intros. unfold wq. rewrite map_app. apply list_sum_app. Qed.
Lemma wq_cons : forall e q, wq (e :: q) = (we e + wq q)%nat. Proof. reflexivity. Qed.
Lemma task_wt : forall k f s t s' t', task_step k f s t = Some (s', t') -> (wt t' < wt t)%nat /\ (wo (s_ctx2 s') 0 1 <= wo (s_ctx2 s) 0 1)%nat.
Proof.
  intros k f s t s' t' H. destruct t as [a|a|a l|a|]; cbn in H; try discriminate.
  - destruct (f a); injection H as <- <-; cbn; lia.
  - destruct k; injection H as <- <-; cbn; try lia. destruct (s_ctx2 s); cbn; lia.
  - injection H as <- <-; cbn; lia.
Qed.
Lemma mu_task : forall k f s t s1 t1 lo g, task_step k f s t = Some (s1, t1) -> stepped (tasks s) (tasks (set_tasks s1 lo g)) t t1 -> (mu (set_tasks s1 lo g) < mu s)%nat.
Proof.
  intros k f s t s1 t1 lo g T (_ & _ & SUM). destruct (task_frame _ _ _ _ _ _ T) as (F1 & F2 & F3 & F4 & F5 & F6 & F7 & F8 & F9 & F10 & F11). destruct (task_wt _ _ _ _ _ _ T) as [W1 W2]. pose proof (SUM wt eq_refl) as Q.
  unfold mu. cbn [set_tasks s_main s_cmd s_ctx2 s_q]. rewrite F3, F4, F8. change (mkS _ _ _ _ _ _ _ _ _ _ _ _ _) with (set_tasks s1 lo g). lia.
Qed.
Lemma mu_dec : forall k sync late f s a s', internal a = true -> exec k sync late f s a = Some s' -> (mu s' < mu s)%nat.
Proof.
  intros k sync late f s a s' IN H. destruct a as [| | |i| |i|b|addr data|r| | |]; cbn in H; try discriminate.
  - unfold main_step in H. unfold mu. destruct (s_main s) eqn:M; try discriminate.
    + injection H as <-. unfold tasks; cbn -[tsum wq app]; lia.
    + injection H as <-. unfold tasks; cbn -[tsum wq app]; lia.
    + destruct (waited k s); [|discriminate]. injection H as <-. unfold tasks; cbn -[tsum wq app]; lia.
    + destruct (waited k s) as [r|]; [|discriminate]. destruct k; [|destruct late|destruct r]; injection H as <-; unfold tasks; cbn -[tsum wq app]; lia.
  - unfold loop_step in H. destruct (s_loop s) eqn:L; [discriminate|]. destruct (s_q s) as [|[a|ok] q] eqn:Q; [discriminate| |].
    + change (s_hset (set_q s q)) with (s_hset s) in H. unfold mu. rewrite Q, wq_cons. cbn [we]. destruct (s_hset s); [destruct sync|]; injection H as <-; unfold tasks; cbn [set_tasks set_q s_main s_cmd s_ctx2 s_q s_loop s_gos]; rewrite L.
      * cbn [app]. rewrite tsum_cons. cbn [wt]. lia.
      * cbn [app]. rewrite tsum_app. unfold tsum at 2. cbn. lia.
      * lia.
    + cbn in H. unfold mu. rewrite Q, wq_cons. cbn [we]. destruct (s_main s) eqn:M; injection H as <-; cbn [set_main set_q s_main s_cmd s_ctx2 s_q]; rewrite ?M; try destruct ok; cbn [ph]; unfold tasks; cbn -[tsum wq app]; lia.
  - destruct (s_loop s) as [t|] eqn:L; [|discriminate]. destruct (task_step k f s t) as [[s1 t1]|] eqn:T; [|discriminate]. injection H as <-. destruct (task_frame _ _ _ _ _ _ T) as (_ & _ & _ & _ & _ & _ & G & _).
    apply (mu_task k f s t s1 t1); [exact T|]. rewrite G. unfold tasks at 1. rewrite L. apply stepped_loop.
  - destruct (nth_error (s_gos s) i) as [t|] eqn:N; [|discriminate]. destruct (task_step k f s t) as [[s1 t1]|] eqn:T; [|discriminate]. injection H as <-. destruct (task_frame _ _ _ _ _ _ T) as (_ & _ & _ & _ & _ & LO & G & _).
    apply (mu_task k f s t s1 t1); [exact T|]. rewrite LO, G. now apply stepped_go.
  - destruct (s_main s) eqn:M; try discriminate. destruct (s_loop s) as [[a|a|a l|a|]|] eqn:L; try discriminate. injection H as <-. unfold mu. rewrite M. unfold tasks at 2. rewrite L. cbn [app set_main set_tasks s_main s_cmd s_ctx2 s_q ph]. rewrite tsum_cons. cbn [wt].
    unfold tasks; cbn -[tsum wq app]; cbn [app]; lia.
  - destruct (s_main s) eqn:M; try discriminate. destruct (nth_error (s_gos s) i) as [[a|a|a l|a|]|] eqn:N; try discriminate. injection H as <-.
    pose proof (tsum_upd wt _ _ _ TDone N) as X. cbn [wt] in X. unfold mu. rewrite M. unfold tasks. rewrite !tsum_app. cbn [set_main set_tasks s_main s_cmd s_ctx2 s_q s_loop s_gos ph]. lia.
  - destruct (s_cmd s) as [e|] eqn:C; [|discriminate]. injection H as <-. unfold mu. cbn [set_ctl s_main s_cmd s_ctx2 s_q]. rewrite C, wq_app. change (wq [EReply b]) with 1%nat. unfold tasks; cbn -[tsum wq app]; lia.
  - destruct (s_ctx s) eqn:C; [|discriminate]. destruct (s_ctx2 s) eqn:D; [discriminate|]. injection H as <-. unfold mu, tasks; cbn -[tsum wq app]; rewrite D; cbn [wo]; lia.
  - destruct (s_ctx s) eqn:C; [|discriminate]. destruct (s_ctx2 s) eqn:D; [discriminate|]. injection H as <-. unfold mu, tasks; cbn -[tsum wq app]; rewrite D; cbn [wo]; lia.
Qed.
Lemma execs_mu : forall k sync late f s l s', execs k sync late f s l s' -> Forall (fun a => internal a = true) l -> (length l + mu s' <= mu s)%nat.
Proof. intros k sync late f s l s' H. induction H as [s|s a s1 l s2 X E IH]; intro F; [cbn; lia|]. apply Forall_cons_iff in F. destruct F as [F1 F2]. pose proof (mu_dec _ _ _ _ _ _ _ F1 X). specialize (IH F2). cbn. lia. Qed.

(** no time-out, refusal or expired deadline: no error *)
Definition calm (k : kind) (s : st) : Prop := ~ In (EReply false) (s_q s) /\ s_main s <> PRet RErr /\ (k = CConnect -> s_ctx s <> Some Deadline /\ s_ctx2 s <> Some Deadline).
Lemma calm_pres : forall k sync late f s a s', internal a = true -> calm k s -> exec k sync late f s a = Some s' -> calm k s'.
Proof.
  intros k sync late f s a s' IN (C1 & C2 & C3) H. destruct a as [| | |i| |i|b|addr data|r| | |]; cbn in H; try discriminate.
  - unfold main_step in H. destruct (s_main s) eqn:M; try discriminate.
    + injection H as <-. split; [exact C1|]. split; [discriminate|exact C3].
    + injection H as <-. split; [exact C1|]. split; [discriminate|exact C3].
    + destruct (waited k s); [|discriminate]. injection H as <-. split; [exact C1|]. split; [discriminate|exact C3].
    + destruct (waited k s) as [r|] eqn:W; [|discriminate]. destruct k; [|destruct late|destruct r]; cbn in W; try (injection H as <-; split; [exact C1|]; split; [discriminate|exact C3]). now destruct (C3 eq_refl).
  - unfold loop_step in H. destruct (s_loop s) eqn:L; [discriminate|]. unfold calm. destruct (s_q s) as [|[a|ok] q] eqn:Q; [discriminate| |].
    + change (s_hset (set_q s q)) with (s_hset s) in H. assert (X : ~ In (EReply false) q) by (intro Y; apply C1; now right). destruct (s_hset s); [destruct sync|]; injection H as <-; cbn; tauto.
    + assert (X : ~ In (EReply false) q) by (intro Y; apply C1; now right). destruct ok; [|exfalso; apply C1; now left]. cbn in H. destruct (s_main s) eqn:M; injection H as <-; cbn; rewrite ?M; (split; [exact X|]); (split; [discriminate || exact C2|exact C3]).
  - destruct (s_loop s) as [t|] eqn:L; [|discriminate]. destruct (task_step k f s t) as [[s1 t1]|] eqn:T; [|discriminate]. injection H as <-. destruct (task_frame _ _ _ _ _ _ T) as (F1 & F2 & F3 & F4 & F5 & F6 & F7 & F8 & F9 & F10 & F11). unfold calm. cbn. rewrite F1, F4, F8.
    split; [exact C1|]. split; [exact C2|]. intro K. destruct (C3 K) as [X Y]. split; [exact X|]. destruct F11 as [Z|[_ Z]]; rewrite Z; [exact Y|discriminate].
  - destruct (nth_error (s_gos s) i) as [t|] eqn:N; [|discriminate]. destruct (task_step k f s t) as [[s1 t1]|] eqn:T; [|discriminate]. injection H as <-. destruct (task_frame _ _ _ _ _ _ T) as (F1 & F2 & F3 & F4 & F5 & F6 & F7 & F8 & F9 & F10 & F11). unfold calm. cbn. rewrite F1, F4, F8.
    split; [exact C1|]. split; [exact C2|]. intro K. destruct (C3 K) as [X Y]. split; [exact X|]. destruct F11 as [Z|[_ Z]]; rewrite Z; [exact Y|discriminate].
  - destruct (s_main s) eqn:M; try discriminate. destruct (s_loop s) as [[a|a|a l|a|]|] eqn:L; try discriminate. injection H as <-. split; [exact C1|]. split; [discriminate|exact C3].
  - destruct (s_main s) eqn:M; try discriminate. destruct (nth_error (s_gos s) i) as [[a|a|a l|a|]|] eqn:N; try discriminate. injection H as <-. split; [exact C1|]. split; [discriminate|exact C3].
  - destruct b; [|discriminate]. destruct (s_cmd s) as [e|] eqn:C; [|discriminate]. injection H as <-. unfold calm. cbn. split; [|now split]. intro X. apply in_app_or in X. destruct X as [X|[X|[]]]; [contradiction|discriminate].
  - destruct (s_ctx s) as [r|] eqn:C; [|discriminate]. destruct (s_ctx2 s) eqn:D; [discriminate|]. injection H as <-. unfold calm. cbn. rewrite D, C. split; [exact C1|]. split; [exact C2|]. intro K. destruct (C3 K). now split.
  - destruct (s_ctx s) as [r|] eqn:C; [|discriminate]. destruct (s_ctx2 s) eqn:D; [discriminate|]. injection H as <-. unfold calm. cbn. rewrite D, C. split; [exact C1|]. split; [exact C2|]. intro K. destruct (C3 K). split; [assumption|discriminate].
Qed.
Lemma nd_pres : forall k sync late f s a s', s_loop s <> Some TDone -> exec k sync late f s a = Some s' -> s_loop s' <> Some TDone.
Proof.
  intros k sync late f s a s' ND H. destruct a as [| | |i| |i|b|addr data|r| | |]; cbn in H.
  - unfold main_step in H. destruct (s_main s); try discriminate; try (destruct (waited k s) as [r|]; [|discriminate]); try (injection H as <-; exact ND). destruct k; [|destruct late|destruct r]; injection H as <-; exact ND.
  - unfold loop_step in H. destruct (s_loop s) eqn:L; [discriminate|]. destruct (s_q s) as [|[a|ok] q] eqn:Q; [discriminate| |].
    + change (s_hset (set_q s q)) with (s_hset s) in H. destruct (s_hset s); [destruct sync|]; injection H as <-; cbn; rewrite ?L; discriminate.
    + cbn in H. destruct (s_main s); injection H as <-; cbn; rewrite ?L; discriminate.
  - destruct (s_loop s) as [t|] eqn:L; [|discriminate]. destruct (task_step k f s t) as [[s1 t1]|] eqn:T; [|discriminate]. injection H as <-. cbn. destruct t1; discriminate.
  - destruct (nth_error (s_gos s) i) as [t|] eqn:N; [|discriminate]. destruct (task_step k f s t) as [[s1 t1]|] eqn:T; [|discriminate]. injection H as <-. destruct (task_frame _ _ _ _ _ _ T) as (_ & _ & _ & _ & _ & LO & G & _). cbn. now rewrite LO.
  - destruct (s_main s) eqn:M; try discriminate. destruct (s_loop s) as [[a|a|a l|a|]|] eqn:L; try discriminate. injection H as <-. discriminate.
  - destruct (s_main s) eqn:M; try discriminate. destruct (nth_error (s_gos s) i) as [[a|a|a l|a|]|] eqn:N; try discriminate. injection H as <-. exact ND.
  - destruct (s_cmd s) as [e|] eqn:C; [|discriminate]. injection H as <-. exact ND.
  - destruct (s_scan s) eqn:C; [|discriminate]. injection H as <-. exact ND.
  - destruct (s_ctx s); [discriminate|]. injection H as <-. exact ND.
  - destruct (s_ctx s); [|discriminate]. destruct (s_ctx2 s); [discriminate|]. injection H as <-. exact ND.
  - destruct (s_ctx s); [|discriminate]. destruct (s_ctx2 s); [discriminate|]. injection H as <-. exact ND.
  - destruct (s_main s); try discriminate; injection H as <-; exact ND.
Qed.
Lemma reach_nd : forall k sync late f s, reach k sync late f s -> s_loop s <> Some TDone.
Proof. intros k sync late f s [l H]. assert (X : s_loop start <> Some TDone) by discriminate. revert X. induction H as [s|s a s1 l s2 Y E IH]; intro X; [exact X|]. apply IH. exact (nd_pres _ _ _ _ _ _ _ X Y). Qed.

(** stuck: the program has no step left *)
Definition stuck (k : kind) (sync late : bool) (f : adv -> bool) (s : st) : Prop := forall a, internal a = true -> exec k sync late f s a = None.
Lemma task_live : forall k f s t, task_step k f s t = None -> t = TDone \/ exists a, t = TSend a.
Proof. intros k f s [a|a|a l|a|] H; cbn in H; [destruct (f a); discriminate|destruct k; discriminate|discriminate|right; now exists a|now left]. Qed.
Lemma loop_live : forall k sync late f s, stuck k sync late f s -> s_loop s <> Some TDone -> k <> CConnect \/ sync = false -> sinv k sync s -> s_loop s = None /\ s_q s = [].
Proof.
  intros k sync late f s ST ND K J. assert (L : s_loop s = None).
  { destruct K as [K| ->]; [|exact (j_loop _ _ _ J eq_refl)]. pose proof (ST ATaskL eq_refl) as X. cbn in X. destruct (s_loop s) as [t|] eqn:E; [|reflexivity]. exfalso. destruct (task_step k f s t) as [[s1 t1]|] eqn:T; [discriminate|].
    destruct (task_live _ _ _ _ T) as [-> |[a ->]]; [contradiction|]. assert (Y : In (TSend a) (tasks s)) by (unfold tasks; rewrite E; now left). apply (j_task _ _ _ J) in Y. now destruct Y. }
  split; [exact L|]. pose proof (ST ALoop eq_refl) as X. cbn in X. unfold loop_step in X. rewrite L in X. destruct (s_q s) as [|[a|ok] q]; [reflexivity| |]; exfalso.
  - destruct (s_hset (set_q s q)); [destruct sync|]; discriminate.
  - destruct (s_main (set_q s q)); discriminate.
Qed.
Lemma gos_live : forall k sync late f s t, stuck k sync late f s -> In t (s_gos s) -> t = TDone \/ exists a, t = TSend a /\ s_main s <> P6.
Proof.
  intros k sync late f s t ST IN. apply In_nth_error in IN. destruct IN as [i N]. pose proof (ST (ATask i) eq_refl) as X. cbn in X. rewrite N in X. destruct (task_step k f s t) as [[s1 t1]|] eqn:T; [discriminate|].
  destruct (task_live _ _ _ _ T) as [-> |[a ->]]; [now left|]. right. exists a. split; [reflexivity|]. intro M. pose proof (ST (ARecv i) eq_refl) as Y. cbn in Y. rewrite M, N in Y. discriminate.
Qed.
(** where a run of the program's own steps stops *)
Lemma stuck_at : forall k sync late f s, stuck k sync late f s -> phase_inv s -> sinv k sync s -> s_loop s = None -> s_q s = [] ->
  ended s \/ (s_main s = P3 /\ waited k s = None) \/ s_main s = P6.
Proof.
  intros k sync late f s ST PI J L Q. unfold ended, phase_inv in *. pose proof (ST AMain eq_refl) as X. cbn in X. unfold main_step in X. pose proof (ST (ACtl true) eq_refl) as Y. cbn in Y. pose proof (j_ph _ _ _ J) as PH. rewrite Q in PI.
  assert (NO : forall b, onereply [] b -> False) by (intros b (q1 & q2 & E & _); destruct q1; discriminate).
  destruct (s_main s) as [| | | | | | | |[r|]]; try discriminate; try tauto.
  - exfalso. destruct PI as [_ [(C & _)|(_ & b & O & _)]]; [rewrite C in Y; discriminate|exact (NO b O)].
  - right. left. split; [reflexivity|]. destruct (waited k s); [discriminate|reflexivity].
  - exfalso. destruct PI as [_ [(C & _)|(_ & b & O & _)]]; [rewrite C in Y; discriminate|exact (NO b O)].
  - exfalso. destruct (waited k s) as [r|]; [destruct k; [|destruct late|destruct r]; discriminate|now apply PH].
Qed.

(** a matching report stays on its way until Connect has one *)
Definition alive (a : adv) (s : st) : Prop := in_flight a s \/ exists b, s_main s = P7 b.
Lemma flight_tasks : forall a s, in_flight a s <-> In (ERep a) (s_q s) \/ exists t, In t (tasks s) /\ in_task a t.
Proof.
  intros a s. unfold in_flight, tasks. split.
  - intros [H|[(t & E & T)|(t & E & T)]]; [now left|right; exists t; split; [rewrite E; now left|exact T]|right; exists t; split; [apply in_or_app; now right|exact T]].
  - intros [H|(t & E & T)]; [now left|]. apply in_app_or in E. destruct E as [E|E]; [|right; right; now exists t]. destruct (s_loop s) as [t0|]; [|destruct E]. destruct E as [<-|[]]. right. left. now exists t0.
Qed.
Lemma in_upd_other : forall {A} (l : list A) i x y t, nth_error l i = Some t -> In y l -> y = t \/ In y (upd l i x).
Proof.
  induction l as [|z l IH]; intros i x y t N H; [destruct H|]. destruct i as [|i]; cbn [nth_error upd] in *.
  - injection N as ->. destruct H as [H|H]; [left; now symmetry|right; now right].
  - destruct H as [H|H]; [right; now left|]. destruct (IH i x y t N H); [now left|right; now right].
Qed.
Lemma in_upd_new : forall {A} (l : list A) i x t, nth_error l i = Some t -> In x (upd l i x).
Proof. induction l as [|z l IH]; intros i x t N; [destruct i; discriminate|]. destruct i as [|i]; cbn in *; [now left|right; now apply (IH i x t)]. Qed.
Lemma task_keeps : forall f s a t s' t', task_step CConnect f s t = Some (s', t') -> in_task a t -> f a = true -> (forall b l, t <> TGot b l) -> in_task a t'.
Proof.
  intros f s a t s' t' H IN F NG. destruct t as [b|b|b l|b|]; cbn in H; try discriminate.
  - cbn in IN. subst b. rewrite F in H. injection H as <- <-. reflexivity.
  - injection H as <- <-. exact IN.
  - now elim (NG b l).
Qed.
Lemma alive_pres : forall sync late f s a x s', sinv CConnect sync s -> calm CConnect s -> internal x = true -> f a = true -> alive a s -> exec CConnect sync late f s x = Some s' -> alive a s'.
Proof.
  intros sync late f s a x s' J CA IN FA [FL|[b P]] H.
  2:{ right. exists b. destruct x as [| | |i| |i|c|addr data|r| | |]; cbn in H; try discriminate.
    - unfold main_step in H. rewrite P in H. discriminate.
    - unfold loop_step in H. destruct (s_loop s); [discriminate|]. destruct (s_q s) as [|[a0|ok] q]; [discriminate| |].
      + destruct (s_hset (set_q s q)); [destruct sync|]; injection H as <-; exact P.
      + change (s_main (set_q s q)) with (s_main s) in H. rewrite P in H. injection H as <-. exact P.
    - destruct (s_loop s) as [t|]; [|discriminate]. destruct (task_step CConnect f s t) as [[s1 t1]|] eqn:T; [|discriminate]. injection H as <-. destruct (task_frame _ _ _ _ _ _ T) as (_ & _ & _ & _ & _ & _ & _ & E & _). cbn. now rewrite E.
    - destruct (nth_error (s_gos s) i) as [t|]; [|discriminate]. destruct (task_step CConnect f s t) as [[s1 t1]|] eqn:T; [|discriminate]. injection H as <-. destruct (task_frame _ _ _ _ _ _ T) as (_ & _ & _ & _ & _ & _ & _ & E & _). cbn. now rewrite E.
    - rewrite P in H. discriminate.
    - rewrite P in H. discriminate.
    - destruct (s_cmd s); [|discriminate]. injection H as <-. exact P.
    - destruct (s_ctx s); [|discriminate]. destruct (s_ctx2 s); [discriminate|]. injection H as <-. exact P.
    - destruct (s_ctx s); [|discriminate]. destruct (s_ctx2 s); [discriminate|]. injection H as <-. exact P. }
  assert (NG : forall t b l, In t (tasks s) -> t <> TGot b l) by (intros t b l T ->; now discriminate (j_task _ _ _ J _ T)).
  assert (KEEP : forall s2, s_q s2 = s_q s -> tasks s2 = tasks s -> alive a s2) by (intros s2 E1 E2; left; apply flight_tasks; rewrite E1, E2; now apply flight_tasks).
  destruct x as [| | |i| |i|c|addr data|r| | |]; cbn in H; try discriminate.
  - unfold main_step in H. destruct (s_main s); try discriminate; try (destruct (waited CConnect s) as [[]|]; try discriminate); injection H as <-; now apply KEEP.
  - unfold loop_step in H. destruct (s_loop s) eqn:L; [discriminate|]. destruct (s_q s) as [|[b|ok] q] eqn:Q; [discriminate| |].
    + destruct (s_hset s) eqn:HS; [|destruct (j_h _ _ _ J HS) as (_ & X & _); rewrite Q in X; discriminate]. change (s_hset (set_q s q)) with (s_hset s) in H. rewrite HS in H.
      left. apply flight_tasks. apply flight_tasks in FL. rewrite Q in FL. unfold tasks in FL. rewrite L in FL. destruct sync; injection H as <-; unfold tasks; cbn [set_tasks set_q s_q s_loop s_gos app] in *.
      * destruct FL as [[FL|FL]|(t & T1 & T2)]; [right; exists (TNew b); split; [now left|injection FL as ->; reflexivity]|now left|right; exists t; split; [now right|exact T2]].
      * destruct FL as [[FL|FL]|(t & T1 & T2)]; [right; exists (TNew b); split; [apply in_or_app; right; now left|injection FL as ->; reflexivity]|now left|right; exists t; split; [apply in_or_app; now left|exact T2]].
    + left. apply flight_tasks. apply flight_tasks in FL. rewrite Q in FL. cbn in H. destruct (s_main s); injection H as <-; cbn; (destruct FL as [[FL|FL]|FL]; [discriminate|now left|right; exact FL]).
  - destruct (s_loop s) as [t|] eqn:L; [|discriminate]. destruct (task_step CConnect f s t) as [[s1 t1]|] eqn:T; [|discriminate]. injection H as <-. destruct (task_frame _ _ _ _ _ _ T) as (_ & _ & _ & E4 & _ & E6 & E7 & E8 & _).
    left. apply flight_tasks. apply flight_tasks in FL. cbn [set_tasks s_q]. rewrite E4. destruct FL as [FL|(u & U1 & U2)]; [now left|right]. unfold tasks in *. rewrite L in U1. cbn [set_tasks s_loop s_gos app] in *. rewrite E7. destruct U1 as [<-|U1]; [|exists u; split; [apply in_or_app; now right|exact U2]].
    pose proof (task_keeps f s a t s1 t1 T U2 FA (fun b l => NG t b l ltac:(rewrite L; now left))) as X. exists t1. split; [|exact X]. destruct t1; try (now left). destruct X.
  - destruct (nth_error (s_gos s) i) as [t|] eqn:N; [|discriminate]. destruct (task_step CConnect f s t) as [[s1 t1]|] eqn:T; [|discriminate]. injection H as <-. destruct (task_frame _ _ _ _ _ _ T) as (_ & _ & _ & E4 & _ & E6 & E7 & E8 & _).
    left. apply flight_tasks. apply flight_tasks in FL. cbn [set_tasks s_q]. rewrite E4. destruct FL as [FL|(u & U1 & U2)]; [now left|right]. unfold tasks in *. cbn [set_tasks s_loop s_gos] in *. rewrite E6, E7. apply in_app_or in U1. destruct U1 as [U1|U1]; [exists u; split; [apply in_or_app; now left|exact U2]|].
    destruct (in_upd_other _ _ t1 _ _ N U1) as [-> |U3]; [|exists u; split; [apply in_or_app; now right|exact U2]].
    pose proof (task_keeps f s a t s1 t1 T U2 FA (fun b l => NG t b l ltac:(apply in_or_app; right; apply nth_error_In in N; exact N))) as X. exists t1. split; [apply in_or_app; right; apply (in_upd_new _ _ _ _ N)|exact X].
  - destruct (s_main s) eqn:M; try discriminate. destruct (s_loop s) as [[b|b|b l|b|]|] eqn:L; try discriminate. injection H as <-. right. now exists b.
  - destruct (s_main s) eqn:M; try discriminate. destruct (nth_error (s_gos s) i) as [[b|b|b l|b|]|] eqn:N; try discriminate. injection H as <-. right. now exists b.
  - destruct (s_cmd s); [|discriminate]. injection H as <-. left. apply flight_tasks. apply flight_tasks in FL. cbn. destruct FL as [FL|FL]; [left; apply in_or_app; now left|now right].
  - destruct (s_ctx s); [|discriminate]. destruct (s_ctx2 s); [discriminate|]. injection H as <-. now apply KEEP.
  - destruct (s_ctx s); [|discriminate]. destruct (s_ctx2 s); [discriminate|]. injection H as <-. now apply KEEP.
Qed.
Lemma run_keeps : forall late f s l s' a, execs CConnect false late f s l s' -> Forall (fun x => internal x = true) l -> reach CConnect false late f s -> calm CConnect s -> f a = true -> alive a s ->
  reach CConnect false late f s' /\ calm CConnect s' /\ alive a s'.
Proof.
  intros late f s l s' a H. induction H as [s|s x s1 l s2 X E IH]; intros F R C FA AL; [split; [exact R|split; [exact C|exact AL]]|]. apply Forall_cons_iff in F. destruct F as [F1 F2].
  apply IH; auto; [exact (reach_step _ _ _ _ _ _ _ R X)|exact (calm_pres _ _ _ _ _ _ _ F1 C X)|]. exact (alive_pres _ _ _ _ _ _ _ (proj2 (proj2 (reach_inv _ _ _ _ _ R))) C F1 FA AL X).
Qed.
Lemma run_keeps_scan : forall k sync late f s l s', execs k sync late f s l s' -> Forall (fun x => internal x = true) l -> reach k sync late f s -> calm k s -> reach k sync late f s' /\ calm k s' /\ s_ctx s' = s_ctx s.
Proof.
  intros k sync late f s l s' H. induction H as [s|s x s1 l s2 X E IH]; intros F R C; [split; [exact R|split; [exact C|reflexivity]]|]. apply Forall_cons_iff in F. destruct F as [F1 F2].
  destruct (IH F2 (reach_step _ _ _ _ _ _ _ R X) (calm_pres _ _ _ _ _ _ _ F1 C X)) as (A & B & D). split; [exact A|]. split; [exact B|]. rewrite D. clear - X F1.
  destruct x as [| | |i| |i|b|addr data|r| | |]; cbn in X; try discriminate.
  - unfold main_step in X. destruct (s_main s); try discriminate; try (destruct (waited k s) as [r|]; [|discriminate]); try (injection X as <-; reflexivity). destruct k; [|destruct late|destruct r]; injection X as <-; reflexivity.
  - unfold loop_step in X. destruct (s_loop s); [discriminate|]. destruct (s_q s) as [|[a|ok] q]; [discriminate| |].
    + destruct (s_hset (set_q s q)); [destruct sync|]; injection X as <-; reflexivity.
    + destruct (s_main (set_q s q)); injection X as <-; reflexivity.
  - destruct (s_loop s) as [t|]; [|discriminate]. destruct (task_step k f s t) as [[s2 t2]|] eqn:T; [|discriminate]. injection X as <-. now destruct (task_frame _ _ _ _ _ _ T).
  - destruct (nth_error (s_gos s) i) as [t|]; [|discriminate]. destruct (task_step k f s t) as [[s2 t2]|] eqn:T; [|discriminate]. injection X as <-. now destruct (task_frame _ _ _ _ _ _ T).
  - destruct (s_main s) eqn:M; try discriminate. destruct (s_loop s) as [[a|a|a l0|a|]|] eqn:L; try discriminate. injection X as <-. reflexivity.
  - destruct (s_main s) eqn:M; try discriminate. destruct (nth_error (s_gos s) i) as [[a|a|a l0|a|]|] eqn:N; try discriminate. injection X as <-. reflexivity.
  - destruct (s_cmd s) as [e|]; [|discriminate]. injection X as <-. reflexivity.
  - destruct (s_ctx s) eqn:C; [|discriminate]. destruct (s_ctx2 s); [discriminate|]. injection X as <-. exact C.
  - destruct (s_ctx s) eqn:C; [|discriminate]. destruct (s_ctx2 s); [discriminate|]. injection X as <-. exact C.
Qed.
