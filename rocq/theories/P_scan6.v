(** Proofs about M_scan: every report is accounted for; the FIFO is empty when scanning has stopped; why a call fails; what stays for ever. *)
Require Import Verif.Base Verif.M_scan Verif.S_scan Verif.P_scan Verif.P_scan2 Verif.P_scan3 Verif.P_scan4 Verif.P_scan5.

Definition cov (f : adv -> bool) (s : st) : Prop := forall a, In a (s_hist s) -> In (ERep a) (s_q s) \/ In (TNew a) (tasks s) \/ In a (s_called s) \/ f a = false.
Lemma task_cov : forall k f s t s' t' a, task_step k f s t = Some (s', t') -> (In a (s_called s) -> In a (s_called s')) /\ (t = TNew a -> In a (s_called s') \/ f a = false).
Proof.
  intros k f s t s' t' a H. destruct t as [b|b|b l|b|]; cbn in H; try discriminate.
  - destruct (f b) eqn:E; injection H as <- <-; cbn.
    + split; [intro X; apply in_or_app; now left|]. intro X. injection X as ->. left. apply in_or_app. right. now left.
    + split; [tauto|]. intro X. injection X as ->. now right.
  - destruct k; injection H as <- <-; cbn; (split; [tauto|discriminate]).
  - injection H as <- <-; cbn; (split; [tauto|discriminate]).
Qed.
Lemma cov_pres : forall k sync late f s a s', sinv k sync s -> cov f s -> exec k sync late f s a = Some s' -> cov f s'.
Proof.
  intros k sync late f s x s' J C H. assert (SAME : forall s2, s_hist s2 = s_hist s -> s_q s2 = s_q s -> tasks s2 = tasks s -> s_called s2 = s_called s -> cov f s2) by (intros s2 E1 E2 E3 E4 a; rewrite E1, E2, E3, E4; apply C).
  destruct x as [| | |i| |i|b|addr data|r| | |]; cbn in H.
  - unfold main_step in H. destruct (s_main s); try discriminate; try (destruct (waited k s) as [r|]; [|discriminate]); try (injection H as <-; now apply SAME). destruct k; [|destruct late|destruct r]; injection H as <-; now apply SAME.
  - unfold loop_step in H. destruct (s_loop s) eqn:L; [discriminate|]. destruct (s_q s) as [|[b|ok] q] eqn:Q; [discriminate| |].
    + destruct (s_hset s) eqn:HS; [|destruct (j_h _ _ _ J HS) as (_ & X & _); rewrite Q in X; discriminate]. change (s_hset (set_q s q)) with (s_hset s) in H. rewrite HS in H.
      intros a A. assert (A' : In a (s_hist s)) by (destruct sync; injection H as <-; exact A). clear A. specialize (C a A'). rewrite Q in C. unfold tasks in C. rewrite L in C. destruct sync; injection H as <-; unfold tasks; cbn [set_tasks set_q s_q s_loop s_gos s_called app] in *.
      * destruct C as [[C|C]|[C|C]]; [right; left; left; congruence|now left|right; left; now right|now (right; right)].
      * destruct C as [[C|C]|[C|C]]; [right; left; apply in_or_app; right; left; congruence|now left|right; left; apply in_or_app; now left|now (right; right)].
    + intros a A. assert (A' : In a (s_hist s)) by (cbn in H; destruct (s_main s); injection H as <-; exact A). specialize (C a A'). rewrite Q in C. cbn in H. destruct (s_main s); injection H as <-; cbn; (destruct C as [[C|C]|C]; [discriminate|now left|now right]).
  - destruct (s_loop s) as [t|] eqn:L; [|discriminate]. destruct (task_step k f s t) as [[s1 t1]|] eqn:T; [|discriminate]. injection H as <-. destruct (task_frame _ _ _ _ _ _ T) as (_ & _ & _ & E4 & _ & E6 & E7 & E8 & E9 & _).
    intros a A. destruct (task_cov _ _ _ _ _ _ a T) as [T1 T2]. cbn [set_tasks s_hist s_q s_called] in *. rewrite E9 in A. rewrite E4. destruct (C a A) as [X|[X|[X|X]]]; [now left| |right; right; left; now apply T1|now (right; right; right)].
    unfold tasks in *. rewrite L in X. cbn [set_tasks s_loop s_gos app] in *. rewrite E7. destruct X as [X|X]; [right; right; now apply T2|right; left; apply in_or_app; now right].
  - destruct (nth_error (s_gos s) i) as [t|] eqn:N; [|discriminate]. destruct (task_step k f s t) as [[s1 t1]|] eqn:T; [|discriminate]. injection H as <-. destruct (task_frame _ _ _ _ _ _ T) as (_ & _ & _ & E4 & _ & E6 & E7 & E8 & E9 & _).
    intros a A. destruct (task_cov _ _ _ _ _ _ a T) as [T1 T2]. cbn [set_tasks s_hist s_q s_called] in *. rewrite E9 in A. rewrite E4. destruct (C a A) as [X|[X|[X|X]]]; [now left| |right; right; left; now apply T1|now (right; right; right)].
    unfold tasks in *. cbn [set_tasks s_loop s_gos] in *. rewrite E6, E7. apply in_app_or in X. destruct X as [X|X]; [right; left; apply in_or_app; now left|]. destruct (in_upd_other _ _ t1 _ _ N X) as [<-|Y]; [right; right; now apply T2|right; left; apply in_or_app; now right].
  - destruct (s_main s) eqn:M; try discriminate. destruct (s_loop s) as [[b|b|b l|b|]|] eqn:L; try discriminate. injection H as <-. intros a A. destruct (C a A) as [X|[X|X]]; [now left| |now (right; right)]. unfold tasks in *. rewrite L in X. cbn [set_main set_tasks s_loop s_gos app] in *. destruct X as [X|X]; [discriminate|right; now left].
  - destruct (s_main s) eqn:M; try discriminate. destruct (nth_error (s_gos s) i) as [[b|b|b l|b|]|] eqn:N; try discriminate. injection H as <-. intros a A. destruct (C a A) as [X|[X|X]]; [now left| |now (right; right)]. unfold tasks in *. cbn [set_main set_tasks s_loop s_gos] in *.
    apply in_app_or in X. destruct X as [X|X]; [right; left; apply in_or_app; now left|]. destruct (in_upd_other _ _ TDone _ _ N X) as [Y|Y]; [discriminate|right; left; apply in_or_app; now right].
  - destruct (s_cmd s) as [e|]; [|discriminate]. injection H as <-. intros a A. cbn. destruct (C a A) as [X|X]; [left; apply in_or_app; now left|now right].
  - destruct (s_scan s); [|discriminate]. injection H as <-. intros a A. cbn in *. apply in_app_or in A. destruct A as [A|[A|[]]]; [destruct (C a A) as [X|X]; [left; apply in_or_app; now left|now right]|left; apply in_or_app; right; left; congruence].
  - destruct (s_ctx s); [discriminate|]. injection H as <-. now apply SAME.
  - destruct (s_ctx s); [|discriminate]. destruct (s_ctx2 s); [discriminate|]. injection H as <-. now apply SAME.
  - destruct (s_ctx s); [|discriminate]. destruct (s_ctx2 s); [discriminate|]. injection H as <-. now apply SAME.
  - destruct (s_main s); try discriminate; injection H as <-; now apply SAME.
Qed.
Lemma reach_cov : forall k sync late f s, reach k sync late f s -> cov f s.
Proof.
  intros k sync late f s [l H]. assert (R : reach k sync late f start) by (exists []; apply ex_nil). assert (C : cov f start) by (intros a []). revert R C. induction H as [s|s x s1 l s2 X E IH]; intros R C; [exact C|].
  apply IH; [exact (reach_step _ _ _ _ _ _ _ R X)|]. exact (cov_pres _ _ _ _ _ _ _ (proj2 (proj2 (reach_inv _ _ _ _ _ R))) C X).
Qed.

(** once the controller has stopped scanning at the caller's request no report follows its reply *)
Definition qend (s : st) : Prop :=
  match s_main s with P4 => s_cmd s = None -> (exists q, s_q s = q ++ [EReply true]) \/ In (EReply false) (s_q s) | P5 | P6 | P7 _ | PRet (RCtx _) => s_q s = [] | _ => True end /\
  match s_main s with P5 | P6 => s_loop s = None | _ => True end.
Lemma qend_pres : forall k sync late f s a s', phase_inv s -> qend s -> exec k sync late f s a = Some s' -> qend s'.
Proof.
  intros k sync late f s x s' PI [Q1 Q2] H. unfold phase_inv in PI.
  destruct x as [| | |i| |i|b|addr data|r| | |]; cbn in H.
  - unfold main_step in H. destruct (s_main s) eqn:M; try discriminate.
    + injection H as <-. now split.
    + injection H as <-. now split.
    + destruct (waited k s); [|discriminate]. injection H as <-. split; [|exact Logic.I]. cbn. discriminate.
    + destruct (waited k s) as [r|]; [|discriminate]. destruct k; [|destruct late|destruct r]; injection H as <-; (split; [cbn; try exact Logic.I; exact Q1|cbn; try exact Logic.I; exact Q2]).
  - unfold loop_step in H. destruct (s_loop s) eqn:L; [discriminate|]. destruct (s_q s) as [|[b|ok] q] eqn:Q; [discriminate| |].
    + assert (X : qend (set_q s q)).
      { unfold qend. cbn. rewrite L. split; [|destruct (s_main s); (exact Logic.I || reflexivity)]. destruct (s_main s) as [| | | | | | | |[r|]]; try exact Logic.I; try discriminate. intro C. destruct (Q1 C) as [[q' E]|E].
        - left. destruct q' as [|e q']; [discriminate|]. injection E as <- ->. now exists q'.
        - right. destruct E as [E|E]; [discriminate|exact E]. }
      change (s_hset (set_q s q)) with (s_hset s) in H. destruct (s_hset s); [destruct sync|]; injection H as <-; try exact X; destruct X as [X1 X2]; (split; [exact X1|]); cbn in *; destruct (s_main s); try exact Logic.I; try reflexivity; discriminate.
    + cbn in H. destruct (s_main s) as [| | | | | | | |[r|]] eqn:M; try discriminate.
      * injection H as <-. split; cbn; rewrite M; exact Logic.I.
      * injection H as <-. split; cbn; rewrite M; exact Logic.I.
      * injection H as <-. split; cbn; destruct ok; exact Logic.I.
      * injection H as <-. split; cbn; rewrite M; exact Logic.I.
      * injection H as <-. destruct PI as [_ [(_ & N)|(C & b & O & _)]]; [exfalso; apply (N ok); now left|]. destruct (one_reply _ _ _ O) as [<- N]. unfold qend. cbn. rewrite L. destruct ok; [|now split].
        split; [|reflexivity]. destruct (Q1 C) as [[q' E]|[E|E]]; [|discriminate|now elim (N false)]. destruct q' as [|e q']; [now injection E|]. injection E as _ E. exfalso. apply (N true). rewrite E. apply in_or_app. right. now left.
      * injection H as <-. split; cbn; rewrite M; exact Logic.I.
  - destruct (s_loop s) as [t|] eqn:L; [|discriminate]. destruct (task_step k f s t) as [[s1 t1]|] eqn:T; [|discriminate]. injection H as <-. destruct (task_frame _ _ _ _ _ _ T) as (_ & _ & E3 & E4 & _ & E6 & E7 & E8 & E9 & _).
    unfold qend. cbn. rewrite E3, E4, E8. split; [exact Q1|]. destruct (s_main s); try exact Logic.I; discriminate.
  - destruct (nth_error (s_gos s) i) as [t|] eqn:N; [|discriminate]. destruct (task_step k f s t) as [[s1 t1]|] eqn:T; [|discriminate]. injection H as <-. destruct (task_frame _ _ _ _ _ _ T) as (_ & _ & E3 & E4 & _ & E6 & E7 & E8 & E9 & _).
    unfold qend. cbn. rewrite E3, E4, E6, E8. now split.
  - destruct (s_main s) eqn:M; try discriminate. rewrite Q2 in H. discriminate.
  - destruct (s_main s) eqn:M; try discriminate. destruct (nth_error (s_gos s) i) as [[b|b|b l|b|]|] eqn:N; try discriminate. injection H as <-. split; [exact Q1|exact Logic.I].
  - destruct (s_cmd s) as [e|] eqn:C; [|discriminate]. injection H as <-. unfold qend. cbn. destruct (s_main s) as [| | | | | | | |[r|]]; try now split; try (destruct PI as (_ & ? & _); discriminate).
    split; [|exact Logic.I]. intros _. destruct b; [left; now exists (s_q s)|right; apply in_or_app; right; now left].
  - destruct (s_scan s) eqn:SC; [|discriminate]. injection H as <-. unfold qend. cbn. destruct (s_main s) as [| | | | | | | |[r|]]; try now split; try (destruct PI as (_ & _ & _ & ?); discriminate).
    split; [|exact Logic.I]. intro C. right. apply in_or_app. left. destruct PI as [_ [(C' & _)|(_ & b & O & B)]]; [congruence|]. destruct b; [now discriminate (B eq_refl)|]. destruct O as (q1 & q2 & -> & _). apply in_or_app. right. now left.
  - destruct (s_ctx s); [discriminate|]. injection H as <-. now split.
  - destruct (s_ctx s); [|discriminate]. destruct (s_ctx2 s); [discriminate|]. injection H as <-. now split.
  - destruct (s_ctx s); [|discriminate]. destruct (s_ctx2 s); [discriminate|]. injection H as <-. now split.
  - destruct (s_main s); try discriminate; injection H as <-; now split.
Qed.
Lemma reach_qend : forall k sync late f s, reach k sync late f s -> qend s.
Proof.
  intros k sync late f s [l H]. assert (R : reach k sync late f start) by (exists []; apply ex_nil). assert (C : qend start) by now split. revert R C. induction H as [s|s x s1 l s2 X E IH]; intros R C; [exact C|].
  apply IH; [exact (reach_step _ _ _ _ _ _ _ R X)|]. exact (qend_pres _ _ _ _ _ _ _ (proj1 (reach_inv _ _ _ _ _ R)) C X).
Qed.

(** with a synchronous handler Connect never gets to dialling *)
Lemma sync_never : forall late f s a, reach CConnect true late f s -> s_main s <> P7 a.
Proof.
  intros late f s a R. assert (X : forall l s0, execs CConnect true late f s0 l s -> reach CConnect true late f s0 -> (forall a, s_main s0 <> P7 a) -> forall a, s_main s <> P7 a).
  { intros l s0 H. induction H as [s|s x s1 l s2 Y E IH]; intros R0 N; [exact N|]. apply IH; [exact R|exact (reach_step _ _ _ _ _ _ _ R0 Y)|]. clear IH E R. intros b M.
    pose proof (reach_qend _ _ _ _ _ R0) as [_ Q]. destruct (reach_inv _ _ _ _ _ R0) as (_ & _ & J). pose proof (j_gos _ _ _ J eq_refl) as G. destruct x as [| | |i| |i|c|addr data|r| | |]; cbn in Y.
    - unfold main_step in Y. destruct (s_main s) eqn:MM; try discriminate; try (destruct (waited CConnect s) as [[]|]; try discriminate); injection Y as <-; cbn in M; discriminate.
    - unfold loop_step in Y. destruct (s_loop s); [discriminate|]. destruct (s_q s) as [|[a0|ok] q]; [discriminate| |].
      + destruct (s_hset (set_q s q)); injection Y as <-; now apply (N b).
      + cbn in Y. destruct (s_main s) eqn:MM; injection Y as <-; cbn in M; try congruence; destruct ok; discriminate.
    - destruct (s_loop s) as [t|]; [|discriminate]. destruct (task_step CConnect f s t) as [[s3 t3]|] eqn:T; [|discriminate]. injection Y as <-. destruct (task_frame _ _ _ _ _ _ T) as (_ & _ & _ & _ & _ & _ & _ & E8 & _). cbn in M. rewrite E8 in M. now apply (N b).
    - rewrite G in Y. destruct i; discriminate.
    - destruct (s_main s) eqn:MM; try discriminate. rewrite Q in Y. discriminate.
    - rewrite G in Y. destruct (s_main s); destruct i; discriminate.
    - destruct (s_cmd s); [|discriminate]. injection Y as <-. now apply (N b).
    - destruct (s_scan s); [|discriminate]. injection Y as <-. now apply (N b).
    - destruct (s_ctx s); [discriminate|]. injection Y as <-. now apply (N b).
    - destruct (s_ctx s); [|discriminate]. destruct (s_ctx2 s); [discriminate|]. injection Y as <-. now apply (N b).
    - destruct (s_ctx s); [|discriminate]. destruct (s_ctx2 s); [discriminate|]. injection Y as <-. now apply (N b).
    - destruct (s_main s); try discriminate; injection Y as <-; cbn in M; discriminate. }
  destruct R as [l H]. apply (X l start H); [exists []; apply ex_nil|discriminate].
Qed.
(** a handler sending in the event loop blocks it for ever *)
Lemma loop_blocked : forall late f s l s' a, execs CConnect true late f s l s' -> reach CConnect true late f s -> s_loop s = Some (TSend a) -> s_loop s' = Some (TSend a) /\ forall e q, s_q s = e :: q -> exists r, s_q s' = e :: q ++ r.
Proof.
  intros late f s l s' a H. induction H as [s|s x s1 l s2 Y E IH]; intros R L; [split; [exact L|]; intros e q ->; exists []; now rewrite app_nil_r|].
  assert (X : s_loop s1 = Some (TSend a) /\ exists r, s_q s1 = s_q s ++ r).
  { assert (NX : forall z : list ev, exists r, z = z ++ r) by (intro z; exists []; now rewrite app_nil_r). pose proof (reach_qend _ _ _ _ _ R) as [_ Q]. destruct (reach_inv _ _ _ _ _ R) as (_ & _ & J). pose proof (j_gos _ _ _ J eq_refl) as G. destruct x as [| | |i| |i|c|addr data|r| | |]; cbn in Y.
    - unfold main_step in Y. destruct (s_main s) eqn:MM; try discriminate; try (destruct (waited CConnect s) as [[]|]; try discriminate); injection Y as <-; (split; [exact L|apply NX]).
    - unfold loop_step in Y. rewrite L in Y. discriminate.
    - rewrite L in Y. discriminate.
    - rewrite G in Y. destruct i; discriminate.
    - destruct (s_main s) eqn:MM; try discriminate. rewrite Q in L. discriminate.
    - rewrite G in Y. destruct (s_main s); destruct i; discriminate.
    - destruct (s_cmd s); [|discriminate]. injection Y as <-. split; [exact L|]. cbn. eexists. reflexivity.
    - destruct (s_scan s); [|discriminate]. injection Y as <-. split; [exact L|]. cbn. eexists. reflexivity.
    - destruct (s_ctx s); [discriminate|]. injection Y as <-. split; [exact L|apply NX].
    - destruct (s_ctx s); [|discriminate]. destruct (s_ctx2 s); [discriminate|]. injection Y as <-. split; [exact L|apply NX].
    - destruct (s_ctx s); [|discriminate]. destruct (s_ctx2 s); [discriminate|]. injection Y as <-. split; [exact L|apply NX].
    - destruct (s_main s); try discriminate; injection Y as <-; (split; [exact L|apply NX]). }
  destruct X as [X1 [r X2]]. destruct (IH (reach_step _ _ _ _ _ _ _ R Y) X1) as [I1 I2]. split; [exact I1|]. intros e q Z. rewrite Z in X2. cbn in X2. destruct (I2 e (q ++ r) X2) as [r2 I3]. exists (r ++ r2). now rewrite app_assoc.
Qed.
(** no report left and the scan stopped: Connect waits for ever *)
Lemma waits_forever : forall late f s l s', execs CConnect false late f s l s' -> s_main s = P6 -> s_scan s = false -> s_cmd s = None -> s_q s = [] -> s_loop s = None -> (forall t, In t (s_gos s) -> t = TDone) -> s_main s' = P6.
Proof.
  intros late f s l s' H. induction H as [s|s x s1 l s2 Y E IH]; intros M S C Q L G; [exact M|].
  destruct x as [| | |i| |i|c|addr data|r| | |]; cbn in Y.
  - unfold main_step in Y. rewrite M in Y. discriminate.
  - unfold loop_step in Y. rewrite L, Q in Y. discriminate.
  - rewrite L in Y. discriminate.
  - destruct (nth_error (s_gos s) i) as [t|] eqn:N; [|discriminate]. apply nth_error_In in N. rewrite (G t N) in Y. discriminate.
  - rewrite M, L in Y. discriminate.
  - rewrite M in Y. destruct (nth_error (s_gos s) i) as [t|] eqn:N; [|discriminate]. apply nth_error_In in N. rewrite (G t N) in Y. discriminate.
  - rewrite C in Y. discriminate.
  - rewrite S in Y. discriminate.
  - destruct (s_ctx s); [discriminate|]. injection Y as <-. now apply IH.
  - destruct (s_ctx s); [|discriminate]. destruct (s_ctx2 s); [discriminate|]. injection Y as <-. now apply IH.
  - destruct (s_ctx s); [|discriminate]. destruct (s_ctx2 s); [discriminate|]. injection Y as <-. now apply IH.
  - rewrite M in Y. discriminate.
Qed.
(** the end of the call is final; a sender whose receiver is gone stays *)
Lemma upd_nth : forall {A} (l : list A) i j x y, nth_error l j = Some y -> nth_error (upd l i x) j = Some (if Nat.eqb i j then x else y).
Proof. induction l as [|z l IH]; intros i j x y N; [destruct j; discriminate|]. destruct i as [|i], j as [|j]; cbn in *; try reflexivity; try exact N. now apply IH. Qed.
Lemma ended_final : forall k sync late f s l s', execs k sync late f s l s' -> ended s -> s_main s' = s_main s /\ s_out s' = s_out s.
Proof.
  intros k sync late f s l s' H. induction H as [s|s x s1 l s2 Y E IH]; intro D; [now split|]. assert (X : s_main s1 = s_main s /\ s_out s1 = s_out s).
  { unfold ended in D. destruct x as [| | |i| |i|c|addr data|r| | |]; cbn in Y.
    - unfold main_step in Y. destruct (s_main s) eqn:M; try discriminate; contradiction.
    - unfold loop_step in Y. destruct (s_loop s); [discriminate|]. destruct (s_q s) as [|[a0|ok] q]; [discriminate| |].
      + destruct (s_hset (set_q s q)); [destruct sync|]; injection Y as <-; now split.
      + cbn in Y. destruct (s_main s) eqn:MM; injection Y as <-; cbn; try (split; [assumption|reflexivity]); contradiction.
    - destruct (s_loop s) as [t|]; [|discriminate]. destruct (task_step k f s t) as [[s3 t3]|] eqn:T; [|discriminate]. injection Y as <-. destruct (task_frame _ _ _ _ _ _ T) as (_ & _ & _ & _ & _ & _ & _ & E8 & _ & E10 & _). now split.
    - destruct (nth_error (s_gos s) i) as [t|]; [|discriminate]. destruct (task_step k f s t) as [[s3 t3]|] eqn:T; [|discriminate]. injection Y as <-. destruct (task_frame _ _ _ _ _ _ T) as (_ & _ & _ & _ & _ & _ & _ & E8 & _ & E10 & _). now split.
    - destruct (s_main s); try discriminate; contradiction.
    - destruct (s_main s); try discriminate; contradiction.
    - destruct (s_cmd s); [|discriminate]. injection Y as <-. now split.
    - destruct (s_scan s); [|discriminate]. injection Y as <-. now split.
    - destruct (s_ctx s); [discriminate|]. injection Y as <-. now split.
    - destruct (s_ctx s); [|discriminate]. destruct (s_ctx2 s); [discriminate|]. injection Y as <-. now split.
    - destruct (s_ctx s); [|discriminate]. destruct (s_ctx2 s); [discriminate|]. injection Y as <-. now split.
    - destruct (s_main s); try discriminate; contradiction. }
  destruct X as [X1 X2]. assert (D1 : ended s1) by (unfold ended in *; now rewrite X1). destruct (IH D1) as [A B]. now rewrite A, B, X1, X2.
Qed.
Lemma sender_stays : forall k sync late f s l s' i a, execs k sync late f s l s' -> ended s -> nth_error (s_gos s) i = Some (TSend a) -> nth_error (s_gos s') i = Some (TSend a).
Proof.
  intros k sync late f s l s' i a H. induction H as [s|s x s1 l s2 Y E IH]; intros D N; [exact N|]. assert (D1 : ended s1).
  { destruct (ended_final k sync late f s [x] s1) as [X _]; [apply (ex_cons _ _ _ _ _ _ _ _ _ Y), ex_nil|exact D|]. unfold ended in *. now rewrite X. }
  apply IH; [exact D1|]. clear IH E D1. unfold ended in D. destruct x as [| | |j| |j|c|addr data|r| | |]; cbn in Y.
  - unfold main_step in Y. destruct (s_main s) eqn:M; try discriminate; contradiction.
  - unfold loop_step in Y. destruct (s_loop s); [discriminate|]. destruct (s_q s) as [|[a0|ok] q]; [discriminate| |].
    + destruct (s_hset (set_q s q)); [destruct sync|]; injection Y as <-; try exact N. cbn. rewrite nth_error_app1; [exact N|]. apply nth_error_Some. congruence.
    + cbn in Y. destruct (s_main s) eqn:MM; injection Y as <-; exact N.
  - destruct (s_loop s) as [t|]; [|discriminate]. destruct (task_step k f s t) as [[s3 t3]|] eqn:T; [|discriminate]. injection Y as <-. destruct (task_frame _ _ _ _ _ _ T) as (_ & _ & _ & _ & _ & _ & E7 & _). cbn. now rewrite E7.
  - destruct (nth_error (s_gos s) j) as [t|] eqn:NJ; [|discriminate]. destruct (task_step k f s t) as [[s3 t3]|] eqn:T; [|discriminate]. injection Y as <-. destruct (task_frame _ _ _ _ _ _ T) as (_ & _ & _ & _ & _ & _ & E7 & _). cbn. rewrite E7, (upd_nth _ _ _ _ _ N).
    destruct (Nat.eqb_spec j i) as [-> |_]; [|reflexivity]. rewrite N in NJ. injection NJ as <-. discriminate.
  - destruct (s_main s); try discriminate; contradiction.
  - destruct (s_main s); try discriminate; contradiction.
  - destruct (s_cmd s); [|discriminate]. injection Y as <-. exact N.
  - destruct (s_scan s); [|discriminate]. injection Y as <-. exact N.
  - destruct (s_ctx s); [discriminate|]. injection Y as <-. exact N.
  - destruct (s_ctx s); [|discriminate]. destruct (s_ctx2 s); [discriminate|]. injection Y as <-. exact N.
  - destruct (s_ctx s); [|discriminate]. destruct (s_ctx2 s); [discriminate|]. injection Y as <-. exact N.
  - destruct (s_main s); try discriminate; contradiction.
Qed.
(** why a call fails *)
Definition excuse (k : kind) (x : act) : Prop := match x with ATimeout | ACtl false => True | ACancel Deadline => k = CConnect | _ => False end.
Lemma calm_step : forall k sync late f s a s', ~ excuse k a -> calm k s -> exec k sync late f s a = Some s' -> calm k s'.
Proof.
  intros k sync late f s a s' NE C H. destruct (internal a) eqn:IN; [exact (calm_pres _ _ _ _ _ _ _ IN C H)|]. destruct C as (C1 & C2 & C3). destruct a as [| | |i| |i|[]|addr data|r| | |]; try discriminate; cbn in NE, H; try tauto.
  - destruct (s_scan s); [|discriminate]. injection H as <-. unfold calm. cbn. split; [|now split]. intro X. apply in_app_or in X. destruct X as [X|[X|[]]]; [contradiction|discriminate].
  - destruct (s_ctx s); [discriminate|]. injection H as <-. unfold calm. cbn. split; [exact C1|]. split; [exact C2|]. intro K. destruct (C3 K). split; [|assumption]. destruct r; [discriminate|contradiction].
Qed.
Lemma calm_run : forall k sync late f s l s', execs k sync late f s l s' -> calm k s -> (forall x, In x l -> ~ excuse k x) -> calm k s'.
Proof. intros k sync late f s l s' H. induction H as [s|s x s1 l s2 Y E IH]; intros C N; [exact C|]. apply IH; [exact (calm_step _ _ _ _ _ _ _ (N x (or_introl eq_refl)) C Y)|]. intros y I. apply N. now right. Qed.
