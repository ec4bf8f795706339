(** Proofs about the lock of a GATT client. *)
Require Import Verif.Base Verif.M_attsrv Verif.M_attcli Verif.M_gattcli Verif.S_gattcli Verif.P_gattcli3 Verif.M_gattlock Verif.S_gattlock.

(** the steps as a relation *)
Inductive kcase (s : kst) : lab -> list lev -> kst -> Prop :=
| k_call : forall k m, nth_error (apps s) k = Some PIdle -> kcase s (BCall k m) [LCall k m] (set_app s (owner s) k (PWant m))
| k_free : forall k m, nth_error (apps s) k = Some (PWant m) -> needs m = false -> kcase s (BFree k) [LRet k m (COk tt)] (set_app s (owner s) k PIdle)
| k_peek : forall k m, nth_error (apps s) k = Some (PWant m) -> owner s = None -> locks m = false -> needs m = true -> kcase s (BPeek k) [LRet k m (COk tt)] (set_app s None k PIdle)
| k_lock : forall k o m q g' r, nth_error (apps s) k = Some (PWant m) -> owner s = None -> work m o (gc s) = Some (Ret (q, g', r)) -> kcase s (BLock k o) [] (set_app s (Some (WApp k)) k (PIn m q g' r))
| k_die : forall k o m, nth_error (apps s) k = Some (PWant m) -> owner s = None -> work m o (gc s) = Some Panic -> kcase s (BLock k o) [LDie k] (set_nt s None (gc s) NPanic)
| k_send : forall k m b q g' r, nth_error (apps s) k = Some (PIn m (b :: q) g' r) -> kcase s (BSend k) [LReq k b] (set_app s (owner s) k (PIn m q g' r))
| k_ret : forall k m g' r, nth_error (apps s) k = Some (PIn m [] g' r) -> kcase s (BRet k) [LRet k m r] (mkK None g' (upd (apps s) k PIdle) (nq s) (nt s) (alive s))
| k_rx : forall b, (length (nq s) < 16)%nat -> kcase s (BRx b) [LRx b] (mkK (owner s) (gc s) (apps s) (nq s ++ [b]) (nt s) (alive s))
| k_drop : forall b, (length (nq s) >= 16)%nat -> kcase s (BRx b) [LRx b; LDrop b] s
| k_end : kcase s BEnd [] (mkK (owner s) (gc s) (apps s) (nq s) (nt s) false)
| k_pop : forall b q, nt s = NIdle -> nq s = b :: q -> kcase s BPop [] (mkK (owner s) (gc s) (apps s) q (NWant b) (alive s))
| k_crash : forall b, nt s = NWant b -> owner s = None -> handle_notification (gc s) b = Panic -> kcase s BDispatch [LCrash b] (set_nt s None (gc s) NPanic)
| k_ignore : forall b g', nt s = NWant b -> owner s = None -> handle_notification (gc s) b = Ret (g', None) -> kcase s BDispatch [LIgnored b] (set_nt s None g' NIdle)
| k_note : forall b g' h id d, nt s = NWant b -> owner s = None -> handle_notification (gc s) b = Ret (g', Some (h, id, d)) -> kcase s BDispatch [LNote b h id d] (set_nt s (Some WNote) (gc s) (NRun g'))
| k_hend : forall g', nt s = NRun g' -> kcase s BHEnd [LNoteEnd] (set_nt s None g' NIdle)
| k_hcall : forall m g', nt s = NRun g' -> needs m = true -> kcase s (BHCall m) [LHCall m] (set_nt s (owner s) (gc s) (NCall m g'))
| k_hfree : forall m g', nt s = NRun g' -> needs m = false -> kcase s (BHCall m) [LHCall m; LHRet m] s
| k_hret : forall m g', nt s = NCall m g' -> owner s = None -> kcase s BHRet [LHRet m] (set_nt s (Some WNote) (gc s) (NRun g')).
Lemma kdo_case : forall s x e s', kdo s x = Some (e, s') -> nt s <> NPanic /\ kcase s x e s'.
Proof.
  intros s x e s' H. unfold kdo in H. destruct (nt s) as [|b|g'|m g'|] eqn:N; [..|discriminate]; (split; [discriminate|]).
  all: destruct x as [k m0|k|k|k o|k|k|b0| | | | |m0|]; try discriminate H.
  all: repeat match type of H with
    | context [match nth_error ?a ?k with _ => _ end] => destruct (nth_error a k) as [[|?|? [|? ?] ? ?]|] eqn:?; try discriminate H
    | context [match owner ?z with _ => _ end] => destruct (owner z) as [?|] eqn:?; try discriminate H
    | context [match work ?m ?o ?g with _ => _ end] => destruct (work m o g) as [[[[? ?] ?]|]|] eqn:?; try discriminate H
    | context [match nq ?z with _ => _ end] => destruct (nq z) as [|? ?] eqn:?; try discriminate H
    | context [match handle_notification ?a ?b with _ => _ end] => destruct (handle_notification a b) as [[? [[[? ?] ?]|]]|] eqn:?; try discriminate H
    | context [if needs ?m then _ else _] => destruct (needs m) eqn:?; try discriminate H
    | context [if negb (locks ?m) && ?c then _ else _] => destruct (locks m) eqn:?; cbn [negb andb] in H; try discriminate H
    | context [if alive ?z && ?c then _ else _] => destruct (alive z && c); try discriminate H
    | context [if Nat.ltb ?a ?b then _ else _] => destruct (Nat.ltb a b) eqn:?; [match goal with E : Nat.ltb _ _ = true |- _ => apply Nat.ltb_lt in E end|match goal with E : Nat.ltb _ _ = false |- _ => apply Nat.ltb_ge in E end]
    end.
  all: injection H as <- <-.

  all: try (solve [econstructor; eauto]).
  all: match goal with N : nt _ = _ |- _ => rewrite <- N end; solve [econstructor; eauto].
Qed.

Lemma kdo_step : forall s x e s', kdo s x = Some (e, s') -> kcase s x e s'. Proof. intros s x e s' H. exact (proj2 (kdo_case _ _ _ _ H)). Qed.
(** the lock is held by the one who is inside *)
Definition inside (a : aph) : bool := match a with PIn _ _ _ _ => true | _ => false end.
Definition running (n : nph) : bool := match n with NRun _ | NCall _ _ => true | _ => false end.
Record minv (s : kst) : Prop := mkM { mv_app : forall k a, nth_error (apps s) k = Some a -> (inside a = true <-> owner s = Some (WApp k));
  mv_note : running (nt s) = true <-> owner s = Some WNote }.
Lemma upd_nth : forall {A} (l : list A) k x j y, nth_error (upd l k x) j = Some y -> (j = k /\ y = x) \/ (j <> k /\ nth_error l j = Some y).
Proof.
  intros A l k x j y H. rewrite nth_error_upd in H. destruct (Nat.eqb k j) eqn:E; [apply Nat.eqb_eq in E; left|apply Nat.eqb_neq in E; right; split; [congruence|exact H]].
  destruct (Nat.ltb k (length l)); [injection H as <-; auto|discriminate].
Qed.
(** a goroutine outside changes its state without touching the lock *)
Lemma minv_out : forall s k x y, minv s -> nth_error (apps s) k = Some y -> inside y = inside x -> minv (set_app s (owner s) k x).
Proof.
  intros s k x y [A N] H E. split; cbn [set_app apps owner nt]; [|exact N]. intros j a J. destruct (upd_nth _ _ _ _ _ J) as [[-> ->]|[_ J']]; [rewrite <- E; now apply A|now apply A].
Qed.
Lemma minv_step : forall s x e s', minv s -> kcase s x e s' -> minv s'.
Proof.
  intros s x e s' M H. pose proof M as [A N].
  destruct H as [k m K|k m K D|k m K O L D|k o m q g' r K O W|k o m K O W|k m b q g' r K|k m g' r K|b L|b L| |b q T Q|b T O H|b g' T O H|b g' h id d T O H|g' T|m g' T D|m g' T D|m g' T O].
  - now apply minv_out with PIdle.
  - now apply minv_out with (PWant m).
  - rewrite <- O. now apply minv_out with (PWant m).
  - split; cbn [set_app apps owner nt].
    + intros j a J. destruct (upd_nth _ _ _ _ _ J) as [[-> ->]|[NE J']]; [cbn; tauto|]. rewrite (A _ _ J'), O. split; [discriminate|]. intro X. injection X as ->. now destruct NE.
    + rewrite N, O. split; discriminate.
  - split; cbn [set_nt apps owner nt]; [intros j a J; rewrite <- O; now apply A|cbn; split; discriminate].
  - now apply minv_out with (PIn m (b :: q) g' r).
  - assert (O : owner s = Some (WApp k)) by (apply (A _ _ K); reflexivity). split; cbn [apps owner nt].
    + intros j a J. destruct (upd_nth _ _ _ _ _ J) as [[-> ->]|[NE J']]; [cbn; split; discriminate|]. rewrite (A _ _ J'), O. split; [intro X; injection X as ->; now destruct NE|discriminate].
    + rewrite N, O. split; discriminate.
  - split; [exact A|exact N].
  - exact M.
  - split; [exact A|exact N].
  - split; [exact A|]. cbn [owner nt]. rewrite <- N, T. cbn. tauto.
  - split; cbn [set_nt apps owner nt]; [intros j a J; rewrite <- O; now apply A|cbn; split; discriminate].
  - split; cbn [set_nt apps owner nt]; [intros j a J; rewrite <- O; now apply A|cbn; split; discriminate].
  - split; cbn [set_nt apps owner nt]; [intros j a J; rewrite (A _ _ J), O; split; discriminate|cbn; tauto].
  - assert (O : owner s = Some WNote) by (apply N; rewrite T; reflexivity). split; cbn [set_nt apps owner nt]; [intros j a J; rewrite (A _ _ J), O; split; discriminate|cbn; split; discriminate].
  - split; cbn [set_nt apps owner nt]; [exact A|]. rewrite <- N, T. cbn. tauto.
  - exact M.
  - exfalso. assert (X : owner s = Some WNote) by (apply N; rewrite T; reflexivity). congruence.
Qed.
Lemma minv_init : forall n mtu, minv (kinit n mtu).
Proof.
  intros n mtu. split; cbn [kinit apps owner nt]; [|cbn; split; discriminate]. intros k a H. apply nth_error_In, repeat_spec in H. subst. cbn. split; discriminate.
Qed.
Lemma minv_run : forall s t s', krun s t s' -> minv s -> minv s'.
Proof. intros s t s' H. induction H as [s|s t s1 x e s2 H IH D]; intro M; [exact M|]. exact (minv_step _ _ _ _ (IH M) (kdo_step _ _ _ _ D)). Qed.
Lemma krun_trans : forall s2 t2 s3, krun s2 t2 s3 -> forall s1 t1, krun s1 t1 s2 -> krun s1 (t1 ++ t2) s3.
Proof. intros s2 t2 s3 H. induction H as [s|s t sa x e sb H IH D]; intros s1 t1 R; [now rewrite app_nil_r|]. rewrite app_assoc. apply (kr_snoc _ _ sa x); auto. Qed.
Lemma krun_one : forall s x e s', kdo s x = Some (e, s') -> krun s e s'. Proof. intros s x e s' H. apply (kr_snoc s [] s x); [constructor|exact H]. Qed.
(** the step an event comes from *)
Lemma split_at : forall {A} (a b c : list A) x d, a ++ b = c ++ x :: d -> (exists c', c = a ++ c' /\ b = c' ++ x :: d) \/ (exists d', a = c ++ x :: d' /\ d = d' ++ b).
Proof.
  intros A. induction a as [|y a IH]; intros b c x d E; [left; exists c; auto|]. destruct c as [|z c]; cbn [app] in E; [injection E as -> E; right; exists a; auto|].
  injection E as -> E. destruct (IH _ _ _ _ E) as [(c' & -> & ->)|(d' & -> & ->)]; [left; exists c'; auto|right; exists d'; auto].
Qed.
Lemma krun_split : forall s t s', krun s t s' -> forall t1 v t2, t = t1 ++ v :: t2 ->
  exists ta sa x e1 e2 sb tb, krun s ta sa /\ kdo sa x = Some (e1 ++ v :: e2, sb) /\ krun sb tb s' /\ t1 = ta ++ e1 /\ t2 = e2 ++ tb.
Proof.
  intros s t s' H. induction H as [s|s t s1 x e s2 H IH D]; intros t1 v t2 E; [destruct t1; discriminate|].
  destruct (split_at _ _ _ _ _ E) as [(c' & -> & ->)|(d' & E1 & ->)].
  - exists t, s1, x, c', t2, s2, []. split; [exact H|]. split; [exact D|]. split; [constructor|]. split; [reflexivity|now rewrite app_nil_r].
  - destruct (IH _ _ _ E1) as (ta & sa & y & e1 & e2 & sb & tb & R1 & D1 & R2 & -> & ->). exists ta, sa, y, e1, e2, sb, (tb ++ e). split; [exact R1|]. split; [exact D1|].
    split; [apply (kr_snoc _ _ s1 x); auto|]. split; [reflexivity|]. now rewrite app_assoc.
Qed.
Lemma in_mid : forall {A} (a : list A) x b, In x (a ++ x :: b). Proof. intros. apply in_or_app. right. now left. Qed.

(** while a handler runs nothing else uses the lock *)
Lemma note_step : forall s x e s', minv s -> owner s = Some WNote -> kcase s x e s' -> ~ In LNoteEnd e -> Forall (fun v => ~ busy v) e /\ owner s' = Some WNote.
Proof.
  intros s x e s' [A N] O H NE.
  destruct H as [k m K|k m K D|k m K O' L D|k o m q g' r K O' W|k o m K O' W|k m b q g' r K|k m g' r K|b L|b L| |b q T Q|b T O' H|b g' T O' H|b g' h id d T O' H|g' T|m g' T D|m g' T D|m g' T O']; try congruence;
    try (exfalso; assert (X : owner s = Some (WApp k)) by (apply (A _ _ K); reflexivity); congruence); try (now destruct NE; left);
    (split; [repeat (apply Forall_cons; [cbn; try tauto; try congruence; try (destruct m; cbn in *; try tauto; congruence)|]); apply Forall_nil|cbn [owner set_app set_nt]; exact O]).
Qed.
Lemma note_run : forall s t s', krun s t s' -> minv s -> owner s = Some WNote -> ~ In LNoteEnd t -> Forall (fun v => ~ busy v) t /\ owner s' = Some WNote.
Proof.
  intros s t s' H. induction H as [s|s t s1 x e s2 H IH D]; intros M O NE; [auto|]. destruct (IH M O ltac:(intro I; apply NE; apply in_or_app; auto)) as [F O1].
  destruct (note_step s1 x e s2 (minv_run _ _ _ H M) O1 (kdo_step _ _ _ _ D) ltac:(intro I; apply NE; apply in_or_app; auto)) as [F1 O2]. split; [apply Forall_app; auto|exact O2].
Qed.
(** while a method runs nothing but its own requests uses the lock *)
Lemma call_step : forall s x e s' k, minv s -> owner s = Some (WApp k) -> kcase s x e s' -> (forall m r, ~ In (LRet k m r) e) -> Forall (fun v => busy v -> of_call k v) e /\ owner s' = Some (WApp k).
Proof.
  intros s x e s' k [A N] O H NE.
  destruct H as [j m K|j m K D|j m K O' L D|j o m q g' r K O' W|j o m K O' W|j m b q g' r K|j m g' r K|b L|b L| |b q T Q|b T O' H|b g' T O' H|b g' h id d T O' H|g' T|m g' T D|m g' T D|m g' T O']; try congruence;
    try (exfalso; assert (X : owner s = Some WNote) by (apply N; rewrite T; reflexivity); congruence);
    try (assert (X : owner s = Some (WApp j)) by (apply (A _ _ K); reflexivity); rewrite O in X; injection X as ->);
    try (exfalso; apply (NE m r); now left);
    (split; [repeat (apply Forall_cons; [cbn; try tauto; try congruence; try (destruct m; cbn in *; try tauto; congruence)|]); apply Forall_nil|cbn [owner set_app set_nt]; exact O]).
Qed.
Lemma call_run : forall s t s' k, krun s t s' -> minv s -> owner s = Some (WApp k) -> (forall m r, ~ In (LRet k m r) t) -> Forall (fun v => busy v -> of_call k v) t /\ owner s' = Some (WApp k).
Proof.
  intros s t s' k H. induction H as [s|s t s1 x e s2 H IH D]; intros M O NE; [auto|]. destruct (IH M O ltac:(intros m r I; apply (NE m r); apply in_or_app; auto)) as [F O1].
  destruct (call_step s1 x e s2 k (minv_run _ _ _ H M) O1 (kdo_step _ _ _ _ D) ltac:(intros m r I; apply (NE m r); apply in_or_app; auto)) as [F1 O2]. split; [apply Forall_app; auto|exact O2].
Qed.
(** a handler that has called a method which needs the lock is never heard of again *)
Lemma dead_step : forall s x e s' m g', minv s -> nt s = NCall m g' -> kcase s x e s' -> Forall (fun v => ~ busy v /\ v <> LNoteEnd) e /\ nt s' = NCall m g'.
Proof.
  intros s x e s' m g' [A N] T H. assert (O : owner s = Some WNote) by (apply N; rewrite T; reflexivity).
  destruct H as [k m1 K|k m1 K D|k m1 K O' L D|k o m1 q g1 r K O' W|k o m1 K O' W|k m1 b q g1 r K|k m1 g1 r K|b L|b L| |b q T' Q|b T' O' H|b g1 T' O' H|b g1 h id d T' O' H|g1 T'|m1 g1 T' D|m1 g1 T' D|m1 g1 T' O']; try congruence;
    try (exfalso; assert (X : owner s = Some (WApp k)) by (apply (A _ _ K); reflexivity); congruence);
    (split; [repeat (apply Forall_cons; [cbn; split; [try tauto; try congruence; try (destruct m1; cbn in *; try tauto; congruence)|discriminate]|]); apply Forall_nil|cbn [nt set_app set_nt]; exact T]).
Qed.
Lemma dead_run : forall s t s' m g', krun s t s' -> minv s -> nt s = NCall m g' -> Forall (fun v => ~ busy v /\ v <> LNoteEnd) t /\ nt s' = NCall m g'.
Proof.
  intros s t s' m g' H. induction H as [s|s t s1 x e s2 H IH D]; intros M T; [auto|]. destruct (IH M T) as [F T1].
  destruct (dead_step s1 x e s2 m g' (minv_run _ _ _ H M) T1 (kdo_step _ _ _ _ D)) as [F1 T2]. split; [apply Forall_app; auto|exact T2].
Qed.
