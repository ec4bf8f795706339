(** Proofs about the lock of a GATT client: no deadlock, no endless work. *)
Require Import Verif.Base Verif.M_attsrv Verif.M_attcli Verif.M_gattcli Verif.S_gattcli Verif.P_gattcli3 Verif.M_gattlock Verif.S_gattlock Verif.P_gattlock.
Require Import Wf_nat.

Definition tot (f : aph -> nat) (l : list aph) : nat := list_sum (map f l).
Lemma tot_upd : forall f l k x y, nth_error l k = Some y -> (tot f (upd l k x) + f y = tot f l + f x)%nat.
Proof.
  intros f. induction l as [|z l IH]; intros [|k] x y H; cbn in H; try discriminate; unfold tot in *; cbn [upd map list_sum fold_right].
  - injection H as ->. unfold list_sum. lia.
  - specialize (IH k x y H). unfold list_sum in *. lia.
Qed.
Definition f1 (a : aph) : nat := match a with PWant _ => 1 | _ => 0 end.
Definition f2 (a : aph) : nat := match a with PIn _ q _ _ => S (length q) | _ => 0 end.
Definition fn (n : nph) : nat := match n with NWant _ | NCall _ _ => 2 | NRun _ => 1 | _ => 0 end.
Definition w1 (s : kst) : nat := tot f1 (apps s).
Definition w2 (s : kst) : nat := (tot f2 (apps s) + 3 * length (nq s) + fn (nt s))%nat.
Lemma weight : forall s x e s', kcase s x e s' -> nt s <> NPanic -> internal x -> (w1 s' < w1 s)%nat \/ (w1 s' = w1 s /\ (w2 s' < w2 s)%nat) \/ nt s' = NPanic.
Proof.
  intros s x e s' H NP I.
  destruct H as [k m K|k m K D|k m K O D1 D|k o m q g' r K O W|k o m K O W|k m b q g' r K|k m g' r K|b L1|b L1| |b q T Q|b T O H|b g' T O H|b g' h id d T O H|g' T|m g' T D|m g' T D|m g' T O]; try contradiction I; unfold w1, w2; cbn [set_app set_nt apps nq nt].
  - left. pose proof (tot_upd f1 _ k PIdle _ K). cbn [f1] in *. lia.
  - left. pose proof (tot_upd f1 _ k PIdle _ K). cbn [f1] in *. lia.
  - left. pose proof (tot_upd f1 _ k (PIn m q g' r) _ K). cbn [f1] in *. lia.
  - auto.
  - right. left. pose proof (tot_upd f1 _ k (PIn m q g' r) _ K). pose proof (tot_upd f2 _ k (PIn m q g' r) _ K). cbn [f1 f2 length] in *. lia.
  - right. left. pose proof (tot_upd f1 _ k PIdle _ K). pose proof (tot_upd f2 _ k PIdle _ K). cbn [f1 f2 length] in *. lia.
  - right. left. rewrite T, Q. cbn [fn length]. lia.
  - auto.
  - right. left. rewrite T. cbn [fn]. lia.
  - right. left. rewrite T. cbn [fn]. lia.
  - right. left. rewrite T. cbn [fn]. lia.
  - right. left. rewrite T. cbn [fn]. lia.
Qed.
Lemma panic_stuck : forall s x, nt s = NPanic -> kdo s x = None. Proof. intros s x H. unfold kdo. now rewrite H. Qed.
Lemma acc_all : forall n m s, w1 s = n -> w2 s = m -> Acc (fun a b => istep b a) s.
Proof.
  intro n. induction n as [n IH] using lt_wf_ind. intro m. induction m as [m IM] using lt_wf_ind. intros s E1 E2. constructor. intros s' (x & e & I & D).
  destruct (kdo_case _ _ _ _ D) as [NP C]. destruct (weight _ _ _ _ C NP I) as [L|[[E L]|P]].
  - apply (IH (w1 s') ltac:(lia) (w2 s')); reflexivity.
  - apply (IM (w2 s') ltac:(lia)); congruence.
  - constructor. intros s2 (y & e2 & _ & D2). rewrite (panic_stuck _ y P) in D2. discriminate.
Qed.
Lemma no_infinite : forall f : nat -> kst, ~ (forall i, istep (f i) (f (S i))).
Proof.
  intros f H. assert (A := acc_all _ _ (f 0%nat) eq_refl eq_refl). remember (f 0%nat) as s eqn:E. remember 0%nat as i eqn:EI. clear EI. revert i E. induction A as [s _ IH]. intros i ->. exact (IH (f (S i)) (H i) (S i) eq_refl).
Qed.

(** some step is possible until all is done *)
Lemma work_possible : forall m g, locks m = true -> exists o r, work m o g = Some r.
Proof.
  intros m g L. destruct m as [ch ind h| | | | |]; try discriminate L.
  - exists (OPeer (fun _ => None) []). eexists. reflexivity.
  - exists (OPeer (fun _ => None) (map fst (g_subs g))). cbn [work]. replace (forallb _ _) with true; [eexists; reflexivity|]. symmetry. apply forallb_forall. intros x I. apply existsb_exists. exists (fst x). split; [now apply in_map|apply Z.eqb_refl].
  - exists (OAsk (g_cli g) None [] (COk tt)). eexists. reflexivity.
  - exists (OAsk (g_cli g) None [] (COk tt)). eexists. reflexivity.
Qed.
Lemma owner_is : forall s k, minv s -> owner s = Some (WApp k) -> (k < length (apps s))%nat -> exists m q g r, nth_error (apps s) k = Some (PIn m q g r).
Proof.
  intros s k [A N] O L. destruct (nth_error (apps s) k) as [a|] eqn:E; [|apply nth_error_None in E; lia]. apply (A _ _ E) in O. destruct a; try discriminate O. eauto.
Qed.
(** the owner is one of the goroutines *)
Definition owner_ok (s : kst) : Prop := match owner s with Some (WApp k) => (k < length (apps s))%nat | _ => True end.
Lemma owner_ok_step : forall s x e s', owner_ok s -> kcase s x e s' -> owner_ok s'.
Proof.
  intros s x e s' W H. unfold owner_ok in *.
  destruct H as [k m K|k m K D|k m K O D1 D|k o m q g' r K O W0|k o m K O W0|k m b q g' r K|k m g' r K|b L1|b L1| |b q T Q|b T O H|b g' T O H|b g' h id d T O H|g' T|m g' T D|m g' T D|m g' T O]; cbn [set_app set_nt owner apps]; rewrite ?upd_length; try exact Logic.I; try exact W.
  apply nth_error_Some. congruence.
Qed.
Lemma owner_ok_run : forall s t s', krun s t s' -> owner_ok s -> owner_ok s'.
Proof. intros s t s' H. induction H as [s|s t s1 x e s2 H IH D]; intro W; [exact W|]. exact (owner_ok_step _ _ _ _ (IH W) (kdo_step _ _ _ _ D)). Qed.
Lemma nth_not_idle : forall l, ~ Forall (fun a => a = PIdle) l -> exists k a, nth_error l k = Some a /\ a <> PIdle.
Proof.
  induction l as [|a l IH]; intro N; [exfalso; now apply N|]. destruct a as [|m|m q g r]; [|exists 0%nat; eexists; split; [reflexivity|discriminate]..].
  destruct IH as (k & a & E & NE); [intro F; apply N; constructor; auto|]. exists (S k), a. auto.
Qed.
Lemma all_idle_dec : forall l, {Forall (fun a => a = PIdle) l} + {~ Forall (fun a => a = PIdle) l}.
Proof.
  apply Forall_dec. intros [|m|m q g r]; [left; reflexivity|right; discriminate|right; discriminate].
Qed.
Lemma can_step : forall s, minv s -> owner_ok s -> nt s <> NPanic -> (forall m g, nt s <> NCall m g) -> (exists s', istep s s') \/ at_rest s.
Proof.
  intros s MV OK NP NC.
  destruct (owner s) as [[k|]|] eqn:O.
  - left. unfold owner_ok in OK. rewrite O in OK. destruct (owner_is s k MV O OK) as (m & q & g & r & E).
    destruct (nt s) as [|b0|g0|m0 g0|] eqn:T; try contradiction; (destruct q as [|b q]; [eexists; exists (BRet k)|eexists; exists (BSend k)]; eexists; (split; [exact Logic.I|]); unfold kdo; rewrite T, E; reflexivity).
  - left. destruct MV as [A N]. apply N in O. destruct (nt s) as [|b|g|m g|] eqn:T; try discriminate O; [|exfalso; now apply (NC m g)]. eexists. exists BHEnd. eexists. split; [exact Logic.I|]. unfold kdo. rewrite T. reflexivity.
  - destruct (nt s) as [|b|g|m g|] eqn:T; try contradiction.
    + destruct (nq s) as [|b q] eqn:Q.
      * destruct (all_idle_dec (apps s)) as [F|F]; [right; unfold at_rest; auto|].
        left. destruct (nth_not_idle _ F) as (k & a & E & NE). destruct a as [|m|m q0 g0 r0]; [contradiction| |exfalso; destruct MV as [A _]; assert (X : owner s = Some (WApp k)) by (apply (A _ _ E); reflexivity); congruence].
        destruct (locks m) eqn:L.
        { destruct (work_possible m (gc s) L) as (o & [[[q1 g1] r1]|] & W); eexists; exists (BLock k o); eexists; (split; [exact Logic.I|]); unfold kdo; rewrite T, E, O, W; reflexivity. }
        destruct (needs m) eqn:ND; eexists; [exists (BPeek k)|exists (BFree k)]; eexists; (split; [exact Logic.I|]); unfold kdo; rewrite T, E, ?O, ?L, ND; reflexivity.
      * left. eexists. exists BPop. eexists. split; [exact Logic.I|]. unfold kdo. rewrite T, Q. reflexivity.
    + left. destruct (handle_notification (gc s) b) as [[g' [[[h id] d]|]]|] eqn:H; eexists; exists BDispatch; eexists; (split; [exact Logic.I|]); unfold kdo; rewrite T, O, H; reflexivity.
    + exfalso. destruct MV as [A N]. rewrite T in N. cbn in N. assert (X : owner s = Some WNote) by (apply N; reflexivity). congruence.
    + exfalso. now apply (NC m g).
Qed.
