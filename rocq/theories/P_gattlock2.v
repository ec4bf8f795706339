(** Proofs about the lock of a GATT client: order of notifications, one-by-one semantics. *)
Require Import Verif.Base Verif.M_attsrv Verif.M_attcli Verif.M_gattcli Verif.S_gattcli Verif.P_gattcli3 Verif.M_gattlock Verif.S_gattlock Verif.P_gattlock.
Require Verif.S_attloop Verif.P_attloop.

(** ---- the queue ---- *)
Definition pend (s : kst) : list bytes := match nt s with NWant b => b :: nq s | _ => nq s end.
Record qinv (t : list lev) (s : kst) : Prop := mkQ { qv_pe : exists pe, S_attloop.merge (dealt t ++ pe) (lost t) (arrived t) /\ (nt s <> NPanic -> pe = pend s) /\ (length pe <= 17)%nat;
  qv_len : (length (nq s) <= 16)%nat }.
Lemma arrived_app : forall a b, arrived (a ++ b) = arrived a ++ arrived b. Proof. intros. apply flat_map_app. Qed.
Lemma lost_app : forall a b, lost (a ++ b) = lost a ++ lost b. Proof. intros. apply flat_map_app. Qed.
Lemma dealt_app : forall a b, dealt (a ++ b) = dealt a ++ dealt b. Proof. intros. apply flat_map_app. Qed.
Lemma pend_len : forall s, (length (nq s) <= 16)%nat -> (length (pend s) <= 17)%nat. Proof. intros s L. unfold pend. destruct (nt s); cbn [length]; lia. Qed.
Lemma qinv_step : forall t s x e s', qinv t s -> kcase s x e s' -> nt s <> NPanic -> qinv (t ++ e) s'.
Proof.
  intros t s x e s' [(pe & M & P & LP) L] H NP. rewrite (P NP) in M. clear P LP pe.
  assert (KEEP : forall e', dealt e' = [] -> lost e' = [] -> arrived e' = [] -> forall s'', (nt s'' <> NPanic -> pend s'' = pend s) -> nq s'' = nq s -> qinv (t ++ e') s'').
  { intros e' E1 E2 E3 s'' PE Q. split; [|rewrite Q; exact L]. exists (pend s). rewrite dealt_app, lost_app, arrived_app, E1, E2, E3, !app_nil_r. split; [exact M|]. split; [intro X; symmetry; now apply PE|now apply pend_len]. }
  assert (GONE : forall b v g1 n1 o1, nt s = NWant b -> dealt [v] = [b] -> lost [v] = [] -> arrived [v] = [] -> (forall x, n1 <> NWant x) -> qinv (t ++ [v]) (set_nt s o1 g1 n1)).
  { intros b v g1 n1 o1 T E1 E2 E3 NW. split; [|exact L]. exists (nq s). rewrite dealt_app, lost_app, arrived_app, E1, E2, E3, !app_nil_r. unfold pend in M. rewrite T in M. split; [rewrite <- app_assoc; exact M|].
    split; [|lia]. intros _. unfold pend. cbn [nt nq set_nt]. destruct n1; try reflexivity. exfalso. now apply (NW b0). }
  destruct H as [k m K|k m K D|k m K O D1 D|k o m q g' r K O W|k o m K O W|k m b q g' r K|k m g' r K|b L1|b L1| |b q T Q|b T O H|b g' T O H|b g' h id d T O H|g' T|m g' T D|m g' T D|m g' T O];
    try (apply KEEP; reflexivity); try (apply KEEP; try reflexivity; intros _; unfold pend; cbn [nt nq set_nt]; rewrite T; reflexivity);
    try (apply (GONE b); [exact T|reflexivity|reflexivity|reflexivity|discriminate]).
  - apply KEEP; try reflexivity. intro X. now destruct X.
  - split; [|cbn [nq]; rewrite app_length; cbn [length]; lia]. exists (pend s ++ [b]). split; [|split].
    + rewrite dealt_app, lost_app, arrived_app. cbn [dealt lost arrived flat_map app]. rewrite app_nil_r, app_assoc. apply P_attloop.merge_app; [exact M|apply P_attloop.merge_lnil].
    + intros _. unfold pend. cbn [nt nq]. destruct (nt s); reflexivity.
    + rewrite app_length. unfold pend. destruct (nt s); cbn [length]; lia.
  - split; [|exact L]. exists (pend s). rewrite dealt_app, lost_app, arrived_app. cbn [dealt lost arrived flat_map app]. rewrite app_nil_r. split; [|split; [reflexivity|now apply pend_len]].
    rewrite <- (app_nil_r (dealt t ++ pend s)). apply P_attloop.merge_app; [exact M|]. apply S_attloop.mg_r. constructor.
  - split; [|cbn [nq]; rewrite Q in L; cbn [length] in L; lia]. exists (pend s). rewrite app_nil_r. split; [exact M|]. split; [|now apply pend_len]. intros _. unfold pend. cbn [nt nq]. now rewrite T, Q.
Qed.
Lemma qinv_run : forall n mtu t s, krun (kinit n mtu) t s -> qinv t s.
Proof.
  intros n mtu t s H. remember (kinit n mtu) as s0 eqn:E. induction H as [s|s t s1 x e s2 H IH D].
  - subst. split; [|cbn; lia]. exists []. split; [constructor|]. split; [reflexivity|cbn; lia].
  - destruct (kdo_case _ _ _ _ D) as [NP C]. exact (qinv_step _ _ _ _ _ (IH E) C NP).
Qed.

(** ---- one by one ---- *)
Definition now (s : kst) : gcl := match nt s with NRun g' | NCall _ g' => g' | _ => gc s end.
(** what a goroutine inside will leave *)
Definition will (s : kst) : Prop := forall k m q g' r, nth_error (apps s) k = Some (PIn m q g' r) -> exists o q0, work m o (gc s) = Some (Ret (q0, g', r)).
Record oinv (g0 : gcl) (t : list lev) (s : kst) : Prop := mkO { ov_seq : one_by_one g0 t (now s); ov_will : will s }.
Lemma done_ret : forall g x q g' r, done g x = Ret (q, g', r) -> x = Ret (g', r).
Proof. intros g [[a b]|] q g' r H; cbn in H; [injection H as _ -> ->; reflexivity|discriminate]. Qed.
Lemma ret_seq : forall g0 t g1 k m o q g' r, one_by_one g0 t g1 -> work m o g1 = Some (Ret (q, g', r)) -> one_by_one g0 (t ++ [LRet k m r]) g'.
Proof.
  intros g0 t g1 k m o q g' r S W. destruct m as [ch ind h| | | | |], o as [p ord|c pr reqs r0]; cbn [work] in W; try discriminate.
  - apply (ob_sub _ _ g1 _ _ _ _ _ p); [exact S|]. apply (done_ret g1 _ q). injection W as W. exact W.
  - destruct (forallb _ _) eqn:F; [|discriminate]. apply (ob_clear _ _ g1 _ _ p ord); [exact S| |apply (done_ret g1 _ q); injection W as W; exact W].
    rewrite forallb_forall in F. intros x I. specialize (F x I). rewrite existsb_exists in F. destruct F as (y & IY & E). apply Z.eqb_eq in E. now rewrite E.
  - injection W as <- <- <-. now apply ob_ask.
  - injection W as <- <- <-. apply ob_other; [exact S|exact Logic.I].
Qed.
Lemma oinv_step : forall g0 t s x e s', oinv g0 t s -> minv s -> kcase s x e s' -> nt s <> NPanic -> oinv g0 (t ++ e) s'.
Proof.
  intros g0 t s x e s' [S W] [A N] H NP.
  assert (OUT : forall k y, (inside y = false \/ exists m q q' g' r, y = PIn m q g' r /\ nth_error (apps s) k = Some (PIn m q' g' r)) -> forall o', will (set_app s o' k y)).
  { intros k y Y o' j m q g' r J. cbn [set_app apps gc] in J |- *. destruct (upd_nth _ _ _ _ _ J) as [[-> <-]|[_ J']]; [|exact (W _ _ _ _ _ J')].
    destruct Y as [Y|(m1 & q1 & q2 & g2 & r2 & Y & K)]; [discriminate|]. injection Y as <- <- <- <-. exact (W _ _ _ _ _ K). }
  assert (SK : forall v o' k y, match v with LNote _ _ _ _ | LIgnored _ | LRet _ (MSub _ _ _) _ | LRet _ MClear _ | LRet _ MAsk _ => False | _ => True end -> one_by_one g0 (t ++ [v]) (now (set_app s o' k y))).
  { intros v o' k y V. apply ob_other; [exact S|exact V]. }
  (* nobody is inside *)
  assert (EMPTY : owner s = None \/ owner s = Some WNote -> forall s'', apps s'' = apps s -> will s'').
  { intros O s'' E j m q g' r J. rewrite E in J. exfalso. assert (X : owner s = Some (WApp j)) by (apply (A _ _ J); reflexivity). destruct O; congruence. }
  destruct H as [k m K|k m K D|k m K O D1 D|k o m q g' r K O WO|k o m K O WO|k m b q g' r K|k m g' r K|b L1|b L1| |b q T Q|b T O H|b g' T O H|b g' h id d T O H|g' T|m g' T D|m g' T D|m g' T O].
  - split; [now apply SK|apply OUT; now left].
  - split; [apply SK; destruct m; try discriminate D; exact Logic.I|apply OUT; now left].
  - split; [apply SK; destruct m; try discriminate D; try discriminate D1; exact Logic.I|apply OUT; now left].
  - split; [rewrite app_nil_r; exact S|]. intros j m1 q1 g1 r1 J. cbn [set_app apps gc] in J |- *. destruct (upd_nth _ _ _ _ _ J) as [[-> E]|[_ J']]; [injection E as -> -> -> ->; exists o, q; exact WO|exact (W _ _ _ _ _ J')].
  - split; [|apply EMPTY; auto]. replace (now (set_nt s None (gc s) NPanic)) with (now s); [apply ob_other; [exact S|exact Logic.I]|]. unfold now. cbn [set_nt nt gc].
    assert (R : running (nt s) = false) by (apply not_true_is_false; intro R; apply N in R; congruence). destruct (nt s); try reflexivity; discriminate.
  - split; [now apply SK|]. apply OUT. right. exists m, q, (b :: q), g', r. auto.
  - assert (O : owner s = Some (WApp k)) by (apply (A _ _ K); reflexivity). assert (R : running (nt s) = false) by (apply not_true_is_false; intro R; apply N in R; congruence).
    assert (NW : now s = gc s) by (unfold now; destruct (nt s); try reflexivity; discriminate). destruct (W _ _ _ _ _ K) as (o & q0 & WO). split.
    + rewrite NW in S. replace (now _) with g' by (unfold now; cbn [nt gc]; destruct (nt s); try reflexivity; discriminate). exact (ret_seq _ _ _ k _ _ _ _ _ S WO).
    + intros j m1 q1 g1 r1 J. cbn [apps] in J. destruct (upd_nth _ _ _ _ _ J) as [[-> E]|[NE J']]; [discriminate|]. exfalso. assert (X : owner s = Some (WApp j)) by (apply (A _ _ J'); reflexivity). congruence.
  - split; [apply ob_other; [exact S|exact Logic.I]|exact W].
  - split; [|exact W]. change [LRx b; LDrop b] with ([LRx b] ++ [LDrop b]). rewrite app_assoc. apply ob_other; [apply ob_other; [exact S|exact Logic.I]|exact Logic.I].
  - split; [rewrite app_nil_r; exact S|exact W].
  - split; [|exact W]. rewrite app_nil_r. unfold now in *. cbn [nt gc]. rewrite T in S. exact S.
  - split; [|apply EMPTY; auto]. unfold now in *. cbn [nt gc set_nt]. rewrite T in S. apply ob_other; [exact S|exact Logic.I].
  - split; [|apply EMPTY; auto]. unfold now in *. cbn [nt gc set_nt]. rewrite T in S. exact (ob_ignored _ _ _ _ _ S H).
  - split; [|apply EMPTY; auto]. unfold now in *. cbn [nt gc set_nt]. rewrite T in S. exact (ob_note _ _ _ _ _ _ _ _ S H).
  - assert (O : owner s = Some WNote) by (apply N; rewrite T; reflexivity). split; [|apply EMPTY; auto]. unfold now in *. cbn [nt gc set_nt]. rewrite T in S. apply ob_other; [exact S|exact Logic.I].
  - split; [|exact W]. unfold now in *. cbn [nt gc set_nt]. rewrite T in S. apply ob_other; [exact S|exact Logic.I].
  - split; [|exact W]. change [LHCall m; LHRet m] with ([LHCall m] ++ [LHRet m]). rewrite app_assoc. apply ob_other; [apply ob_other; [exact S|exact Logic.I]|exact Logic.I].
  - exfalso. assert (X : owner s = Some WNote) by (apply N; rewrite T; reflexivity). congruence.
Qed.
Lemma oinv_run : forall n mtu t s, krun (kinit n mtu) t s -> oinv (new_gcl mtu) t s.
Proof.
  intros n mtu t s H. remember (kinit n mtu) as s0 eqn:E. induction H as [s|s t s1 x e s2 H IH D].
  - subst. split; [constructor|]. intros k m q g' r K. cbn [kinit apps] in K. apply nth_error_In, repeat_spec in K. discriminate.
  - destruct (kdo_case _ _ _ _ D) as [NP C]. apply (oinv_step _ _ s1 x); auto. apply (minv_run _ _ _ H). subst. apply minv_init.
Qed.
