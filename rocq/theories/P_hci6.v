(** Proofs about the HCI host: consequences for whole executions. *)
Require Import Verif.Base Verif.M_uuid Verif.M_advrep Verif.M_hci Verif.S_hci Verif.P_hci Verif.P_hci2 Verif.P_hci3 Verif.P_hci4 Verif.P_hci5.

Lemma exec_all_snoc_ind : forall smp (P : list act -> host -> Prop), P [] host0 ->
  (forall l s a s', runs smp l s -> P l s -> exec smp s a = Ret (Some s') -> P (l ++ [a]) s') ->
  forall l s, runs smp l s -> P l s.
Proof.
  intros smp P H0 HS l. induction l as [|a l IH] using rev_ind; intros s R.
  - cbn in R. injection R as <-. exact H0.
  - unfold runs in R. rewrite exec_all_app in R. destruct (exec_all smp host0 l) as [[s1|]|] eqn:E; try discriminate R.
    cbn [exec_all] in R. destruct (exec smp s1 a) as [[s2|]|] eqn:X; try discriminate R. cbn in R. injection R as <-.
    eapply HS; eauto.
Qed.

(** ---- gone and disconnected are for ever ---- *)
Lemma step_flags : forall smp s a s' c k, inv s -> exec smp s a = Ret (Some s') -> nth_error (objs s) c = Some k ->
  exists k', nth_error (objs s') c = Some k' /\ idof k' = idof k /\
   (flags k' = flags k \/ (exists h, removes s a = Some h /\ tab s h = Some c /\ k_handle k = h /\ flags k = (false, false) /\ flags k' = (true, isopen s || negb (k_role k =? 1))%bool)).
Proof.
  intros smp s a s' c k I E K. destruct (step_life _ _ _ _ I E) as (_ & _ & _ & H). destruct (H c k K) as (k' & K' & F1 & F2).
  exists k'. split; [exact K'|]. split; [exact F1|]. destruct (removes s a) as [h|]; [|now left]. destruct (tab s h) as [c'|] eqn:T; [|now left].
  destruct (Nat.eqb_spec c' c) as [->|N]; [|now left]. right. exists h. split; [reflexivity|]. split; [exact T|].
  destruct (i_tab _ I _ _ T) as (k2 & K2 & G1 & G2 & G3). rewrite K in K2. injection K2 as <-. split; [exact G1|]. split; [unfold flags; congruence|exact F2].
Qed.
Lemma trace_flags : forall smp l s s' c k, inv s -> exec_all smp s l = Ret (Some s') -> nth_error (objs s) c = Some k ->
  exists k', nth_error (objs s') c = Some k' /\ idof k' = idof k /\ (flags k' = flags k \/ flags k = (false, false)).
Proof.
  intros smp l. induction l as [|a l IH]; intros s s' c k I E K; cbn [exec_all] in E.
  - injection E as <-. exists k. auto.
  - destruct (exec smp s a) as [[s1|]|] eqn:X; try discriminate E. cbn [gbind] in E.
    destruct (step_flags _ _ _ _ _ _ I X K) as (k1 & K1 & F1 & F2). destruct (IH _ _ _ _ (exec_inv _ _ _ _ I X) E K1) as (k2 & K2 & G1 & G2).
    exists k2. split; [exact K2|]. split; [congruence|]. destruct F2 as [F2|(h & _ & _ & _ & F2 & _)]; [|now right]. rewrite F2 in G2. exact G2.
Qed.
Definition flaginv (s : host) : Prop := forall c k, nth_error (objs s) c = Some k ->
  (k_done k = true -> k_inclosed k = true) /\ (k_inclosed k = true -> k_done k = true \/ (k_role k = 1 /\ isopen s = false)).
Lemma step_flaginv : forall smp s a s', inv s -> flaginv s -> exec smp s a = Ret (Some s') -> flaginv s'.
Proof.
  intros smp s a s' I F E. destruct (step_life _ _ _ _ I E) as (O & _ & N & _). intros c k' K'.
  destruct (nth_error (objs s) c) as [k|] eqn:K.
  - destruct (step_flags _ _ _ _ _ _ I E K) as (k2 & K2 & F1 & F2). rewrite K' in K2. injection K2 as <-.
    assert (R : k_role k' = k_role k) by (unfold idof in F1; congruence).
    destruct (F _ _ K) as [G1 G2]. destruct F2 as [F2|(h & _ & _ & _ & F2 & F3)].
    + assert (X1 : k_inclosed k' = k_inclosed k) by (unfold flags in F2; congruence). assert (X2 : k_done k' = k_done k) by (unfold flags in F2; congruence).
      rewrite X1, X2, R. split; [exact G1|]. intros X. destruct (G2 X) as [Y|[Y1 Y2]]; [now left|right]. rewrite O, Y2. auto.
    + unfold flags in F3. injection F3 as F3 F4. rewrite F3. split; [auto|]. intros _. rewrite F4, R. destruct (isopen s) eqn:OS; [now left|].
      destruct (Z.eqb_spec (k_role k) 1); [right|now left]. rewrite O. auto.
  - assert (L : length (objs s') = (length (objs s) + length (new_conns a))%nat).
    { destruct (step_data _ _ _ _ c I E) as (_ & _ & M). apply (f_equal (@length _)) in M. rewrite app_length, !map_length in M. exact M. }
    assert (Q : (c < length (objs s'))%nat) by (apply nth_error_Some; congruence). apply nth_error_None in K.
    destruct (new_conns a) as [|[[h r] ad] m] eqn:NC; cbn in L; [lia|].
    assert (m = []) as ->. { unfold new_conns in NC. destruct a; try discriminate NC. destruct (dec_pkt b) as [[]|]; try discriminate NC. now injection NC. }
    cbn in L. assert (c = length (objs s)) as -> by lia. rewrite (N _ _ _ eq_refl) in K'. injection K' as <-. cbn. split; discriminate.
Qed.
Lemma new_index : forall smp s a s' c k', inv s -> exec smp s a = Ret (Some s') -> nth_error (objs s') c = Some k' -> nth_error (objs s) c = None ->
  c = length (objs s) /\ exists h r ad, new_conns a = [(h, r, ad)] /\ k' = mkConn h r ad [] false false RxRun.
Proof.
  intros smp s a s' c k' I E K' K. destruct (step_life _ _ _ _ I E) as (_ & _ & N & _).
  assert (L : length (objs s') = (length (objs s) + length (new_conns a))%nat).
  { destruct (step_data _ _ _ _ c I E) as (_ & _ & M). apply (f_equal (@length _)) in M. rewrite app_length, !map_length in M. exact M. }
  assert (Q : (c < length (objs s'))%nat) by (apply nth_error_Some; congruence). apply nth_error_None in K.
  destruct (new_conns a) as [|[[h r] ad] m] eqn:NC; cbn in L; [lia|].
  assert (m = []) as ->. { unfold new_conns in NC. destruct a; try discriminate NC. destruct (dec_pkt b) as [[]|]; try discriminate NC. now injection NC. }
  cbn in L. assert (c = length (objs s)) as -> by lia. split; [reflexivity|]. exists h, r, ad. split; [reflexivity|]. rewrite (N _ _ _ eq_refl) in K'. now injection K'.
Qed.
Lemma runs_flaginv : forall smp l s, runs smp l s -> flaginv s.
Proof.
  intros smp l s R. revert R. revert l s. apply (exec_all_snoc_ind smp (fun _ s => flaginv s)).
  - intros c k K. now destruct c.
  - intros l s a s' R F E. eapply step_flaginv; eauto. eapply runs_inv; eauto.
Qed.

(** ---- fresh handles: every connection is registered until it is removed ---- *)
Definition reg (s : host) : Prop := forall c k, nth_error (objs s) c = Some k -> k_inclosed k = false -> tab s (k_handle k) = Some c.
Lemma step_reg : forall smp s a s', inv s -> reg s -> (forall h r ad, new_conns a = [(h, r, ad)] -> tab s h = None) ->
  exec smp s a = Ret (Some s') -> reg s'.
Proof.
  intros smp s a s' I G FR E c k' K' IC. destruct (step_life _ _ _ _ I E) as (_ & T & _ & _). rewrite T.
  destruct (nth_error (objs s) c) as [k|] eqn:K.
  - destruct (step_flags _ _ _ _ _ _ I E K) as (k2 & K2 & F1 & F2). rewrite K' in K2. injection K2 as <-.
    assert (R : k_handle k' = k_handle k) by (unfold idof in F1; congruence). rewrite R.
    destruct F2 as [F2|(h & _ & _ & _ & _ & F3)]; [|unfold flags in F3; congruence].
    assert (X : tab s (k_handle k) = Some c) by (apply (G c k K); unfold flags in F2; congruence).
    destruct (new_conns a) as [|[[h r] ad] m] eqn:NC.
    + destruct (removes s a) as [h|] eqn:RM; cbn [oeqz]; [|exact X]. destruct (Z.eqb_spec h (k_handle k)) as [->|N]; [|exact X].
      exfalso. destruct (step_life _ _ _ _ I E) as (_ & _ & _ & H). destruct (H _ _ K) as (k3 & K3 & _ & F3). rewrite RM, X, Nat.eqb_refl in F3.
      rewrite K' in K3. injection K3 as <-. unfold flags in F3. congruence.
    + assert (m = []) as ->. { unfold new_conns in NC. destruct a; try discriminate NC. destruct (dec_pkt b) as [[]|]; try discriminate NC. now injection NC. }
      destruct (Z.eqb_spec (k_handle k) h) as [Q|N]; [|exact X]. rewrite Q, (FR _ _ _ eq_refl) in X. discriminate.
  - destruct (new_index _ _ _ _ _ _ I E K' K) as (-> & h & r & ad & NC & ->). rewrite NC. cbn. now rewrite Z.eqb_refl.
Qed.
Lemma trace_reg : forall smp l s s', inv s -> reg s -> fresh_handles smp s l -> exec_all smp s l = Ret (Some s') -> reg s'.
Proof.
  intros smp l. induction l as [|a l IH]; intros s s' I G F E; cbn [exec_all] in E; [injection E as <-; exact G|].
  destruct (exec smp s a) as [[s1|]|] eqn:X; try discriminate E. cbn [gbind] in E. cbn [fresh_handles] in F. rewrite X in F. destruct F as [F1 F2].
  apply (IH s1 s' (exec_inv _ _ _ _ I X)); [eapply step_reg; eauto|exact F2|exact E].
Qed.
Lemma reg0 : reg host0.
Proof. intros c k K. now destruct c. Qed.

Theorem live_gone : forall smp l s c, runs smp l s -> fresh_handles smp host0 l -> (c < length (objs s))%nat -> (live s c <-> ~ gone s c).
Proof.
  intros smp l s c R F L. assert (I := runs_inv _ _ _ R). assert (G := trace_reg _ _ _ _ inv0 reg0 F R).
  destruct (nth_error (objs s) c) as [k|] eqn:K; [|apply nth_error_None in K; lia]. split.
  - intros (k1 & K1 & T) (k2 & K2 & IC). destruct (i_tab _ I _ _ T) as (k3 & K3 & _ & X & _). congruence.
  - intros NG. exists k. split; [exact K|]. apply (G _ _ K). destruct (k_inclosed k) eqn:IC; [|reflexivity]. exfalso. apply NG. exists k. auto.
Qed.
Lemma live_not_gone : forall s c, inv s -> live s c -> ~ gone s c.
Proof.
  intros s c I (k1 & K1 & T) (k2 & K2 & IC). destruct (i_tab _ I _ _ T) as (k3 & K3 & _ & X & _). congruence.
Qed.
Lemma gone_forever : forall smp l s s' c, inv s -> exec_all smp s l = Ret (Some s') -> gone s c -> gone s' c.
Proof.
  intros smp l s s' c I E (k & K & IC). destruct (trace_flags _ _ _ _ _ _ I E K) as (k' & K' & _ & [F|F]); exists k'; (split; [exact K'|]); unfold flags in F; congruence.
Qed.
Lemma disconnected_forever : forall smp l s s' c, inv s -> flaginv s -> exec_all smp s l = Ret (Some s') -> disconnected s c -> disconnected s' c.
Proof.
  intros smp l s s' c I FI E (k & K & IC). destruct (trace_flags _ _ _ _ _ _ I E K) as (k' & K' & _ & [F|F]); exists k'; (split; [exact K'|]); unfold flags in F; congruence.
Qed.
(** a connection that is gone without having been reported disconnected never will be *)
Lemma silent_forever : forall smp l s s' c k, inv s -> exec_all smp s l = Ret (Some s') -> nth_error (objs s) c = Some k -> flags k = (true, false) ->
  ~ disconnected s' c.
Proof.
  intros smp l s s' c k I E K FL (k2 & K2 & D). destruct (trace_flags _ _ _ _ _ _ I E K) as (k' & K' & _ & [F|F]); [|congruence].
  rewrite K2 in K'. injection K' as <-. unfold flags in *. congruence.
Qed.

(** ---- Close ---- *)
Definition closedinv (s : host) : Prop := forall i c, nth_error (closers s) i = Some (ClRet c) -> gone s c.
Lemma step_closers : forall smp s a s', inv s -> exec smp s a = Ret (Some s') ->
  forall i c, nth_error (closers s') i = Some (ClRet c) -> nth_error (closers s) i = Some (ClRet c) \/
   (exists k, nth_error (objs s) c = Some k /\ ((a = AClCheck i /\ k_done k = true) \/ (a = AClClean i /\ removes s a = Some (k_handle k)))).
Proof.
  intros smp s a s' I E i0 c0 H.
  assert (Clean : forall x h, inv x -> cleanup x h = Ret s' -> closers x = closers s -> nth_error (closers s) i0 = Some (ClRet c0)).
  { intros x h Ix C Q. destruct (cleanup_effect _ _ _ Ix C) as (_ & _ & CL & _). congruence. }
  destruct a; cbn [exec] in E.
  - left. destruct (loop s) eqn:L; try discriminate E.
    destruct (dec_pkt b) as [k|] eqn:D; [|discriminate E]. cbn [gbind] in E.
    destruct k as [h p|h role pt addr|h reason|h rest|h st|code p|p|p|]; try (injection E as <-; exact H).
    + destruct (tab s h); injection E as <-; exact H.
    + destruct (reason =? 22); [injection E as <-; exact H|].
      destruct (cleanup s h) as [s1|] eqn:C; [|discriminate E]. injection E as <-. eapply Clean; eauto.
    + destruct (tab s h); [|injection E as <-; exact H]. destruct rest as [x|]; [|discriminate E]. cbn [gbind] in E.
      destruct (negb (fst x =? 0) && negb smp); [discriminate E|]. injection E as <-. exact H.
    + destruct (tab s h); [|injection E as <-; exact H]. destruct (negb (st =? 0) && negb smp); [discriminate E|]. injection E as <-. exact H.
  - left. destruct (loop s) as [|c p|c|c| |] eqn:L; try discriminate E.
    destruct (nth_error (objs s) c) as [k|] eqn:K; [|discriminate E].
    destruct (k_inclosed k); [discriminate E|]. destruct (Nat.ltb (length (k_in k)) in_cap); [|discriminate E]. injection E as <-. exact H.
  - left. destruct (loop s) as [|c p|c|c| |] eqn:L; try discriminate E.
    destruct (mclosed s); [discriminate E|]. destruct (master s); [|discriminate E]. injection E as <-. exact H.
  - left. destruct (loop s) as [|c p|c|c| |] eqn:L; try discriminate E. injection E as <-. cbn in H. apply nth_snoc in H. destruct H as [H|[_ H]]; [exact H|discriminate H].
  - left. destruct (loop s) as [|c p|c|c| |] eqn:L; try discriminate E. injection E as <-. exact H.
  - left. destruct (nth_error (objs s) c) as [k|] eqn:K; [|discriminate E].
    destruct (k_rx k) eqn:R; try discriminate E. destruct (k_in k) as [|p q] eqn:Q; [discriminate E|]. injection E as <-. exact H.
  - left. destruct (nth_error (objs s) c) as [k|] eqn:K; [|discriminate E]. destruct (k_rx k) eqn:R; try discriminate E. injection E as <-. exact H.
  - left. destruct (nth_error (objs s) c) as [k|] eqn:K; [|discriminate E].
    destruct (k_rx k) eqn:R; try discriminate E. destruct (mlock s); [discriminate E|].
    assert (I1 : inv (set_conn s c (set_rx k RxEnd))) by (eapply conn_inv; eauto; cbn; now apply (i_cap _ I c)).
    destruct (cleanup (set_conn s c (set_rx k RxEnd)) (k_handle k)) as [s1|] eqn:C; [|discriminate E]. injection E as <-. eapply Clean; eauto.
  - left. destruct (nth_error (objs s) c) as [k|] eqn:K; [|discriminate E]. destruct (k_rx k) eqn:R; try discriminate E.
    destruct ((k_inclosed k && Nat.eqb (length (k_in k)) 0) || negb (isopen s))%bool; [|discriminate E]. injection E as <-. exact H.
  - left. destruct (Nat.ltb c (length (objs s))); [|discriminate E]. injection E as <-. cbn in H. apply nth_snoc in H. destruct H as [H|[_ H]]; [exact H|discriminate H].
  - destruct (nth_error (closers s) i) as [[c|c|c|c]|] eqn:N; try discriminate E. destruct (nth_error (objs s) c) as [k|] eqn:K; [|discriminate E]. injection E as <-.
    cbn in H. apply nth_upd_some in H. destruct H as [[-> H]|[_ H]]; [|now left]. destruct (k_done k) eqn:D; [|discriminate H]. injection H as ->. right. exists k. auto.
  - left. destruct (nth_error (closers s) i) as [[c|c|c|c]|] eqn:N; try discriminate E. injection E as <-. cbn in H. apply nth_upd_some in H. destruct H as [[-> H]|[_ H]]; [discriminate H|exact H].
  - destruct (nth_error (closers s) i) as [[c|c|c|c]|] eqn:N; try discriminate E. destruct (nth_error (objs s) c) as [k|] eqn:K; [|discriminate E].
    destruct (mlock s); [discriminate E|].
    assert (I1 : inv (set_closers s (upd (closers s) i (ClRet c)))) by (apply closers_upd_inv with c; eauto).
    destruct (cleanup (set_closers s (upd (closers s) i (ClRet c))) (k_handle k)) as [s1|] eqn:C; [|discriminate E]. injection E as <-.
    destruct (cleanup_effect _ _ _ I1 C) as (_ & _ & CL & _). rewrite CL in H. cbn in H. apply nth_upd_some in H. destruct H as [[-> H]|[_ H]]; [|now left].
    injection H as ->. right. exists k. split; [exact K|]. right. cbn. rewrite N, K. auto.
  - left. destruct (haserr s || negb (isopen s))%bool; [discriminate E|]. injection E as <-. exact H.
  - left. destruct (nth_error (dials s) i) as [[x|x|x|x y|x|x]|]; try discriminate E; destruct (master s); try discriminate E; injection E as <-; exact H.
  - left. destruct (nth_error (dials s) i) as [[x|x|x|x y|x|x]|]; try discriminate E; destruct (mclosed s && Nat.eqb (length (master s)) 0)%bool; try discriminate E. injection E as <-. exact H.
  - left. destruct (nth_error (dials s) i) as [[x|x|x|x y|x|x]|]; try discriminate E. injection E as <-. exact H.
  - left. destruct (nth_error (dials s) i) as [[x|x|x|x y|x|x]|]; try discriminate E. destruct (isopen s) eqn:O; [discriminate E|]. injection E as <-. exact H.
  - left. destruct (nth_error (dials s) i) as [[x|x|x|x y|x|x]|]; try discriminate E. injection E as <-. exact H.
  - left. destruct (nth_error (dials s) i) as [[x|x|x|x y|x|x]|]; try discriminate E. injection E as <-. exact H.
  - left. destruct (nth_error (dials s) i) as [[x|x|x|x y|x|x]|]; try discriminate E. injection E as <-. exact H.
  - left. destruct (nth_error (dials s) i) as [[x|x|x|x y|x|x]|]; try discriminate E. injection E as <-. exact H.
  - left. injection E as <-. exact H.
  - left. injection E as <-. exact H.
  - left. destruct (loop s) as [|c p|c|c| |] eqn:L; try discriminate E. injection E as <-. exact H.
  - left. destruct (loop s) as [|c p|c|c| |] eqn:L; try discriminate E. destruct (mlock s); [discriminate E|].
    destruct (cleanup s h) as [s1|] eqn:C; [|discriminate E]. injection E as <-. eapply Clean; eauto.
  - left. destruct (loop s) as [|c p|c|c| |] eqn:L; try discriminate E. destruct (forallb _ _); [|discriminate E]. injection E as <-. exact H.
Qed.

Lemma step_closedinv : forall smp s a s', inv s -> flaginv s -> reg s -> closedinv s -> exec smp s a = Ret (Some s') -> closedinv s'.
Proof.
  intros smp s a s' I F G CI E i c H.
  assert (E1 : exec_all smp s [a] = Ret (Some s')) by (cbn; rewrite E; reflexivity).
  destruct (step_closers _ _ _ _ I E _ _ H) as [X|(k & K & [[-> D]|[-> RM]])].
  - apply (gone_forever _ _ _ _ _ I E1). eapply CI; eauto.
  - apply (gone_forever _ _ _ _ _ I E1). exists k. split; [exact K|]. now apply (F _ _ K).
  - destruct (k_inclosed k) eqn:IC; [apply (gone_forever _ _ _ _ _ I E1); exists k; auto|].
    destruct (step_life _ _ _ _ I E) as (_ & _ & _ & L). destruct (L _ _ K) as (k' & K' & _ & FL). rewrite RM, (G _ _ K IC), Nat.eqb_refl in FL.
    exists k'. split; [exact K'|]. unfold flags in FL. congruence.
Qed.
Theorem close_gone : forall smp l s, runs smp l s -> fresh_handles smp host0 l -> closedinv s.
Proof.
  intros smp l. enough (H : forall s s', inv s -> flaginv s -> reg s -> closedinv s -> fresh_handles smp s l -> exec_all smp s l = Ret (Some s') -> closedinv s').
  { intros s R F. apply (H host0 s); auto using inv0, reg0. { intros c k K. now destruct c. } { intros i c X. now destruct i. } }
  induction l as [|a l IH]; intros s s' I FI G C F E; cbn [exec_all] in E; [injection E as <-; exact C|].
  destruct (exec smp s a) as [[s1|]|] eqn:X; try discriminate E. cbn [gbind] in E. cbn [fresh_handles] in F. rewrite X in F. destruct F as [F1 F2].
  apply (IH s1 s'); eauto using exec_inv, step_flaginv, step_reg, step_closedinv.
Qed.

(** ---- after the process loop has ended ---- *)
Definition endinv (s : host) : Prop := loop s = LEnd -> forall h, tab s h = None.
Lemma step_loop_end : forall smp s a s', inv s -> exec smp s a = Ret (Some s') -> loop s' = LEnd ->
  loop s = LEnd \/ (a = ALoopEnd /\ loop s = LCleanup /\ forall k, In k (objs s) -> tab s (k_handle k) = None).
Proof.
  intros smp s a s' I E H.
  assert (Clean : forall x h, inv x -> cleanup x h = Ret s' -> loop x = loop s -> loop s = LEnd).
  { intros x h Ix C Q. destruct (cleanup_effect _ _ _ Ix C) as (LP & _). congruence. }
  destruct a; cbn [exec] in E.
  - destruct (loop s) eqn:L; try discriminate E. exfalso.
    destruct (dec_pkt b) as [k|] eqn:D; [|discriminate E]. cbn [gbind] in E.
    destruct k as [h p|h role pt addr|h reason|h rest|h st|code p|p|p|]; try (injection E as <-; congruence).
    + destruct (tab s h); injection E as <-; [discriminate H|congruence].
    + injection E as <-. cbn in H. destruct (role =? 0); discriminate H.
    + destruct (reason =? 22); [injection E as <-; congruence|].
      destruct (cleanup s h) as [s1|] eqn:C; [|discriminate E]. injection E as <-. specialize (Clean _ _ I C L). discriminate Clean.
    + destruct (tab s h); [|injection E as <-; congruence]. destruct rest as [x|]; [|discriminate E]. cbn [gbind] in E.
      destruct (negb (fst x =? 0) && negb smp); [discriminate E|]. injection E as <-. congruence.
    + destruct (tab s h); [|injection E as <-; congruence]. destruct (negb (st =? 0) && negb smp); [discriminate E|]. injection E as <-. congruence.
  - destruct (loop s) as [|c p|c|c| |] eqn:L; try discriminate E.
    destruct (nth_error (objs s) c) as [k|] eqn:K; [|discriminate E].
    destruct (k_inclosed k); [discriminate E|]. destruct (Nat.ltb (length (k_in k)) in_cap); [|discriminate E]. injection E as <-. discriminate H.
  - destruct (loop s) as [|c p|c|c| |] eqn:L; try discriminate E.
    destruct (mclosed s); [discriminate E|]. destruct (master s); [|discriminate E]. injection E as <-. discriminate H.
  - destruct (loop s) as [|c p|c|c| |] eqn:L; try discriminate E. injection E as <-. discriminate H.
  - destruct (loop s) as [|c p|c|c| |] eqn:L; try discriminate E. injection E as <-. discriminate H.
  - left. destruct (nth_error (objs s) c) as [k|] eqn:K; [|discriminate E].
    destruct (k_rx k) eqn:R; try discriminate E. destruct (k_in k) as [|p q] eqn:Q; [discriminate E|]. injection E as <-. exact H.
  - left. destruct (nth_error (objs s) c) as [k|] eqn:K; [|discriminate E]. destruct (k_rx k) eqn:R; try discriminate E. injection E as <-. exact H.
  - left. destruct (nth_error (objs s) c) as [k|] eqn:K; [|discriminate E].
    destruct (k_rx k) eqn:R; try discriminate E. destruct (mlock s); [discriminate E|].
    assert (I1 : inv (set_conn s c (set_rx k RxEnd))) by (eapply conn_inv; eauto; cbn; now apply (i_cap _ I c)).
    destruct (cleanup (set_conn s c (set_rx k RxEnd)) (k_handle k)) as [s1|] eqn:C; [|discriminate E]. injection E as <-. eapply Clean; eauto.
  - left. destruct (nth_error (objs s) c) as [k|] eqn:K; [|discriminate E]. destruct (k_rx k) eqn:R; try discriminate E.
    destruct ((k_inclosed k && Nat.eqb (length (k_in k)) 0) || negb (isopen s))%bool; [|discriminate E]. injection E as <-. exact H.
  - left. destruct (Nat.ltb c (length (objs s))); [|discriminate E]. injection E as <-. exact H.
  - left. destruct (nth_error (closers s) i) as [[c|c|c|c]|] eqn:N; try discriminate E. destruct (nth_error (objs s) c) as [k|] eqn:K; [|discriminate E]. injection E as <-. exact H.
  - left. destruct (nth_error (closers s) i) as [[c|c|c|c]|] eqn:N; try discriminate E. injection E as <-. exact H.
  - left. destruct (nth_error (closers s) i) as [[c|c|c|c]|] eqn:N; try discriminate E. destruct (nth_error (objs s) c) as [k|] eqn:K; [|discriminate E].
    destruct (mlock s); [discriminate E|].
    assert (I1 : inv (set_closers s (upd (closers s) i (ClRet c)))) by (apply closers_upd_inv with c; eauto).
    destruct (cleanup (set_closers s (upd (closers s) i (ClRet c))) (k_handle k)) as [s1|] eqn:C; [|discriminate E]. injection E as <-. eapply Clean; eauto.
  - left. destruct (haserr s || negb (isopen s))%bool; [discriminate E|]. injection E as <-. exact H.
  - left. destruct (nth_error (dials s) i) as [[x|x|x|x y|x|x]|]; try discriminate E; destruct (master s); try discriminate E; injection E as <-; exact H.
  - left. destruct (nth_error (dials s) i) as [[x|x|x|x y|x|x]|]; try discriminate E; destruct (mclosed s && Nat.eqb (length (master s)) 0)%bool; try discriminate E. injection E as <-. exact H.
  - left. destruct (nth_error (dials s) i) as [[x|x|x|x y|x|x]|]; try discriminate E. injection E as <-. exact H.
  - left. destruct (nth_error (dials s) i) as [[x|x|x|x y|x|x]|]; try discriminate E. destruct (isopen s) eqn:O; [discriminate E|]. injection E as <-. exact H.
  - left. destruct (nth_error (dials s) i) as [[x|x|x|x y|x|x]|]; try discriminate E. injection E as <-. exact H.
  - left. destruct (nth_error (dials s) i) as [[x|x|x|x y|x|x]|]; try discriminate E. injection E as <-. exact H.
  - left. destruct (nth_error (dials s) i) as [[x|x|x|x y|x|x]|]; try discriminate E. injection E as <-. exact H.
  - left. destruct (nth_error (dials s) i) as [[x|x|x|x y|x|x]|]; try discriminate E. injection E as <-. exact H.
  - left. injection E as <-. exact H.
  - left. injection E as <-. exact H.
  - destruct (loop s) as [|c p|c|c| |] eqn:L; try discriminate E. injection E as <-. discriminate H.
  - destruct (loop s) as [|c p|c|c| |] eqn:L; try discriminate E. destruct (mlock s); [discriminate E|].
    destruct (cleanup s h) as [s1|] eqn:C; [|discriminate E]. injection E as <-. specialize (Clean _ _ I C L). discriminate Clean.
  - destruct (loop s) as [|c p|c|c| |] eqn:L; try discriminate E. destruct (forallb _ _) eqn:FB; [|discriminate E]. right. split; [reflexivity|]. split; [reflexivity|].
    intros k X. rewrite forallb_forall in FB. specialize (FB k X). cbv beta in FB. destruct (tab s (k_handle k)); [discriminate FB|reflexivity].
Qed.
Lemma step_endinv : forall smp s a s', inv s -> endinv s -> exec smp s a = Ret (Some s') -> endinv s'.
Proof.
  intros smp s a s' I EI E H h. destruct (step_life _ _ _ _ I E) as (_ & T & _ & _). rewrite T.
  destruct (step_loop_end _ _ _ _ I E H) as [X|(-> & X & Y)].
  - assert (NC : new_conns a = []). { destruct a; try reflexivity. cbn [exec] in E. rewrite X in E. discriminate E. }
    rewrite NC. destruct (oeqz _ _); [reflexivity|]. now apply EI.
  - cbn. destruct (tab s h) as [c|] eqn:Q; [|reflexivity]. destruct (i_tab _ I _ _ Q) as (k & K & K1 & _). rewrite <- K1, (Y k) in Q; [discriminate Q|]. eapply nth_error_In; eauto.
Qed.
Theorem runs_endinv : forall smp l s, runs smp l s -> endinv s.
Proof.
  intros smp l s R. revert R. revert l s. apply (exec_all_snoc_ind smp (fun _ s => endinv s)).
  - intros H. discriminate H.
  - intros l s a s' R F E. eapply step_endinv; eauto. eapply runs_inv; eauto.
Qed.
