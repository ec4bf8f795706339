(** Proofs about the HCI host: which connections Accept and Dial return; waits that never end. *)
Require Import Verif.Base Verif.M_uuid Verif.M_advrep Verif.M_hci Verif.S_hci Verif.P_hci Verif.P_hci2 Verif.P_hci3 Verif.P_hci4 Verif.P_hci5 Verif.P_hci6.
Require Import Coq.Sorting.Permutation.

(** ---- each connection is handed out at most once ---- *)
Definition inloop (s : host) : list nat := match loop s with LMaster c | LSlave c => [c] | _ => [] end.
Definition dgot (d : dialst) : list nat := match d with DGot _ c => [c] | _ => [] end.
Definition out (s : host) : list nat := inloop s ++ master s ++ given_by_dial s ++ accepted s.
Definition role_of (s : host) (c : nat) (p : Z -> Prop) : Prop := exists k, nth_error (objs s) c = Some k /\ p (k_role k).
Record handinv (s : host) : Prop := mkHand {
  h_nodup : NoDup (out s);
  h_lm : forall c, loop s = LMaster c -> role_of s c (fun r => r = 0);
  h_ls : forall c, loop s = LSlave c -> role_of s c (fun r => r <> 0);
  h_m : forall c, In c (master s) -> role_of s c (fun r => r = 0);
  h_d : forall c, In c (given_by_dial s) -> role_of s c (fun r => r = 0);
  h_a : forall c, In c (accepted s) -> role_of s c (fun r => r <> 0) }.

Lemma role_step : forall smp s a s' c p, inv s -> exec smp s a = Ret (Some s') -> role_of s c p -> role_of s' c p.
Proof.
  intros smp s a s' c p I E (k & K & P). destruct (step_flags _ _ _ _ _ _ I E K) as (k' & K' & F & _). exists k'. split; [exact K'|].
  unfold idof in F. replace (k_role k') with (k_role k) by congruence. exact P.
Qed.
Lemma given_upd : forall l i d d', nth_error l i = Some d -> dgot d = [] ->
  Permutation (flat_map dgot (upd l i d')) (dgot d' ++ flat_map dgot l).
Proof.
  intros l. induction l as [|x l IH]; intros [|i] d d' H D; cbn in *; try discriminate.
  - injection H as ->. rewrite D. reflexivity.
  - rewrite (IH i d d' H D). rewrite !app_assoc. apply Permutation_app_tail, Permutation_app_comm.
Qed.
(** What a step does to the connections waiting to be handed out. *)
Inductive hand_step (s s' : host) (a : act) : Prop :=
| HSame : inloop s' = inloop s -> master s' = master s -> given_by_dial s' = given_by_dial s -> accepted s' = accepted s -> loop s' = loop s \/ (inloop s = [] /\ inloop s' = []) -> hand_step s s' a
| HNew h r ad : new_conns a = [(h, r, ad)] -> inloop s = [] -> loop s' = (if r =? 0 then LMaster (length (objs s)) else LSlave (length (objs s))) ->
    master s' = master s -> given_by_dial s' = given_by_dial s -> accepted s' = accepted s -> hand_step s s' a
| HPut c : loop s = LMaster c -> loop s' = LIdle -> master s = [] -> master s' = [c] -> given_by_dial s' = given_by_dial s -> accepted s' = accepted s -> hand_step s s' a
| HLate c : loop s = LMaster c -> loop s' = LIdle -> master s' = master s -> given_by_dial s' = given_by_dial s -> accepted s' = accepted s -> hand_step s s' a
| HAccept c : loop s = LSlave c -> loop s' = LIdle -> master s' = master s -> given_by_dial s' = given_by_dial s -> accepted s' = accepted s ++ [c] -> hand_step s s' a
| HTake c : loop s' = loop s -> master s = c :: master s' -> Permutation (given_by_dial s') (c :: given_by_dial s) -> accepted s' = accepted s -> hand_step s s' a.

Lemma given_same : forall s i d d', nth_error (dials s) i = Some d -> dgot d = [] -> dgot d' = [] ->
  given_by_dial (set_dials s (upd (dials s) i d')) = given_by_dial s.
Proof.
  intros s i d d' H1 H2 H3. unfold given_by_dial. fields. change (flat_map dgot (upd (dials s) i d') = flat_map dgot (dials s)).
  revert i H1. generalize (dials s). induction l as [|x l IH]; intros [|i] H1; cbn in *; try discriminate; [|f_equal; eauto].
  injection H1 as ->. now rewrite H2, H3.
Qed.
Lemma step_hand : forall smp s a s', inv s -> exec smp s a = Ret (Some s') -> hand_step s s' a.
Proof.
  intros smp s a s' I E.
  assert (Clean : forall x h, inv x -> cleanup x h = Ret s' -> loop x = loop s -> master x = master s -> dials x = dials s -> accepted x = accepted s -> hand_step s s' a).
  { intros x h Ix C Q1 Q2 Q3 Q4. destruct (cleanup_effect _ _ _ Ix C) as (LP & _ & _ & DL & AC & MS & _). apply HSame; [unfold inloop; rewrite LP, Q1; reflexivity|congruence|unfold given_by_dial; rewrite DL, Q3; reflexivity|congruence|left; congruence]. }
  assert (Id : forall x, x = s' -> loop x = loop s -> master x = master s -> dials x = dials s -> accepted x = accepted s -> hand_step s s' a).
  { intros x <- Q1 Q2 Q3 Q4. apply HSame; [unfold inloop; rewrite Q1; reflexivity|congruence|unfold given_by_dial; rewrite Q3; reflexivity|congruence|left; congruence]. }
  assert (Dl : forall i d d', nth_error (dials s) i = Some d -> dgot d = [] -> dgot d' = [] -> s' = set_dials s (upd (dials s) i d') -> hand_step s s' a).
  { intros i d d' N D1 D2 ->. apply HSame; try reflexivity; [eapply given_same; eauto|now left]. }
  destruct a; cbn [exec] in E.
  - destruct (loop s) eqn:L; try discriminate E.
    destruct (dec_pkt b) as [k|] eqn:D; [|discriminate E]. cbn [gbind] in E.
    destruct k as [h p|h role pt addr|h reason|h rest|h st|code p|p|p|]; try (injection E as <-; eapply Id; try reflexivity; exact L).
    + destruct (tab s h) as [c|]; injection E as <-; [|eapply Id; try reflexivity; exact L].
      apply HSame; try reflexivity; unfold inloop; rewrite L; [reflexivity|right; auto].
    + injection E as <-. apply HNew with h role addr; try reflexivity; [cbn; now rewrite D|unfold inloop; now rewrite L].
    + destruct (reason =? 22); [injection E as <-; eapply Id; try reflexivity; exact L|].
      destruct (cleanup s h) as [s1|] eqn:C; [|discriminate E]. injection E as <-. eapply Clean; eauto.
    + destruct (tab s h); [|injection E as <-; eapply Id; try reflexivity; exact L]. destruct rest as [x|]; [|discriminate E]. cbn [gbind] in E.
      destruct (negb (fst x =? 0) && negb smp); [discriminate E|]. injection E as <-. eapply Id; try reflexivity; exact L.
    + destruct (tab s h); [|injection E as <-; eapply Id; try reflexivity; exact L]. destruct (negb (st =? 0) && negb smp); [discriminate E|]. injection E as <-. eapply Id; try reflexivity; exact L.
  - destruct (loop s) as [|c p|c|c| |] eqn:L; try discriminate E.
    destruct (nth_error (objs s) c) as [k|] eqn:K; [|discriminate E].
    destruct (k_inclosed k); [discriminate E|]. destruct (Nat.ltb (length (k_in k)) in_cap); [|discriminate E]. injection E as <-.
    apply HSame; try reflexivity; unfold inloop; rewrite L; [reflexivity|right; auto].
  - destruct (loop s) as [|c p|c|c| |] eqn:L; try discriminate E.
    destruct (mclosed s); [discriminate E|]. destruct (master s) eqn:M; [|discriminate E]. injection E as <-. apply HPut with c; auto.
  - destruct (loop s) as [|c p|c|c| |] eqn:L; try discriminate E. injection E as <-. apply HLate with c; auto.
  - destruct (loop s) as [|c p|c|c| |] eqn:L; try discriminate E. injection E as <-. apply HAccept with c; auto.
  - destruct (nth_error (objs s) c) as [k|] eqn:K; [|discriminate E].
    destruct (k_rx k) eqn:R; try discriminate E. destruct (k_in k) as [|p q] eqn:Q; [discriminate E|]. injection E as <-. eapply Id; reflexivity.
  - destruct (nth_error (objs s) c) as [k|] eqn:K; [|discriminate E]. destruct (k_rx k) eqn:R; try discriminate E. injection E as <-. eapply Id; reflexivity.
  - destruct (nth_error (objs s) c) as [k|] eqn:K; [|discriminate E].
    destruct (k_rx k) eqn:R; try discriminate E. destruct (mlock s); [discriminate E|].
    assert (I1 : inv (set_conn s c (set_rx k RxEnd))) by (eapply conn_inv; eauto; cbn; now apply (i_cap _ I c)).
    destruct (cleanup (set_conn s c (set_rx k RxEnd)) (k_handle k)) as [s1|] eqn:C; [|discriminate E]. injection E as <-. eapply Clean; eauto.
  - destruct (nth_error (objs s) c) as [k|] eqn:K; [|discriminate E]. destruct (k_rx k) eqn:R; try discriminate E.
    destruct ((k_inclosed k && Nat.eqb (length (k_in k)) 0) || negb (isopen s))%bool; [|discriminate E]. injection E as <-. eapply Id; reflexivity.
  - destruct (Nat.ltb c (length (objs s))); [|discriminate E]. injection E as <-. eapply Id; reflexivity.
  - destruct (nth_error (closers s) i) as [[c|c|c|c]|] eqn:N; try discriminate E. destruct (nth_error (objs s) c) as [k|] eqn:K; [|discriminate E]. injection E as <-. eapply Id; reflexivity.
  - destruct (nth_error (closers s) i) as [[c|c|c|c]|] eqn:N; try discriminate E. injection E as <-. eapply Id; reflexivity.
  - destruct (nth_error (closers s) i) as [[c|c|c|c]|] eqn:N; try discriminate E. destruct (nth_error (objs s) c) as [k|] eqn:K; [|discriminate E].
    destruct (mlock s); [discriminate E|].
    assert (I1 : inv (set_closers s (upd (closers s) i (ClRet c)))) by (apply closers_upd_inv with c; eauto).
    destruct (cleanup (set_closers s (upd (closers s) i (ClRet c))) (k_handle k)) as [s1|] eqn:C; [|discriminate E]. injection E as <-. eapply Clean; eauto.
  - destruct (haserr s || negb (isopen s))%bool; [discriminate E|]. injection E as <-. apply HSame; try reflexivity; [|now left].
    unfold given_by_dial. fields. rewrite flat_map_app. cbn. apply app_nil_r.
  - destruct (nth_error (dials s) i) as [[x|x|x|x y|x|x]|] eqn:N; try discriminate E; destruct (master s) as [|c r] eqn:M; try discriminate E; injection E as <-;
      (apply HTake with c; [reflexivity|exact M| |reflexivity]; apply (given_upd _ _ _ (DGot x c) N eq_refl)).
  - destruct (nth_error (dials s) i) as [[x|x|x|x y|x|x]|] eqn:N; try discriminate E; destruct (mclosed s && Nat.eqb (length (master s)) 0)%bool; try discriminate E. injection E as <-. refine (Dl i _ _ N _ _ eq_refl); reflexivity.
  - destruct (nth_error (dials s) i) as [[x|x|x|x y|x|x]|] eqn:N; try discriminate E. injection E as <-. refine (Dl i _ _ N _ _ eq_refl); reflexivity.
  - destruct (nth_error (dials s) i) as [[x|x|x|x y|x|x]|] eqn:N; try discriminate E. destruct (isopen s) eqn:O; [discriminate E|]. injection E as <-. refine (Dl i _ _ N _ _ eq_refl); [reflexivity|now destruct (haserr s)].
  - destruct (nth_error (dials s) i) as [[x|x|x|x y|x|x]|] eqn:N; try discriminate E. injection E as <-. refine (Dl i _ _ N _ _ eq_refl); reflexivity.
  - destruct (nth_error (dials s) i) as [[x|x|x|x y|x|x]|] eqn:N; try discriminate E. injection E as <-. refine (Dl i _ _ N _ _ eq_refl); reflexivity.
  - destruct (nth_error (dials s) i) as [[x|x|x|x y|x|x]|] eqn:N; try discriminate E. injection E as <-. refine (Dl i _ _ N _ _ eq_refl); reflexivity.
  - destruct (nth_error (dials s) i) as [[x|x|x|x y|x|x]|] eqn:N; try discriminate E. injection E as <-. refine (Dl i _ _ N _ _ eq_refl); reflexivity.
  - injection E as <-. eapply Id; reflexivity.
  - injection E as <-. eapply Id; reflexivity.
  - destruct (loop s) as [|c p|c|c| |] eqn:L; try discriminate E. injection E as <-. apply HSame; try reflexivity; unfold inloop; rewrite L; [reflexivity|right; auto].
  - destruct (loop s) as [|c p|c|c| |] eqn:L; try discriminate E. destruct (mlock s); [discriminate E|].
    destruct (cleanup s h) as [s1|] eqn:C; [|discriminate E]. injection E as <-. eapply Clean; eauto.
  - destruct (loop s) as [|c p|c|c| |] eqn:L; try discriminate E. destruct (forallb _ _); [|discriminate E]. injection E as <-. apply HSame; try reflexivity; unfold inloop; rewrite L; [reflexivity|right; auto].
Qed.

Lemma perm_roles : forall (P : nat -> Prop) l m, Permutation l m -> (forall c, In c m -> P c) -> forall c, In c l -> P c.
Proof. intros P l m H F c X. apply F. eapply Permutation_in; eauto. Qed.
Lemma inloop_role : forall s c, handinv s -> In c (inloop s) -> role_of s c (fun _ => True).
Proof.
  intros s c H X. unfold inloop in X. destruct (loop s) eqn:L; try destruct X as [<-|[]]; try destruct X.
  - destruct (h_lm _ H _ L) as (k & K & _). exists k. auto.
  - destruct (h_ls _ H _ L) as (k & K & _). exists k. auto.
Qed.
Lemma out_known : forall s c, handinv s -> In c (out s) -> (c < length (objs s))%nat.
Proof.
  intros s c H X. enough (Q : role_of s c (fun _ => True)) by (destruct Q as (k & K & _); apply nth_error_Some; congruence).
  unfold out in X. rewrite !in_app_iff in X. destruct X as [X|[X|[X|X]]].
  - now apply inloop_role.
  - destruct (h_m _ H _ X) as (k & K & _). exists k. auto.
  - destruct (h_d _ H _ X) as (k & K & _). exists k. auto.
  - destruct (h_a _ H _ X) as (k & K & _). exists k. auto.
Qed.
Lemma step_handinv : forall smp s a s', inv s -> handinv s -> exec smp s a = Ret (Some s') -> handinv s'.
Proof.
  intros smp s a s' I H E. assert (RS := fun c p => role_step _ _ _ _ c p I E).
  destruct (step_hand _ _ _ _ I E) as [Q1 Q2 Q3 Q4 Q5|h r ad NC Q1 Q2 Q3 Q4 Q5|c Q1 Q2 Q3 Q4 Q5 Q6|c Q1 Q2 Q3 Q4 Q5|c Q1 Q2 Q3 Q4 Q5|c Q1 Q2 Q3 Q4].
  - constructor.
    + unfold out. rewrite Q1, Q2, Q3, Q4. apply H.
    + intros c X. destruct Q5 as [Q5|[_ Q5]]; [rewrite Q5 in X; apply RS, (h_lm _ H); exact X|unfold inloop in Q5; rewrite X in Q5; discriminate Q5].
    + intros c X. destruct Q5 as [Q5|[_ Q5]]; [rewrite Q5 in X; apply RS, (h_ls _ H); exact X|unfold inloop in Q5; rewrite X in Q5; discriminate Q5].
    + intros c X. rewrite Q2 in X. apply RS, (h_m _ H), X.
    + intros c X. rewrite Q3 in X. apply RS, (h_d _ H), X.
    + intros c X. rewrite Q4 in X. apply RS, (h_a _ H), X.
  - destruct (step_life _ _ _ _ I E) as (_ & _ & N & _). specialize (N _ _ _ NC).
    assert (R : r = 0 -> role_of s' (length (objs s)) (fun r => r = 0)) by (intros ->; eexists; split; [exact N|reflexivity]).
    assert (R' : r <> 0 -> role_of s' (length (objs s)) (fun r => r <> 0)) by (intros X; eexists; split; [exact N|exact X]).
    constructor.
    + assert (L : inloop s' = [length (objs s)]) by (unfold inloop; rewrite Q2; now destruct (r =? 0)).
      unfold out. rewrite L, Q3, Q4, Q5. cbn [app]. assert (X := h_nodup _ H). unfold out in X. rewrite Q1 in X. cbn [app] in X. constructor; [|exact X].
      intros Y. assert (Z := out_known s (length (objs s)) H). unfold out in Z. rewrite Q1 in Z. specialize (Z Y). lia.
    + intros c X. rewrite Q2 in X. destruct (Z.eqb_spec r 0); [injection X as <-; auto|discriminate X].
    + intros c X. rewrite Q2 in X. destruct (Z.eqb_spec r 0); [discriminate X|injection X as <-; auto].
    + intros c X. rewrite Q3 in X. apply RS, (h_m _ H), X.
    + intros c X. rewrite Q4 in X. apply RS, (h_d _ H), X.
    + intros c X. rewrite Q5 in X. apply RS, (h_a _ H), X.
  - constructor; try (intros; congruence).
    + unfold out, inloop. rewrite Q2, Q4, Q5, Q6. cbn [app]. assert (X := h_nodup _ H). unfold out, inloop in X. rewrite Q1, Q3 in X. exact X.
    + intros c' X. rewrite Q4 in X. destruct X as [<-|[]]. apply RS, (h_lm _ H), Q1.
    + intros c' X. rewrite Q5 in X. apply RS, (h_d _ H), X.
    + intros c' X. rewrite Q6 in X. apply RS, (h_a _ H), X.
  - constructor; try (intros; congruence).
    + unfold out, inloop. rewrite Q2, Q3, Q4, Q5. cbn [app]. assert (X := h_nodup _ H). unfold out, inloop in X. rewrite Q1 in X. cbn [app] in X. now inversion X.
    + intros c' X. rewrite Q3 in X. apply RS, (h_m _ H), X.
    + intros c' X. rewrite Q4 in X. apply RS, (h_d _ H), X.
    + intros c' X. rewrite Q5 in X. apply RS, (h_a _ H), X.
  - constructor; try (intros; congruence).
    + unfold out, inloop. rewrite Q2, Q3, Q4, Q5. cbn [app]. assert (X := h_nodup _ H). unfold out, inloop in X. rewrite Q1 in X.
      eapply Permutation_NoDup; [|exact X]. cbn [app]. rewrite !app_assoc. apply Permutation_cons_append.
    + intros c' X. rewrite Q3 in X. apply RS, (h_m _ H), X.
    + intros c' X. rewrite Q4 in X. apply RS, (h_d _ H), X.
    + intros c' X. rewrite Q5 in X. apply in_app_or in X. destruct X as [X|[<-|[]]]; [apply RS, (h_a _ H), X|apply RS, (h_ls _ H), Q1].
  - constructor.
    + assert (X := h_nodup _ H). unfold out in *. rewrite Q2 in X. eapply Permutation_NoDup; [|exact X].
      unfold inloop. rewrite Q1. apply Permutation_app_head. rewrite Q4. cbn [app]. rewrite Q3. apply (Permutation_middle (master s') (given_by_dial s ++ accepted s)).
    + intros c' X. rewrite Q1 in X. apply RS, (h_lm _ H), X.
    + intros c' X. rewrite Q1 in X. apply RS, (h_ls _ H), X.
    + intros c' X. apply RS, (h_m _ H). rewrite Q2. now right.
    + intros c' X. apply (Permutation_in _ Q3) in X. destruct X as [<-|X]; [apply RS, (h_m _ H); rewrite Q2; now left|apply RS, (h_d _ H), X].
    + intros c' X. rewrite Q4 in X. apply RS, (h_a _ H), X.
Qed.
Theorem runs_handinv : forall smp l s, runs smp l s -> handinv s.
Proof.
  intros smp l s R. revert R. revert l s. apply (exec_all_snoc_ind smp (fun _ s => handinv s)).
  - constructor; cbn; try tauto; try discriminate. constructor.
  - intros l s a s' R F E. eapply step_handinv; eauto. eapply runs_inv; eauto.
Qed.

(** ---- Dial returns a connection to the address it was given ---- *)
Definition daddr (d : dialst) : bytes := match d with DWait a | DCancel a | DGrace a | DGot a _ | DErr a | DNil a => a end.
Definition outstanding (s : host) (c : nat) : Prop := In c (master s) \/ loop s = LMaster c.
Definition act_dial (s : host) (d : dialst) : Prop := In d (dials s) /\ active d = true.
Record dinv (pending : option bytes) (s : host) : Prop := mkD {
  d_out : forall c, outstanding s c -> pending = None /\ exists k, nth_error (objs s) c = Some k /\
      (forall d, act_dial s d -> daddr d = k_addr k) /\ (isopen s = true -> exists d, act_dial s d);
  d_one : forall c, loop s = LMaster c -> master s = [];
  d_pend : forall x, pending = Some x -> (forall d, act_dial s d -> daddr d = x) /\ (isopen s = true -> mclosed s = false -> exists d, act_dial s d);
  d_uniq : forall i j d e, nth_error (dials s) i = Some d -> nth_error (dials s) j = Some e -> active d = true -> active e = true -> i = j;
  d_got : forall a c, In (DGot a c) (dials s) -> exists k, nth_error (objs s) c = Some k /\ k_addr k = a }.

Lemma addr_step : forall smp s a s' c k, inv s -> exec smp s a = Ret (Some s') -> nth_error (objs s) c = Some k ->
  exists k', nth_error (objs s') c = Some k' /\ k_addr k' = k_addr k.
Proof.
  intros smp s a s' c k I E K. destruct (step_flags _ _ _ _ _ _ I E K) as (k' & K' & F & _). exists k'. split; [exact K'|]. unfold idof in F. congruence.
Qed.
Lemma dframe : forall smp s a s' p, inv s -> exec smp s a = Ret (Some s') -> dinv p s -> master s' = master s ->
  (forall c, loop s' = LMaster c -> loop s = LMaster c) -> dials s' = dials s -> (isopen s' = true -> isopen s = true) ->
  (mclosed s' = false -> mclosed s = false) -> dinv p s'.
Proof.
  intros smp s a s' p I E D Q1 Q2 Q3 Q4 Q5.
  assert (AD : forall d, act_dial s' d <-> act_dial s d) by (intros d; unfold act_dial; rewrite Q3; tauto).
  constructor.
  - intros c O. assert (O' : outstanding s c) by (destruct O as [O|O]; [left; congruence|right; auto]).
    destruct (d_out _ _ D _ O') as (P & k & K & H1 & H2). split; [exact P|]. destruct (addr_step _ _ _ _ _ _ I E K) as (k' & K' & A).
    exists k'. split; [exact K'|]. split; [intros d X; rewrite A; apply H1, AD, X|]. intros X. destruct (H2 (Q4 X)) as [d Y]. exists d. now apply AD.
  - intros c X. rewrite Q1. apply (d_one _ _ D c). auto.
  - intros x X. destruct (d_pend _ _ D _ X) as [H1 H2]. split; [intros d Y; apply H1, AD, Y|]. intros Y1 Y2. destruct (H2 (Q4 Y1) (Q5 Y2)) as [d Y]. exists d. now apply AD.
  - rewrite Q3. apply D.
  - intros x c X. rewrite Q3 in X. destruct (d_got _ _ D _ _ X) as (k & K & A). destruct (addr_step _ _ _ _ _ _ I E K) as (k' & K' & A'). exists k'. split; [exact K'|congruence].
Qed.
Lemma in_upd : forall {A} (l : list A) i x y z, nth_error l i = Some y -> In z (upd l i x) -> z = x \/ In z l.
Proof.
  intros A l i x y z N H. apply In_nth_error in H. destruct H as [j H]. apply nth_upd_some in H. destruct H as [[_ H]|[_ H]]; [now left|right]. eapply nth_error_In; eauto.
Qed.
Lemma in_upd_other : forall {A} (l : list A) i x y z, nth_error l i = Some y -> In z l -> z <> y -> In z (upd l i x).
Proof.
  intros A l i x y z N H Q. apply In_nth_error in H. destruct H as [j H]. apply nth_error_In with j. rewrite nth_upd_other; [exact H|]. intros ->. congruence.
Qed.
(** an active call of Dial moves on, staying active *)
Lemma dmove : forall s i d d' p, dinv p s -> nth_error (dials s) i = Some d -> active d = true -> active d' = true -> daddr d' = daddr d ->
  dinv p (set_dials s (upd (dials s) i d')).
Proof.
  intros s i d d' p D N A A' Q.
  assert (AD : forall e, act_dial (set_dials s (upd (dials s) i d')) e -> exists e', act_dial s e' /\ daddr e' = daddr e).
  { intros e [X Y]. cbn in X. apply (in_upd _ _ _ _ _ N) in X. destruct X as [->|X]; [exists d|exists e]; unfold act_dial; eauto using nth_error_In. }
  assert (AE : exists e, act_dial (set_dials s (upd (dials s) i d')) e).
  { exists d'. split; [|exact A']. cbn. apply nth_error_In with i. eapply nth_upd_same; eauto. }
  constructor.
  - intros c O. destruct (d_out _ _ D c O) as (P & k & K & H1 & H2). split; [exact P|]. exists k. split; [exact K|]. split; [|auto].
    intros e X. destruct (AD _ X) as (e' & Y & <-). auto.
  - apply (d_one _ _ D).
  - intros x X. destruct (d_pend _ _ D _ X) as [H1 H2]. split; [|auto]. intros e Y. destruct (AD _ Y) as (e' & Y' & <-). auto.
  - cbn. intros a b x y X Y. assert (forall j z, nth_error (upd (dials s) i d') j = Some z -> active z = true -> exists z', nth_error (dials s) j = Some z' /\ active z' = true) as F.
    { intros j z Z Az. apply nth_upd_some in Z. destruct Z as [[<- _]|[_ Z]]; eauto. }
    intros Ax Ay. destruct (F _ _ X Ax) as (x' & X' & Bx). destruct (F _ _ Y Ay) as (y' & Y' & By). eapply (d_uniq _ _ D); eauto.
  - intros x c X. cbn in X. apply (in_upd _ _ _ _ _ N) in X. destruct X as [<-|X]; [discriminate A'|]. apply (d_got _ _ D _ _ X).
Qed.
(** it returns without a connection; afterwards no call is active *)
Lemma dreturn : forall s i d d' p, dinv p s -> nth_error (dials s) i = Some d -> active d = true -> active d' = false -> dgot d' = [] ->
  (forall c, outstanding s c -> isopen s = false) -> (forall x, p = Some x -> isopen s = true -> mclosed s = false -> False) ->
  dinv p (set_dials s (upd (dials s) i d')).
Proof.
  intros s i d d' p D N A A' G H1 H2.
  assert (AD : forall e, ~ act_dial (set_dials s (upd (dials s) i d')) e).
  { intros e [X Y]. cbn in X. apply In_nth_error in X. destruct X as [j X]. apply nth_upd_some in X. destruct X as [[_ ->]|[NE X]]; [congruence|].
    apply NE. eapply (d_uniq _ _ D); eauto. }
  constructor.
  - intros c O. destruct (d_out _ _ D c O) as (P & k & K & _). split; [exact P|]. exists k. split; [exact K|]. split; [intros e X; destruct (AD _ X)|].
    intros X. cbn in X. rewrite (H1 c O) in X. discriminate X.
  - apply (d_one _ _ D).
  - intros x X. split; [intros e Y; destruct (AD _ Y)|]. intros Y1 Y2. destruct (H2 x X Y1 Y2).
  - cbn. intros a b x y X Y Ax. exfalso. apply (AD x). split; [cbn; eapply nth_error_In; eauto|exact Ax].
  - intros x c X. cbn in X. apply (in_upd _ _ _ _ _ N) in X. destruct X as [<-|X]; [discriminate G|]. apply (d_got _ _ D _ _ X).
Qed.

Lemma step_dinv : forall smp s a s' p r, inv s -> dinv p s -> exec smp s a = Ret (Some s') -> dial_ok smp p s (a :: r) ->
  exists p', dinv p' s' /\ dial_ok smp p' s' r.
Proof.
  intros smp s a s' p r I D E OK. cbn [dial_ok] in OK. rewrite E in OK. assert (E' := E).
  assert (Clean : forall x h, inv x -> cleanup x h = Ret s' -> master x = master s -> loop x = loop s -> dials x = dials s -> isopen x = isopen s -> mclosed x = mclosed s -> dinv p s').
  { intros x h Ix C Q1 Q2 Q3 Q4 Q5. destruct (cleanup_effect _ _ _ Ix C) as (LP & _ & _ & DL & AC & MS & OP & _ & _ & MC & _).
    apply (dframe smp s a s' p I E D); [congruence|intros c X; rewrite <- Q2, <- LP; exact X|congruence|rewrite OP, Q4; auto|rewrite MC, Q5; auto]. }
  assert (Fr : master s' = master s -> (forall c, loop s' = LMaster c -> loop s = LMaster c) -> dials s' = dials s -> (isopen s' = true -> isopen s = true) ->
     (mclosed s' = false -> mclosed s = false) -> dinv p s') by (intros; eapply dframe; eauto).
  destruct a; cbn [exec] in E.
  - destruct (loop s) eqn:L; try discriminate E.
    destruct (dec_pkt b) as [k|] eqn:DP; [|discriminate E]. cbn [gbind] in E. cbn [new_conns] in OK. rewrite DP in OK.
    destruct k as [h q|h role pt addr|h reason|h rest|h st|code q|q|q|];
      try (injection E as <-; exists p; split; [exact D|exact OK]).
    + exists p. split; [|exact OK]. destruct (tab s h) as [c|]; injection E as <-; [|exact D]. apply Fr; auto. intros c' X. discriminate X.
    + injection E as <-. destruct role as [|rp|rn]; cbn [Z.eqb] in *; [|exists p; split; [|exact OK]; apply Fr; auto; intros c X; discriminate X..].
      destruct OK as [-> OK]. exists None. split; [|exact OK]. destruct (d_pend _ _ D _ eq_refl) as [H1 H2].
      assert (NM : master s = []). { destruct (master s) as [|c m] eqn:M; [reflexivity|]. destruct (d_out _ _ D c) as [P _]; [left; rewrite M; now left|discriminate P]. }
      assert (MC : mclosed s = false) by (destruct (mclosed s) eqn:MC; [apply (i_mclosed _ I) in MC; destruct MC; congruence|reflexivity]).
      constructor.
      * intros c [X|X]; cbn in X; [rewrite NM in X; destruct X|]. injection X as <-. split; [reflexivity|].
        exists (mkConn h 0 addr [] false false RxRun). cbn. split; [rewrite nth_error_app2 by lia; now rewrite Nat.sub_diag|]. split; [exact H1|]. intros X. exact (H2 X MC).
      * intros c X. exact NM.
      * discriminate.
      * apply (d_uniq _ _ D).
      * intros x c X. destruct (d_got _ _ D _ _ X) as (k & K & A). exists k. cbn. split; [now apply nth_app_ex|exact A].
    + exists p. split; [|exact OK]. destruct (reason =? 22); [injection E as <-; exact D|].
      destruct (cleanup s h) as [s1|] eqn:C; [|discriminate E]. injection E as <-. apply (Clean s h); auto.
    + exists p. split; [|exact OK]. destruct (tab s h); [|injection E as <-; exact D]. destruct rest as [x|]; [|discriminate E]. cbn [gbind] in E.
      destruct (negb (fst x =? 0) && negb smp); [discriminate E|]. injection E as <-. exact D.
    + exists p. split; [|exact OK]. destruct (tab s h); [|injection E as <-; exact D]. destruct (negb (st =? 0) && negb smp); [discriminate E|]. injection E as <-. exact D.
  - exists p. split; [|exact OK]. destruct (loop s) as [|c q|c|c| |] eqn:L; try discriminate E.
    destruct (nth_error (objs s) c) as [k|] eqn:K; [|discriminate E].
    destruct (k_inclosed k); [discriminate E|]. destruct (Nat.ltb (length (k_in k)) in_cap); [|discriminate E]. injection E as <-. apply Fr; auto. intros c' X. discriminate X.
  - exists p. split; [|exact OK]. destruct (loop s) as [|c q|c|c| |] eqn:L; try discriminate E.
    destruct (mclosed s) eqn:MC; [discriminate E|]. destruct (master s) eqn:M; [|discriminate E]. injection E as <-.
    constructor.
    + intros c' O. assert (c' = c) as -> by (destruct O as [[<-|[]]|X]; [reflexivity|discriminate X]). apply (d_out _ _ D c). now right.
    + intros c' X. discriminate X.
    + intros x X. destruct (d_pend _ _ D _ X) as [H1 H2]. split; [exact H1|]. cbn. intros Y1 Y2. apply H2; [exact Y1|exact Y2].
    + apply (d_uniq _ _ D).
    + apply (d_got _ _ D).
  - exists p. split; [|exact OK]. destruct (loop s) as [|c q|c|c| |] eqn:L; try discriminate E. injection E as <-. apply Fr; auto. intros c' X. discriminate X.
  - exists p. split; [|exact OK]. destruct (loop s) as [|c q|c|c| |] eqn:L; try discriminate E. injection E as <-. apply Fr; auto. intros c' X. discriminate X.
  - exists p. split; [|exact OK]. destruct (nth_error (objs s) c) as [k|] eqn:K; [|discriminate E].
    destruct (k_rx k) eqn:R; try discriminate E. destruct (k_in k) as [|q0 q] eqn:Q; [discriminate E|]. injection E as <-. apply Fr; auto.
  - exists p. split; [|exact OK]. destruct (nth_error (objs s) c) as [k|] eqn:K; [|discriminate E]. destruct (k_rx k) eqn:R; try discriminate E. injection E as <-. apply Fr; auto.
  - exists p. split; [|exact OK]. destruct (nth_error (objs s) c) as [k|] eqn:K; [|discriminate E].
    destruct (k_rx k) eqn:R; try discriminate E. destruct (mlock s); [discriminate E|].
    assert (I1 : inv (set_conn s c (set_rx k RxEnd))) by (eapply conn_inv; eauto; cbn; now apply (i_cap _ I c)).
    destruct (cleanup (set_conn s c (set_rx k RxEnd)) (k_handle k)) as [s1|] eqn:C; [|discriminate E]. injection E as <-. eapply Clean; eauto.
  - exists p. split; [|exact OK]. destruct (nth_error (objs s) c) as [k|] eqn:K; [|discriminate E]. destruct (k_rx k) eqn:R; try discriminate E.
    destruct ((k_inclosed k && Nat.eqb (length (k_in k)) 0) || negb (isopen s))%bool; [|discriminate E]. injection E as <-. apply Fr; auto.
  - exists p. split; [|exact OK]. destruct (Nat.ltb c (length (objs s))); [|discriminate E]. injection E as <-. apply Fr; auto.
  - exists p. split; [|exact OK]. destruct (nth_error (closers s) i) as [[c|c|c|c]|] eqn:N; try discriminate E. destruct (nth_error (objs s) c) as [k|] eqn:K; [|discriminate E]. injection E as <-. apply Fr; auto.
  - exists p. split; [|exact OK]. destruct (nth_error (closers s) i) as [[c|c|c|c]|] eqn:N; try discriminate E. injection E as <-. apply Fr; auto.
  - exists p. split; [|exact OK]. destruct (nth_error (closers s) i) as [[c|c|c|c]|] eqn:N; try discriminate E. destruct (nth_error (objs s) c) as [k|] eqn:K; [|discriminate E].
    destruct (mlock s); [discriminate E|].
    assert (I1 : inv (set_closers s (upd (closers s) i (ClRet c)))) by (apply closers_upd_inv with c; eauto).
    destruct (cleanup (set_closers s (upd (closers s) i (ClRet c))) (k_handle k)) as [s1|] eqn:C; [|discriminate E]. injection E as <-. eapply Clean; eauto.
  - (* ADial *)
    destruct (haserr s || negb (isopen s))%bool eqn:HO; [discriminate E|]. injection E as <-. apply orb_false_iff in HO. destruct HO as [_ HO]. apply negb_false_iff in HO.
    destruct OK as (NA & -> & OK). exists (Some a). split; [|exact OK].
    assert (NA' : forall d, In d (dials s) -> active d = false) by (intros d X; rewrite forallb_forall in NA; specialize (NA d X); now apply negb_true_iff in NA).
    assert (NO : forall c, ~ outstanding s c).
    { intros c O. destruct (d_out _ _ D c O) as (_ & k & K & _ & X). destruct (X HO) as (d & X1 & X2). rewrite (NA' d X1) in X2. discriminate X2. }
    assert (AD : forall d, act_dial (set_dials s (dials s ++ [DWait a])) d -> d = DWait a).
    { intros d [X Y]. cbn in X. apply in_app_or in X. destruct X as [X|[<-|[]]]; [rewrite (NA' d X) in Y; discriminate Y|reflexivity]. }
    constructor.
    + intros c O. destruct (NO c O).
    + apply (d_one _ _ D).
    + intros x X. injection X as <-. split; [intros d Y; now rewrite (AD d Y)|]. intros _ _. exists (DWait a). split; [cbn; apply in_or_app; right; now left|reflexivity].
    + cbn. intros i j d e X Y Ad Ae. apply nth_snoc in X. apply nth_snoc in Y. destruct X as [X|[-> _]]; [rewrite (NA' d (nth_error_In _ _ X)) in Ad; discriminate Ad|].
      destruct Y as [Y|[-> _]]; [rewrite (NA' e (nth_error_In _ _ Y)) in Ae; discriminate Ae|reflexivity].
    + cbn. intros x c X. apply in_app_or in X. destruct X as [X|[X|[]]]; [apply (d_got _ _ D _ _ X)|discriminate X].
  - (* ADialTake *)
    exists p. split; [|exact OK].
    assert (Q : exists d x c m, nth_error (dials s) i = Some d /\ active d = true /\ daddr d = x /\ master s = c :: m /\ s' = set_dials (set_master s m) (upd (dials s) i (DGot x c))).
    { destruct (nth_error (dials s) i) as [[x|x|x|x y|x|x]|] eqn:N; try discriminate E; destruct (master s) as [|c m] eqn:M; try discriminate E; injection E as <-; eexists _, x, c, m; repeat split; reflexivity. }
    destruct Q as (d & x & c & m & N & A & DA & M & ->).
    assert (m = []) as ->. { assert (X := i_master _ I). rewrite M in X. destruct m; [reflexivity|cbn in X; lia]. }
    destruct (d_out _ _ D c) as (P & k & K & H1 & H2); [left; rewrite M; now left|].
    assert (NL : forall c', loop s <> LMaster c') by (intros c' X; assert (Y := d_one _ _ D _ X); congruence).
    assert (AD : forall e, ~ act_dial (set_dials (set_master s []) (upd (dials s) i (DGot x c))) e).
    { intros e [X Y]. cbn in X. apply In_nth_error in X. destruct X as [j X]. apply nth_upd_some in X. destruct X as [[_ ->]|[NE X]]; [discriminate Y|].
      apply NE. eapply (d_uniq _ _ D); eauto. }
    constructor.
    + intros c' [X|X]; [destruct X|destruct (NL c' X)].
    + intros; reflexivity.
    + intros y X. rewrite P in X. discriminate X.
    + cbn. intros a b y z X Y Ay. exfalso. apply (AD y). split; [cbn; eapply nth_error_In; eauto|exact Ay].
    + intros y c' X. cbn in X. apply (in_upd _ _ _ _ _ N) in X. destruct X as [X|X]; [|apply (d_got _ _ D _ _ X)]. injection X as -> ->.
      exists k. split; [exact K|]. rewrite <- DA. symmetry. apply H1. split; [eapply nth_error_In; eauto|exact A].
  - exists p. split; [|exact OK]. destruct (nth_error (dials s) i) as [[x|x|x|x y|x|x]|] eqn:N; try discriminate E; destruct (mclosed s) eqn:MC; destruct (master s) eqn:M; try discriminate E. injection E as <-.
    eapply dreturn; eauto.
    + intros c [X|X]; [rewrite M in X; destruct X|]. apply (i_mclosed _ I) in MC. destruct MC; congruence.
    + intros y _ _ X. congruence.
  - exists p. split; [|exact OK]. destruct (nth_error (dials s) i) as [[x|x|x|x y|x|x]|] eqn:N; try discriminate E. injection E as <-. eapply dmove; eauto.
  - exists p. split; [|exact OK]. destruct (nth_error (dials s) i) as [[x|x|x|x y|x|x]|] eqn:N; try discriminate E. destruct (isopen s) eqn:O; [discriminate E|]. injection E as <-.
    eapply dreturn; eauto; try (destruct (haserr s); reflexivity). intros; congruence.
  - destruct OK as [PN OK]. exists None. split; [|exact OK]. destruct (nth_error (dials s) i) as [[x|x|x|x y|x|x]|] eqn:N; try discriminate E. injection E as <-.
    assert (NO : forall c, ~ outstanding s c) by (intros c X; destruct (d_out _ _ D c X) as [P _]; contradiction).
    assert (D' : dinv None s). { constructor; try apply D; [intros c X; destruct (NO c X)|discriminate]. }
    eapply dreturn; eauto; [intros c X; destruct (NO c X)|discriminate].
  - destruct OK as [-> OK]. exists None. split; [|exact OK]. destruct (nth_error (dials s) i) as [[x|x|x|x y|x|x]|] eqn:N; try discriminate E. injection E as <-. eapply dmove; eauto.
  - destruct OK.
  - destruct OK as (-> & M & NL & OK). exists None. split; [|exact OK]. destruct (nth_error (dials s) i) as [[x|x|x|x y|x|x]|] eqn:N; try discriminate E. injection E as <-.
    eapply dreturn; eauto; [|discriminate]. intros c [X|X]; [rewrite M in X; destruct X|destruct (NL c X)].
  - exists p. split; [|exact OK]. injection E as <-. apply Fr; auto. discriminate.
  - exists p. split; [|exact OK]. injection E as <-. apply Fr; auto.
  - exists p. split; [|exact OK]. destruct (loop s) as [|c q|c|c| |] eqn:L; try discriminate E. injection E as <-. apply Fr; auto; [intros c X; discriminate X|discriminate].
  - exists p. split; [|exact OK]. destruct (loop s) as [|c q|c|c| |] eqn:L; try discriminate E. destruct (mlock s); [discriminate E|].
    destruct (cleanup s h) as [s1|] eqn:C; [|discriminate E]. injection E as <-. eapply Clean; eauto.
  - exists p. split; [|exact OK]. destruct (loop s) as [|c q|c|c| |] eqn:L; try discriminate E. destruct (forallb _ _); [|discriminate E]. injection E as <-. apply Fr; auto. intros c X. discriminate X.
Qed.

Theorem trace_dinv : forall smp l p s s', inv s -> dinv p s -> dial_ok smp p s l -> exec_all smp s l = Ret (Some s') -> exists p', dinv p' s'.
Proof.
  intros smp l. induction l as [|a l IH]; intros p s s' I D OK E; cbn [exec_all] in E; [injection E as <-; eauto|].
  destruct (exec smp s a) as [[s1|]|] eqn:X; try discriminate E. cbn [gbind] in E.
  destruct (step_dinv _ _ _ _ _ _ I D X OK) as (p' & D' & OK'). apply (IH p' s1 s'); eauto using exec_inv.
Qed.
Lemma dinv0 : dinv None host0.
Proof.
  constructor; cbn; try tauto; try discriminate.
  - intros c [X|X]; [destruct X|discriminate X].
  - intros i j d e X. destruct i; discriminate X.
Qed.

(** ---- waits that never end ---- *)
Definition jammed (s : host) (c : nat) (p : bytes) : Prop :=
  loop s = LAcl c p /\ exists k, nth_error (objs s) c = Some k /\ length (k_in k) = in_cap /\ k_rx k = RxClean.
Lemma jammed_step : forall smp s a s' c p, inv s -> jammed s c p -> exec smp s a = Ret (Some s') -> jammed s' c p.
Proof.
  intros smp s a s' c0 p0 I (L & k0 & K0 & F0 & R0) E.
  assert (ML : mlock s = true) by (apply (i_lock _ I); eauto).
  assert (Fr : forall x, x = s' -> loop x = loop s -> nth_error (objs x) c0 = nth_error (objs s) c0 -> jammed s' c0 p0).
  { intros x <- Q1 Q2. split; [congruence|]. exists k0. split; [congruence|auto]. }
  assert (Upd : forall c k k', nth_error (objs s) c = Some k -> k_rx k = RxRun -> set_conn s c k' = s' -> jammed s' c0 p0).
  { intros c k k' K Q <-. eapply Fr; try reflexivity. cbn. apply nth_upd_other. intros ->. congruence. }
  destruct a; cbn [exec] in E; try rewrite L in E; try discriminate E.
  - rewrite K0 in E. destruct (k_inclosed k0); [discriminate E|]. rewrite F0 in E. discriminate E.
  - destruct (nth_error (objs s) c) as [k|] eqn:K; [|discriminate E].
    destruct (k_rx k) eqn:R; try discriminate E. destruct (k_in k) as [|q0 q] eqn:Q; [discriminate E|]. injection E as <-. eapply Upd; eauto.
  - destruct (nth_error (objs s) c) as [k|] eqn:K; [|discriminate E]. destruct (k_rx k) eqn:R; try discriminate E. injection E as <-. eapply Upd; eauto.
  - destruct (nth_error (objs s) c) as [k|] eqn:K; [|discriminate E]. destruct (k_rx k) eqn:R; try discriminate E. rewrite ML in E. discriminate E.
  - destruct (nth_error (objs s) c) as [k|] eqn:K; [|discriminate E]. destruct (k_rx k) eqn:R; try discriminate E.
    destruct ((k_inclosed k && Nat.eqb (length (k_in k)) 0) || negb (isopen s))%bool; [|discriminate E]. injection E as <-. eapply Upd; eauto.
  - destruct (Nat.ltb c (length (objs s))); [|discriminate E]. injection E as <-. eapply Fr; try reflexivity.
  - destruct (nth_error (closers s) i) as [[c|c|c|c]|] eqn:N; try discriminate E. destruct (nth_error (objs s) c) as [k|] eqn:K; [|discriminate E]. injection E as <-. eapply Fr; try reflexivity.
  - destruct (nth_error (closers s) i) as [[c|c|c|c]|] eqn:N; try discriminate E. injection E as <-. eapply Fr; try reflexivity.
  - destruct (nth_error (closers s) i) as [[c|c|c|c]|] eqn:N; try discriminate E. destruct (nth_error (objs s) c) as [k|] eqn:K; [|discriminate E]. rewrite ML in E. discriminate E.
  - destruct (haserr s || negb (isopen s))%bool; [discriminate E|]. injection E as <-. eapply Fr; try reflexivity.
  - destruct (nth_error (dials s) i) as [[x|x|x|x y|x|x]|]; try discriminate E; destruct (master s); try discriminate E; injection E as <-; eapply Fr; try reflexivity.
  - destruct (nth_error (dials s) i) as [[x|x|x|x y|x|x]|]; try discriminate E; destruct (mclosed s && Nat.eqb (length (master s)) 0)%bool; try discriminate E. injection E as <-. eapply Fr; try reflexivity.
  - destruct (nth_error (dials s) i) as [[x|x|x|x y|x|x]|]; try discriminate E. injection E as <-. eapply Fr; try reflexivity.
  - destruct (nth_error (dials s) i) as [[x|x|x|x y|x|x]|]; try discriminate E. destruct (isopen s) eqn:O; [discriminate E|]. injection E as <-. eapply Fr; try reflexivity.
  - destruct (nth_error (dials s) i) as [[x|x|x|x y|x|x]|]; try discriminate E. injection E as <-. eapply Fr; try reflexivity.
  - destruct (nth_error (dials s) i) as [[x|x|x|x y|x|x]|]; try discriminate E. injection E as <-. eapply Fr; try reflexivity.
  - destruct (nth_error (dials s) i) as [[x|x|x|x y|x|x]|]; try discriminate E. injection E as <-. eapply Fr; try reflexivity.
  - destruct (nth_error (dials s) i) as [[x|x|x|x y|x|x]|]; try discriminate E. injection E as <-. eapply Fr; try reflexivity.
  - injection E as <-. eapply Fr; [reflexivity|cbn; congruence|reflexivity].
  - injection E as <-. eapply Fr; [reflexivity|cbn; congruence|reflexivity].
Qed.
Theorem jammed_forever : forall smp l s s' c p, inv s -> jammed s c p -> exec_all smp s l = Ret (Some s') -> jammed s' c p.
Proof.
  intros smp l. induction l as [|a l IH]; intros s s' c p I J E; cbn [exec_all] in E; [injection E as <-; exact J|].
  destruct (exec smp s a) as [[s1|]|] eqn:X; try discriminate E. cbn [gbind] in E. apply (IH s1 s'); eauto using exec_inv, jammed_step.
Qed.

Lemma waiting_step : forall smp s a s' c, inv s -> loop s = LSlave c -> a <> AAccept -> exec smp s a = Ret (Some s') -> loop s' = LSlave c.
Proof.
  intros smp s a s' c I L NA E. destruct (step_hand _ _ _ _ I E) as [Q1 Q2 Q3 Q4 [Q5|[Q5 _]]|h r ad NC Q1 Q2 Q3 Q4 Q5|c' Q1 Q2 Q3 Q4 Q5 Q6|c' Q1 Q2 Q3 Q4 Q5|c' Q1 Q2 Q3 Q4 Q5|c' Q1 Q2 Q3 Q4];
    try (unfold inloop in *; congruence); try (unfold inloop in Q5; rewrite L in Q5; discriminate Q5); try (unfold inloop in Q1; rewrite L in Q1; discriminate Q1).
  exfalso. destruct a; cbn [exec] in E; try rewrite L in E; try discriminate E; try contradiction;
   repeat match type of E with
   | context [match nth_error (objs s) ?c with _ => _ end] => destruct (nth_error (objs s) c) eqn:?
   | context [match nth_error (closers s) ?c with _ => _ end] => destruct (nth_error (closers s) c) as [[]|] eqn:?
   | context [match nth_error (dials s) ?c with _ => _ end] => destruct (nth_error (dials s) c) as [[]|] eqn:?
   | context [match k_rx ?k with _ => _ end] => destruct (k_rx k) eqn:?
   | context [match k_in ?k with _ => _ end] => destruct (k_in k) eqn:?
   | context [match master ?k with _ => _ end] => destruct (master k) eqn:?
   | context [if ?b then _ else _] => destruct b eqn:?
   end; try discriminate E;
   try (injection E as <-; cbn in Q2; congruence);
   match type of E with context [cleanup ?x ?h] => destruct (cleanup x h) as [s1|] eqn:C; [|discriminate E]; injection E as <- end.
  - eapply cleanup_effect in C; [destruct C as (C & _); cbn in C; congruence|]. eapply conn_inv; eauto. cbn. eapply i_cap; eauto.
  - eapply cleanup_effect in C; [destruct C as (C & _); cbn in C; congruence|]. eapply closers_upd_inv; eauto.
Qed.
Theorem waiting_forever : forall smp l s s' c, inv s -> loop s = LSlave c -> ~ In AAccept l -> exec_all smp s l = Ret (Some s') -> loop s' = LSlave c.
Proof.
  intros smp l. induction l as [|a l IH]; intros s s' c I J NA E; cbn [exec_all] in E; [injection E as <-; exact J|].
  destruct (exec smp s a) as [[s1|]|] eqn:X; try discriminate E. cbn [gbind] in E. apply (IH s1 s'); eauto using exec_inv.
  - eapply waiting_step; eauto. intros ->. apply NA. now left.
  - intros Y. apply NA. now right.
Qed.
