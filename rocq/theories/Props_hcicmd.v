(** Property C39: HCI commands are answered by their own completion. *)
Require Import Verif.Base Verif.M_hcicmd Verif.S_hcicmd Verif.P_hcicmd Verif.P_hcicmd2 Verif.P_hcicmd3 Verif.P_hcicmd4.

(** At most one command per opcode is on the wire without having returned to its caller; all vendor commands count as one
    opcode.  Every interleaving of any number of callers, events, time-outs, closing. *)
Theorem C39_one_outstanding_per_opcode : forall l s t1 t2 op1 op2, runs l s ->
  called l t1 op1 -> called l t2 op2 -> written l t1 -> written l t2 -> ~ returned l t1 -> ~ returned l t2 ->
  op1 = op2 \/ (op1 / 1024 = 63 /\ op2 / 1024 = 63) -> t1 = t2.
Proof.
  intros l s t1 t2 op1 op2 R C1 C2 W1 W2 N1 N2 K. assert (H := runs_hist _ _ R). assert (I := runs_inv _ _ R).
  assert (HK : key op1 = key op2).
  { destruct K as [->|[K1 K2]]; [reflexivity|]. unfold key. now rewrite K1, K2. }
  apply (runs_called _ _ R) in C1, C2. rewrite (runs_op _ _ R) in C1, C2.
  destruct (h_written _ _ H _ W1) as (o1 & p1 & T1 & [P1|[X _]]); [|contradiction].
  destruct (h_written _ _ H _ W2) as (o2 & p2 & T2 & [P2|[X _]]); [|contradiction].
  rewrite T1 in C1. rewrite T2 in C2. injection C1 as ->. injection C2 as ->.
  assert (L1 := i_lock _ I _ _ _ T1 ltac:(destruct p1; cbn in *; congruence)).
  assert (L2 := i_lock _ I _ _ _ T2 ltac:(destruct p2; cbn in *; congruence)). congruence.
Qed.
Print Assumptions C39_one_outstanding_per_opcode.

(** What an event completes: the layout of Command Complete (number of commands allowed, opcode, return parameters) and of Command Status
    (status, number of commands allowed, opcode; the status is handed over); opcode 0 completes nothing. *)
Theorem C39_event_meaning : forall n o0 o1 rest st, is_byte n -> is_byte o0 -> is_byte o1 ->
  allowance (AEvt 14 (n :: o0 :: o1 :: rest)) = Some n /\
  completes (AEvt 14 (n :: o0 :: o1 :: rest)) = (if o0 + 256 * o1 =? 0 then None else Some (o0 + 256 * o1, rest)) /\
  allowance (AEvt 15 (st :: n :: o0 :: o1 :: rest)) = Some n /\
  completes (AEvt 15 (st :: n :: o0 :: o1 :: rest)) = Some (o0 + 256 * o1, [st]).
Proof. intros n o0 o1 rest st N A B. cbn [allowance completes]. unfold evt_effect. cbn [Z.eqb Pos.eqb]. unfold cc_num, cc_opcode, cc_params, de16. cbn. unfold is_byte in *. repeat split; try reflexivity. Qed.
Print Assumptions C39_event_meaning.
(** A vendor event completes the vendor command (all vendor commands share one key, 63) with one zero byte, whatever it carries, and gives no allowance;
    a short Command Status and every other event complete nothing and give none. *)
Theorem C39_other_events : forall code b,
  completes (AEvt 255 b) = Some (63, [0]) /\ allowance (AEvt 255 b) = None /\
  ((length b < 4)%nat -> completes (AEvt 15 b) = None /\ allowance (AEvt 15 b) = None) /\
  (code <> 14 -> code <> 15 -> code <> 255 -> completes (AEvt code b) = None /\ allowance (AEvt code b) = None).
Proof.
  intros code b. split; [reflexivity|]. split; [reflexivity|]. split.
  - intro L. destruct b as [|a [|a1 [|a2 [|a3 b]]]]; try (split; reflexivity). cbn [length] in L. lia.
  - intros A B C. cbn [completes allowance]. unfold evt_effect. apply Z.eqb_neq in A, B, C. rewrite A, B, C. split; reflexivity.
Qed.
Print Assumptions C39_other_events.

(** A call that returns return parameters returns those of one Command Complete / Command Status / vendor event that was
    handled during the call and was for its own opcode. *)
Theorem C39_result_is_own_event : forall l s t op b, runs l s -> thr s t = Some (mkT op (PRet (COk b))) ->
  exists l1 c p l2 l3, l = l1 ++ AEvt c p :: l2 ++ ADeliver t :: l3 /\
    completes (AEvt c p) = Some (key op, b) /\ called l1 t op /\ ~ returned l1 t /\ Forall (fun a => ~ is_evt a) l2.
Proof.
  intros l s t op b R Ht. assert (D := runs_dinv _ _ R).
  destruct (d_ok _ _ D _ _ _ _ Ht eq_refl) as (la & lb & -> & l1 & c & p & l2 & -> & F & C & HR).
  exists l1, c, p, l2, lb. split; [now rewrite <- app_assoc|]. split; [exact C|].
  assert (Rp : exists s1, runs l1 s1) by (rewrite <- !app_assoc in R; apply runs_prefix in R; destruct R as (s1 & R1 & _); eauto).
  destruct Rp as [s1 R1].
  assert (X : called l1 t op /\ ~ returned l1 t).
  { (* the call had been recorded, so it exists in l1, with the same opcode *)
    assert (Y : exists o q, thr s1 t = Some (mkT o q) /\ early q = false /\ forall r, q = PRet r -> False).
    { rewrite <- !app_assoc in R. apply runs_prefix in R. destruct R as (s1' & R1' & Ex). unfold runs in R1, R1'. rewrite R1 in R1'. injection R1' as <-.
      apply in_split in HR. destruct HR as (x & y & ->).
      assert (A : forall z w u, exec_all z w = Some u -> forall q o, thr z t = Some (mkT o q) -> early q = false -> exists q', thr u t = Some (mkT o q') /\ early q' = false).
      { clear. intros z w. revert z. induction w as [|a w IH]; intros z u H q o Hz Hq; cbn in H; [injection H as <-; eauto|].
        destruct (exec z a) as [z'|] eqn:E; [|discriminate].
        destruct (actor a) as [t'|] eqn:Ea; [destruct (Nat.eq_dec t' t) as [->|N]|].
        - destruct (exec_own _ _ _ _ E Ea) as [(o' & -> & Hn & _)|(o' & q1 & q2 & H1 & H2 & H3 & _)]; [congruence|].
          rewrite Hz in H1. injection H1 as <- <-. apply (IH _ _ H q2 _ H2).
          destruct a; cbn in H3; try contradiction; try (destruct H3 as [-> ->]; try discriminate; reflexivity).
          + destruct H3 as [-> [->| ->]]; reflexivity.
          + destruct H3 as [-> [? ->]]; reflexivity.
          + destruct H3 as (? & -> & ->); reflexivity.
          + destruct H3 as (? & -> & ->); reflexivity.
        - apply (IH _ _ H q). { rewrite (exec_frame _ _ _ _ E); congruence. } exact Hq.
        - apply (IH _ _ H q). { rewrite (exec_frame _ _ _ _ E); congruence. } exact Hq. }
      assert (B : forall z w u, exec_all z w = Some u -> forall o r, thr z t = Some (mkT o (PRet r)) -> thr u t = Some (mkT o (PRet r)) /\ ~ In (ADeliver t) w).
      { clear. intros z w. revert z. induction w as [|a w IH]; intros z u H o r Hz; cbn in H; [injection H as <-; auto|].
        destruct (exec z a) as [z'|] eqn:E; [|discriminate].
        destruct (actor a) as [t'|] eqn:Ea; [destruct (Nat.eq_dec t' t) as [->|N]|].
        - exfalso. destruct (exec_own _ _ _ _ E Ea) as [(o' & -> & Hn & _)|(o' & q1 & q2 & H1 & H2 & H3 & _)]; [congruence|].
          rewrite Hz in H1. injection H1 as <- <-. destruct a; cbn in H3; try contradiction; destruct H3 as [? H3]; try discriminate; destruct H3; discriminate.
        - destruct (IH _ _ H o r) as [IH1 IH2]; [rewrite (exec_frame _ _ _ _ E); congruence|]. split; [exact IH1|].
          intros [->|X]; [cbn in Ea; congruence|contradiction].
        - destruct (IH _ _ H o r) as [IH1 IH2]; [rewrite (exec_frame _ _ _ _ E); congruence|]. split; [exact IH1|].
          intros [->|X]; [discriminate|contradiction]. }
      unfold runs in R1. rewrite exec_all_app in R1. destruct (exec_all hinit x) as [sx|] eqn:Hx; [|discriminate]. cbn in R1.
      destruct (thr sx t) as [[o []]|] eqn:Et; try discriminate.
      destruct (A _ _ _ R1 PReg o) as (q' & Hq1 & Hq2); [cbn; apply setn_eq|reflexivity|].
      exists o, q'. split; [exact Hq1|]. split; [exact Hq2|]. intros r ->.
      destruct (B _ _ _ Ex _ _ Hq1) as [_ X]. apply X. right. apply in_or_app. right. left. reflexivity. }
    destruct Y as (o & q & Hs1 & Hq & Hnr).
    assert (o = op).
    { assert (O1 := runs_op _ _ R1 t). rewrite Hs1 in O1. assert (O2 := runs_op _ _ R t). rewrite Ht in O2.
      rewrite <- !app_assoc in O2. rewrite op_of_app, O1 in O2. cbn in O2. congruence. }
    subst o. split.
    - apply (runs_called _ _ R1). rewrite (runs_op _ _ R1), Hs1. reflexivity.
    - intro X. destruct (h_ret _ _ (runs_hist _ _ R1) _ X) as (o & r & Y). rewrite Hs1 in Y. injection Y as <- ->. now apply (Hnr r). }
  destruct X as [X1 X2]. repeat split; auto. revert F. apply Forall_impl. tauto.
Qed.
Print Assumptions C39_result_is_own_event.

(** One event is handed to at most one call, and one call is handed at most one event. *)
Theorem C39_event_to_one_call : forall l1 t l2 t' l3 s, runs (l1 ++ ADeliver t :: l2 ++ ADeliver t' :: l3) s ->
  t <> t' /\ exists a, In a l2 /\ is_evt a.
Proof.
  intros l1 t l2 t' l3 s R. split.
  - intros <-. assert (R2 : exists s2, runs ((l1 ++ ADeliver t :: l2) ++ [ADeliver t]) s2).
    { replace (l1 ++ ADeliver t :: l2 ++ ADeliver t :: l3) with (((l1 ++ ADeliver t :: l2) ++ [ADeliver t]) ++ l3) in R by (rewrite <- !app_assoc; reflexivity).
      apply runs_prefix in R. destruct R as (s2 & R2 & _). eauto. }
    destruct R2 as [s2 R2]. apply runs_snoc in R2. destruct R2 as (s1 & R1 & E).
    destruct (h_deliv _ _ (runs_hist _ _ R1) t) as (o & p & Hp1 & Hp2); [apply in_or_app; right; left; reflexivity|].
    destruct (exec_own _ _ _ t E eq_refl) as [(x & X & _)|(x & q & q' & H1 & _ & H3 & _)]; [discriminate|].
    cbn in H3. destruct H3 as [-> _]. rewrite Hp1 in H1. injection H1 as -> ->. discriminate.
  - replace (l1 ++ ADeliver t :: l2 ++ ADeliver t' :: l3) with (((l1 ++ [ADeliver t]) ++ l2) ++ (ADeliver t' :: l3)) in R by (rewrite <- !app_assoc; reflexivity).
    unfold runs in R. rewrite exec_all_app in R. destruct (exec_all hinit ((l1 ++ [ADeliver t]) ++ l2)) as [s2|] eqn:E2; [|discriminate].
    rewrite exec_all_app in E2. destruct (exec_all hinit (l1 ++ [ADeliver t])) as [s1|] eqn:E1; [|discriminate].
    assert (I1 : lp s1 = LIdle).
    { rewrite exec_all_app in E1. destruct (exec_all hinit l1) as [s0|]; [|discriminate]. cbn in E1.
      destruct (thr s0 t) as [[o []]|]; try discriminate. destruct (lp s0); try discriminate. destruct (Nat.eqb _ _); [|discriminate]. injection E1 as <-. reflexivity. }
    assert (G : exists b, lp s2 = LGive t' b).
    { cbn in R. destruct (thr s2 t') as [[o []]|]; try discriminate. destruct (lp s2) as [|t1 b|]; try discriminate.
      destruct (Nat.eqb_spec t1 t') as [->|]; [eauto|discriminate]. }
    clear R E1. revert s1 E2 I1. induction l2 as [|a l2 IH]; intros s1 E2 I1; cbn in E2.
    + injection E2 as ->. destruct G as [b G]. congruence.
    + destruct (exec s1 a) as [s1'|] eqn:E; [|discriminate].
      destruct a; try (exists (AEvt code b); split; [left; reflexivity|exact I]).
      all: assert (D : lp s1' = LIdle \/ lp s1' = LStopped) by (exec_inv E; subst s1'; cbn [lp]; auto; congruence).
      all: destruct D as [D|D]; [destruct (IH _ E2 D) as (a & Ha & He); exists a; split; [right; exact Ha|exact He]|].
      all: exfalso; destruct G as [b0 G]; revert E2 G D; clear; revert s1'.
      all: induction l2 as [|a l2 IH]; intros s1' E2 G D; cbn in E2; [congruence|].
      all: destruct (exec s1' a) as [s3|] eqn:E; [|discriminate]; refine (IH _ E2 G _).
      all: destruct a; exec_inv E; subst s3; cbn [lp]; congruence.
Qed.
Print Assumptions C39_event_to_one_call.

(** With a well-behaved controller and no time-outs: every completion is handed to a call that was written before it and was
    the only unanswered one with that opcode; so each command gets the completion of its own command, none is lost. *)
Theorem C39_completion_to_its_sender : forall l c p s op b, honest (l ++ [AEvt c p]) -> runs (l ++ [AEvt c p]) s ->
  completes (AEvt c p) = Some (op, b) ->
  exists t, lp s = LGive t b /\ called l t op /\ written l t /\ ~ In (ADeliver t) l /\
            (forall t', called l t' op -> written l t' -> t' <> t -> In (ADeliver t') l) /\
            exists s', exec s (ADeliver t) = Some s'.
Proof.
  intros l c p s op b Hh R C. apply runs_snoc in R. destruct R as (s0 & R & E).
  assert (G := runs_good _ _ R (honest_prefix _ _ Hh)). assert (I := runs_inv _ _ R). assert (H := runs_hist _ _ R).
  assert (Hc := proj1 Hh l (AEvt c p) [] op b eq_refl C).
  destruct (g_count _ _ G op) as [[[t [Ht Hl]] Hn]|[_ Hn]]; [|lia].
  assert (Hs := g_sent _ _ G _ _ _ Ht eq_refl).
  exists t. cbn in C. unfold exec in E. destruct (lp s0) eqn:El; try discriminate. destruct (evt_effect c p) as [n e]. cbn in C. subst e. rewrite Hs in E. injection E as <-.
  split; [reflexivity|]. split; [apply (runs_called _ _ R); rewrite (runs_op _ _ R), Ht; reflexivity|].
  split; [exact (h_wrote _ _ H _ _ _ Ht eq_refl)|].
  split; [intro X; destruct (h_deliv _ _ H _ X) as (o & q & Y & Z); rewrite Ht in Y; injection Y as <- <-; discriminate|].
  split; [|cbn; rewrite Ht, Nat.eqb_refl; eauto].
  intros t' Hc' Hw' N. apply (runs_called _ _ R) in Hc'. rewrite (runs_op _ _ R) in Hc'.
  destruct (h_written _ _ H _ Hw') as (o & q & Hq1 & Hq2). rewrite Hq1 in Hc'. injection Hc' as ->.
  destruct q; try (destruct Hq2 as [X|[_ [r X]]]; discriminate).
  - exfalso. apply N. assert (L1 := i_lock _ I _ _ _ Ht eq_refl). assert (L2 := i_lock _ I _ _ _ Hq1 eq_refl). congruence.
  - exact (g_unans _ _ G _ _ _ Hq1 ltac:(discriminate) Hw').
  - exact (g_unans _ _ G _ _ _ Hq1 ltac:(discriminate) Hw').
  - exact (g_unans _ _ G _ _ _ Hq1 ltac:(discriminate) Hw').
Qed.
Print Assumptions C39_completion_to_its_sender.

(** Flow control, what holds: commands written never exceed the first one plus everything the controller granted (each grant
    counting at most 16); with a controller that grants at most one at a time, at most one more than the events it sent. *)
Definition grant (a : act) : nat := match allowance a with Some n => Nat.min (Z.to_nat n) 16 | None => 0 end.
Definition nwrites (l : list act) : nat := length (filter (fun a => match a with AWrite _ _ => true | _ => false end) l).
Definition nbufs (l : list act) : nat := length (filter (fun a => match a with AGetBuf _ => true | _ => false end) l).
Lemma bufs_bound : forall l s, runs l s -> (bufs s + nbufs l <= 1 + list_sum (map grant l))%nat.
Proof.
  apply runs_ind; [cbn; lia|]. intros l s a s' _ IH E. unfold nbufs in *. rewrite filter_app, app_length, map_app, list_sum_app.
  assert (D : (bufs s' + length (filter (fun a => match a with AGetBuf _ => true | _ => false end) [a]) <= bufs s + grant a)%nat).
  { destruct a; try (exec_inv E; subst s'; cbn; lia).
    unfold exec in E. destruct (lp s); try discriminate. unfold grant, allowance. destruct (evt_effect code b) as [n e]. injection E as <-.
    cbn. destruct n as [n|]; unfold allow; lia. }
  cbn [map list_sum fold_right] in *. unfold list_sum in *. cbn [fold_right]. lia.
Qed.
Lemma writes_bufs : forall l s, runs l s -> forall ts, NoDup ts -> Forall (fun t => exists op p, thr s t = Some (mkT op p) /\ (p = PBuf \/ p = PReg)) ts ->
  (nwrites l + length ts <= nbufs l)%nat.
Proof.
  apply (runs_ind (fun l s => forall ts, NoDup ts -> Forall (fun t => exists op p, thr s t = Some (mkT op p) /\ (p = PBuf \/ p = PReg)) ts -> (nwrites l + length ts <= nbufs l)%nat)).
  - intros ts _ F. destruct ts as [|t ts]; [cbn; lia|]. apply Forall_cons_iff in F. destruct F as [(o & p & X & _) _]. discriminate.
  - intros l s a s' _ IH E ts ND F.
    unfold nwrites, nbufs in *. rewrite !filter_app, !app_length.
    (* threads other than the actor are unchanged *)
    assert (FR : forall us, (forall t, In t us -> actor a <> Some t) -> Forall (fun t => exists op p, thr s' t = Some (mkT op p) /\ (p = PBuf \/ p = PReg)) us ->
       Forall (fun t => exists op p, thr s t = Some (mkT op p) /\ (p = PBuf \/ p = PReg)) us).
    { intros us Hu. rewrite !Forall_forall. intros G t Ht. rewrite <- (exec_frame _ _ _ _ E (Hu t Ht)). auto. }
    destruct (actor a) as [t0|] eqn:Ea.
    + destruct (in_dec Nat.eq_dec t0 ts) as [Hin|Hout].
      * destruct (in_split _ _ Hin) as (u & v & ->). assert (ND' := ND). apply NoDup_remove in ND'. destruct ND' as [ND1 ND2].
        assert (Fo : Forall (fun t => exists op p, thr s t = Some (mkT op p) /\ (p = PBuf \/ p = PReg)) (u ++ v)).
        { apply FR; [intros t Ht; intros [= ->]; contradiction|]. apply Forall_app in F. destruct F as [F1 F2]. apply Forall_cons_iff in F2. apply Forall_app. tauto. }
        rewrite Forall_forall in F. destruct (F t0 Hin) as (o & p & Ht0 & Hp).
        destruct (exec_own _ _ _ _ E Ea) as [(x & -> & Hn & [Hs|Hs])|(x & q & q' & H1 & H2 & H3 & _)].
        -- rewrite Ht0 in Hs. injection Hs as -> ->. intuition discriminate.
        -- rewrite Ht0 in Hs. injection Hs as -> ->. intuition discriminate.
        -- rewrite Ht0 in H2. injection H2 as <- <-.
           destruct a; cbn in H3; try contradiction; try (destruct H3 as [-> ->]; intuition discriminate).
           ++ specialize (IH _ ND1 Fo). rewrite app_length in *. cbn [length filter] in *. lia.
           ++ assert (Fo2 : Forall (fun t => exists op p, thr s t = Some (mkT op p) /\ (p = PBuf \/ p = PReg)) (t0 :: u ++ v)).
              { constructor; [|exact Fo]. destruct H3 as [-> _]. eauto. }
              specialize (IH (t0 :: u ++ v) ltac:(constructor; assumption) Fo2). rewrite app_length in *. cbn [length filter] in *. rewrite app_length in IH. lia.
           ++ destruct H3 as [-> [->| ->]]; intuition discriminate.
           ++ destruct H3 as [-> [? ->]]; intuition discriminate.
           ++ destruct H3 as (? & -> & ->); intuition discriminate.
           ++ destruct H3 as (? & -> & ->); intuition discriminate.
      * assert (Fo := FR ts ltac:(intros t Ht; intros [= ->]; contradiction) F).
        destruct a; try (specialize (IH _ ND Fo); cbn [length filter]; lia).
        cbn in Ea. injection Ea as ->. destruct (exec_own _ _ _ t0 E eq_refl) as [(x & X & _)|(x & q & q' & H1 & H2 & H3 & _)]; [discriminate|].
        destruct H3 as [-> ->]. specialize (IH (t0 :: ts) ltac:(constructor; assumption)). cbn [length filter] in *.
        assert (length (filter (fun a => match a with AWrite _ _ => true | _ => false end) l) + S (length ts) <= length (filter (fun a => match a with AGetBuf _ => true | _ => false end) l))%nat.
        { apply IH. constructor; [eauto|exact Fo]. }
        lia.
    + assert (Fo := FR ts ltac:(intros; discriminate) F). specialize (IH _ ND Fo). destruct a; try discriminate; cbn [length filter]; lia.
Qed.
Theorem C39_commands_within_grants : forall l s, runs l s -> (nwrites l <= 1 + list_sum (map grant l))%nat.
Proof.
  intros l s R. assert (B := bufs_bound _ _ R). assert (W := writes_bufs _ _ R [] (NoDup_nil _) (Forall_nil _)). cbn [length] in W. lia.
Qed.
Print Assumptions C39_commands_within_grants.
Theorem C39_single_credit : forall l s, runs l s -> (forall a n, In a l -> allowance a = Some n -> n <= 1) ->
  (nwrites l <= 1 + length (filter (fun a => match allowance a with Some _ => true | None => false end) l))%nat.
Proof.
  intros l s R H. assert (C := C39_commands_within_grants _ _ R).
  enough (list_sum (map grant l) <= length (filter (fun a => match allowance a with Some _ => true | None => false end) l))%nat by lia.
  clear - H. induction l as [|a l IH]; [cbn; lia|]. cbn [map filter]. unfold list_sum in *. cbn [fold_right].
  specialize (IH (fun a0 n Ha => H a0 n (or_intror Ha))).
  assert (Ha : forall n, allowance a = Some n -> n <= 1) by (intros n; apply H; left; reflexivity).
  unfold grant at 1. destruct (allowance a) as [n|]; [specialize (Ha n eq_refl); cbn [length]; lia|lia].
Qed.
Print Assumptions C39_single_credit.

(** What does not hold: the controller's flow control is violated, (a) when an allowance arrives while a caller holds a buffer
    it has not used yet (a NOP event at start-up is enough), (b) when the controller lowers the allowance to zero. *)
Definition opA : Z := 8205. (* LE Create Connection *)
Definition opB : Z := 8206.
Definition nop (n : Z) : act := AEvt 14 [n; 0; 0].
Theorem C97_flow_control_refuted :
  (exists l s, runs l s /\ ~ credit_ok 1 l /\ (forall a n, In a l -> allowance a = Some n -> n <= 1)) /\
  (exists l s, runs l s /\ ~ credit_ok 1 l /\ nwrites l = 1%nat).
Proof.
  split.
  - set (l := [ASpawn 0 opA; ALock 0; AGetBuf 0; nop 1; ASpawn 1 opB; ALock 1; AGetBuf 1; AReg 0; AReg 1; AWrite 0 true; AWrite 1 true]).
    assert (X : exists s, exec_all hinit l = Some s) by (vm_compute; eauto). destruct X as [s X]. exists l, s.
    split; [exact X|]. split; [cbn; lia|].
    assert (F : Forall (fun a => match allowance a with Some n => n <= 1 | None => True end) l) by (clear; unfold l; repeat (apply Forall_cons; [cbn; try exact I; lia|]); constructor).
    rewrite Forall_forall in F. intros a n Ha Hn. specialize (F a Ha). rewrite Hn in F. exact F.
  - set (l := [nop 0; ASpawn 0 opA; ALock 0; AGetBuf 0; AReg 0; AWrite 0 true]).
    assert (X : exists s, exec_all hinit l = Some s) by (vm_compute; eauto). destruct X as [s X]. exists l, s.
    split; [exact X|]. split; [cbn; lia|reflexivity].
Qed.
Print Assumptions C97_flow_control_refuted.

(** A completion that comes after its sender timed out is handed to the next sender of that opcode. *)
Theorem C97_late_completion_misdelivered_refuted : exists l s, runs l s /\
  called l 0 opA /\ called l 1 opA /\
  l = [ASpawn 0 opA; ALock 0; AGetBuf 0; AReg 0; AWrite 0 true; ATimeout 0; ADelete 0; AUnlock 0; nop 1;
       ASpawn 1 opA; ALock 1; AGetBuf 1; AReg 1; AEvt 14 [1; 13; 32; 0]; AWrite 1 true; ADeliver 1; ADelete 1; AUnlock 1] /\
  thr s 1%nat = Some (mkT opA (PRet (COk [0]))).
Proof.
  set (l := [ASpawn 0 opA; ALock 0; AGetBuf 0; AReg 0; AWrite 0 true; ATimeout 0; ADelete 0; AUnlock 0; nop 1;
       ASpawn 1 opA; ALock 1; AGetBuf 1; AReg 1; AEvt 14 [1; 13; 32; 0]; AWrite 1 true; ADeliver 1; ADelete 1; AUnlock 1]).
  assert (X : exists s, exec_all hinit l = Some s /\ thr s 1%nat = Some (mkT opA (PRet (COk [0])))) by (vm_compute; eauto). destruct X as (s & X & Y).
  exists l, s. split; [exact X|]. split; [cbn; auto|]. split; [cbn; auto 20|]. auto.
Qed.
Print Assumptions C97_late_completion_misdelivered_refuted.

(** A sender that times out just after the event handler found its entry leaves the event handler blocked: no further event is
    ever handled, unless the device is closed. *)
Theorem C97_timeout_wedges_event_loop_refuted : exists l s, runs l s /\ closed s = false /\ returned l 0 /\
  forall l' s', exec_all s l' = Some s' -> ~ In AClose l' -> Forall (fun a => ~ is_evt a) l' /\ lp s' = lp s.
Proof.
  set (l := [ASpawn 0 opA; ALock 0; AGetBuf 0; AReg 0; AWrite 0 true; AEvt 14 [1; 13; 32; 0]; ATimeout 0; ADelete 0; AUnlock 0]).
  assert (X : exists s, exec_all hinit l = Some s /\ closed s = false /\ lp s = LGive 0 [0] /\ thr s 0%nat = Some (mkT opA (PRet CErr))) by (vm_compute; eauto 6).
  destruct X as (s & X & Hc & Hl & Ht). exists l, s. split; [exact X|]. split; [exact Hc|]. split; [left; cbn; auto 20|]. clear X.
  rewrite Hl. intro l'. revert s Hc Hl Ht. induction l' as [|a l' IH]; intros s Hc Hl Ht s' E N; cbn in E; [injection E as <-; auto|].
  destruct (exec s a) as [s1|] eqn:E1; [|discriminate].
  assert (Na : a <> AClose) by (intros ->; apply N; left; reflexivity).
  assert (K : closed s1 = false /\ lp s1 = LGive 0 [0] /\ thr s1 0%nat = Some (mkT opA (PRet CErr)) /\ ~ is_evt a).
  { assert (T : thr s1 0%nat = Some (mkT opA (PRet CErr))).
    { destruct (actor a) as [t'|] eqn:Ea; [destruct (Nat.eq_dec t' 0) as [->|Nt]|]; try (rewrite (exec_frame _ _ _ _ E1); congruence).
      destruct (exec_own _ _ _ _ E1 Ea) as [(o' & -> & Hn & _)|(o' & q1 & q2 & H1 & H2 & H3 & _)]; [congruence|].
      rewrite Ht in H1. injection H1 as <- <-. exfalso. destruct a; cbn in H3; try contradiction; destruct H3 as [? H3]; try discriminate; destruct H3; discriminate. }
    destruct a; try congruence; try (exec_inv E1; subst s1; cbn [closed lp] in *; repeat split; auto; try congruence; fail).
    exfalso. cbn in E1. destruct (thr s t) as [[o []]|] eqn:Et; try discriminate. rewrite Hl in E1. destruct (Nat.eqb_spec 0 t) as [<-|]; [congruence|discriminate]. }
  destruct K as (K1 & K2 & K3 & K4). destruct (IH _ K1 K2 K3 _ E ltac:(intro X; apply N; right; exact X)) as [IH1 IH2]. split; [constructor; assumption|exact IH2].
Qed.
Print Assumptions C97_timeout_wedges_event_loop_refuted.

(** Closing the device makes a waiting call return without an error although no completion was ever received. *)
Theorem C97_close_reports_success_refuted : exists l s, runs l s /\ Forall (fun a => ~ is_evt a) l /\
  thr s 0%nat = Some (mkT opA (PRet CNil)).
Proof.
  set (l := [ASpawn 0 opA; ALock 0; AGetBuf 0; AReg 0; AWrite 0 true; AClose; ASeeDone 0; ADelete 0; AUnlock 0]).
  assert (X : exists s, exec_all hinit l = Some s /\ thr s 0%nat = Some (mkT opA (PRet CNil))) by (vm_compute; eauto 6).
  destruct X as (s & X & Y). exists l, s. split; [exact X|]. split; [|exact Y]. repeat constructor; cbn; tauto.
Qed.
Print Assumptions C97_close_reports_success_refuted.

(** A vendor specific command completed with an ordinary Command Complete or Command Status event (its opcode) is never handed the event. *)
Theorem C97_vendor_command_complete_ignored_refuted : forall l s c p op b s', runs l s -> completes (AEvt c p) = Some (op, b) -> op / 1024 = 63 ->
  exec s (AEvt c p) = Some s' -> lp s' = LIdle.
Proof.
  intros l s c p op b s' R C K E. cbn in C. unfold exec in E. destruct (lp s); try discriminate. destruct (evt_effect c p) as [n e].
  cbn in C. subst e. injection E as <-. cbn [lp]. destruct (snt s op) as [t|] eqn:Es; [|reflexivity].
  destruct (i_sent _ (runs_inv _ _ R) _ _ Es) as (o & q & _ & Ho & _). exfalso. unfold key in Ho. destruct (o / 1024 =? 63) eqn:X; [subst op; discriminate|].
  apply Z.eqb_neq in X. congruence.
Qed.
Print Assumptions C97_vendor_command_complete_ignored_refuted.

(** A call that waits when the device is closed is told an error exactly when the last of these was a failed write to, or a failed read of, the socket: the end of
    the process loop forgets the error (that it may be told nothing at all is C97_close_reports_success_refuted). *)
Definition err_after (l : list act) : bool :=
  fold_left (fun e a => match a with AWrite _ false | AReadErr => true | AStop => false | _ => e end) l false.
Lemma runs_failed : forall l s, runs l s -> failed s = err_after l.
Proof.
  apply runs_ind; [reflexivity|]. intros l s a s' R IH E. unfold err_after in *. rewrite fold_left_app. cbn [fold_left]. rewrite <- IH.
  destruct a; try (exec_inv E; subst s'; reflexivity).
  - exec_inv E; subst s'. cbn [failed]. destruct ok; cbn; [now rewrite orb_false_r|now rewrite orb_true_r].
Qed.
Lemma runs_closed : forall l s, runs l s -> closed s = true -> In AClose l.
Proof.
  apply (runs_ind (fun l s => closed s = true -> In AClose l)); [discriminate|]. intros l s a s' R IH E C. apply in_or_app.
  destruct a; try (right; now left); left; apply IH; exec_inv E; subst s'; exact C.
Qed.
Theorem C39_result_when_closed : forall l s t s', runs l s -> exec s (ASeeDone t) = Some s' ->
  In AClose l /\ exists op, thr s t = Some (mkT op PWait) /\ thr s' t = Some (mkT op (PEnd (if err_after l then CErr else CNil))).
Proof.
  intros l s t s' R E. rewrite <- (runs_failed _ _ R). cbn [exec] in E. destruct (thr s t) as [[op []]|] eqn:Et; try discriminate. destruct (closed s) eqn:C; [|discriminate]. injection E as <-. split.
  - exact (runs_closed _ _ R C).
  - exists op. split; [reflexivity|]. cbn [thr]. apply setn_eq.
Qed.
Print Assumptions C39_result_when_closed.
(** a call made while the device is in that state fails at once *)
Theorem C39_call_after_error : forall l s t op s', runs l s -> exec s (ASpawn t op) = Some s' -> thr s' t = Some (mkT op (if err_after l then PRet CErr else PStart)).
Proof. intros l s t op s' R E. rewrite <- (runs_failed _ _ R). cbn [exec] in E. destruct (thr s t); [discriminate|]. injection E as <-. cbn [thr]. apply setn_eq. Qed.
Print Assumptions C39_call_after_error.
Example C39_result_when_closed_example : exists s s', runs [ASpawn 0 opA; ALock 0; AGetBuf 0; AReg 0; AWrite 0 true; AReadErr; AClose] s /\ exec s (ASeeDone 0) = Some s' /\ thr s' 0%nat = Some (mkT opA (PEnd CErr)).
Proof. do 2 eexists. split; [vm_compute; reflexivity|]. split; reflexivity. Qed.
(** A Command Complete event too short for its opcode completes no call; an empty one allows no command. *)
Theorem C39_truncated : forall l s b s', runs l s -> (length b < 3)%nat -> exec s (AEvt 14 b) = Some s' -> lp s' = LIdle /\ thr s' = thr s /\ snt s' = snt s /\ (b = [] -> bufs s' = bufs s).
Proof.
  intros l s b s' R L E. assert (C : completes (AEvt 14 b) = Some (65535, skipn 3 b)) by (destruct b as [|? [|? [|? ?]]]; cbn [length] in L; try lia; reflexivity).
  split; [exact (C97_vendor_command_complete_ignored_refuted _ _ _ _ _ _ _ R C eq_refl E)|]. cbn [exec] in E. destruct (lp s); try discriminate. destruct (evt_effect 14 b) as [n c] eqn:F. injection E as <-. split; [reflexivity|]. split; [reflexivity|].
  intros ->. cbn in F. injection F as <- _. cbn [bufs]. unfold allow. cbn. lia.
Qed.
Print Assumptions C39_truncated.
(** No caller is stuck: whoever has not returned can take a step of its own (a time-out if nothing else), or waits for the
    opcode lock whose holder can; and no call takes more than nine steps. *)
Definition can_move (s : hst) (t : nat) : Prop := exists a s', actor a = Some t /\ exec s a = Some s'.
Theorem C39_no_call_stuck : forall l s t op, runs l s -> called l t op ->
  (exists r, thr s t = Some (mkT op (PRet r))) \/ can_move s t \/
  (exists t', lck s (key op) = Some t' /\ can_move s t').
Proof.
  intros l s t op R C. assert (I := runs_inv _ _ R). apply (runs_called _ _ R) in C. rewrite (runs_op _ _ R) in C.
  assert (M : forall t op p, thr s t = Some (mkT op p) -> holds p = true -> can_move s t).
  { intros t0 o p Ht Hp. unfold can_move. destruct p; try discriminate.
    - exists (ANoBuf t0). cbn. rewrite Ht. eauto.
    - exists (AReg t0). cbn. rewrite Ht. eauto.
    - destruct (closed s) eqn:Ec; [exists (AShut t0)|exists (AWrite t0 true)]; cbn; rewrite Ht, Ec; eauto.
    - exists (ATimeout t0). cbn. rewrite Ht. eauto.
    - exists (ADelete t0). cbn. rewrite Ht. eauto.
    - exists (AUnlock t0). cbn. rewrite Ht. eauto. }
  destruct (thr s t) as [[o p]|] eqn:Et; [|discriminate]. injection C as ->.
  destruct (holds p) eqn:Hp; [right; left; eapply M; eauto|].
  destruct p; try discriminate; [|eauto].
  destruct (lck s (key op)) as [t'|] eqn:El.
  - right. right. exists t'. split; [reflexivity|]. destruct (i_holder _ I _ _ El) as (o & q & H1 & H2 & _). eapply M; eauto.
  - right. left. exists (ALock t). cbn. rewrite Et, El. eauto.
Qed.
Print Assumptions C39_no_call_stuck.
(** An event that completes the opcode of a waiting call is for that call: handing it over is possible at once, gives the call its data, and the loop goes on.
    A call with a vendor opcode (all of them 0xFC00 to 0xFFFF) gets a zero byte for a vendor event. *)
Theorem C39_event_reaches_its_call : forall l s t op c p d s1, runs l s -> thr s t = Some (mkT op PWait) -> exec s (AEvt c p) = Some s1 ->
  (op / 1024 <> 63 /\ completes (AEvt c p) = Some (op, d)) \/ (op / 1024 = 63 /\ c = 255 /\ d = [0]) ->
  exists s2, exec s1 (ADeliver t) = Some s2 /\ thr s2 t = Some (mkT op (PEnd (COk d))) /\ lp s2 = LIdle.
Proof.
  intros l s t op c p d s1 R T E H. apply (event_reaches l s t op c p d s1 R T); [|exact E]. destruct H as [[V C]|(V & -> & ->)]; unfold key.
  - apply Z.eqb_neq in V. now rewrite V.
  - rewrite V. reflexivity.
Qed.
Print Assumptions C39_event_reaches_its_call.
(** An event with an allowance of n leaves at least n command buffers free (16 for more), and never takes one away; other events change nothing. *)
Theorem C39_allowance_used : forall s c p s1, exec s (AEvt c p) = Some s1 ->
  match allowance (AEvt c p) with
  | Some n => (Nat.min (Z.to_nat n) 16 <= bufs s1)%nat /\ (bufs s <= bufs s1)%nat /\ (bufs s1 = bufs s \/ bufs s1 = Nat.min (Z.to_nat n) 16)
  | None => bufs s1 = bufs s
  end.
Proof.
  intros s c p s1 E. cbn [exec allowance] in *. destruct (lp s); try discriminate E. destruct (evt_effect c p) as [n k]. injection E as <-. cbn [fst bufs]. destruct n as [n|]; [|reflexivity]. unfold allow. lia.
Qed.
Print Assumptions C39_allowance_used.
(** Both happen: a vendor command, its event. *)
Example C39_vendor_example : exists s s1, runs [ASpawn 0 64513; ALock 0; AGetBuf 0; AReg 0; AWrite 0 true] s /\ thr s 0%nat = Some (mkT 64513 PWait) /\ exec s (AEvt 255 [1]) = Some s1 /\ 64513 / 1024 = 63.
Proof. eexists. eexists. split; [vm_compute; reflexivity|]. split; [reflexivity|]. split; reflexivity. Qed.

Definition rank (p : phase) : nat :=
  match p with PStart => 1 | PLocked => 2 | PBuf => 3 | PReg => 4 | PWait => 5 | PEnd _ => 6 | PDel _ => 7 | PRet _ => 8 end.
Theorem C39_calls_take_few_steps : forall l s t, runs l s ->
  (length (filter (fun a => match actor a with Some t' => Nat.eqb t' t | None => false end) l) <= 8)%nat.
Proof.
  intros l s t R.
  enough (X : (length (filter (fun a => match actor a with Some t' => Nat.eqb t' t | None => false end) l) <=
     match thr s t with Some (mkT _ p) => rank p | None => 0 end)%nat).
  { destruct (thr s t) as [[o p]|]; [destruct p; cbn in X; lia|lia]. }
  revert l s R. apply runs_ind; [cbn; lia|]. intros l s a s' R IH E. rewrite filter_app, app_length. cbn [filter].
  destruct (actor a) as [t'|] eqn:Ea; [destruct (Nat.eqb_spec t' t) as [->|N]|].
  - cbn [length]. destruct (exec_own _ _ _ _ E Ea) as [(o & -> & Hn & [Hs|Hs])|(o & q & q' & H1 & H2 & H3 & _)].
    + rewrite Hn in IH. rewrite Hs. cbn. lia.
    + rewrite Hn in IH. rewrite Hs. cbn. lia.
    + rewrite H1 in IH. rewrite H2. destruct a; cbn in H3; try contradiction; try (destruct H3 as [-> ->]; cbn in *; lia).
      * destruct H3 as [-> [->| ->]]; cbn in *; lia.
      * destruct H3 as [-> [? ->]]; cbn in *; lia.
      * destruct H3 as (? & -> & ->); cbn in *; lia.
      * destruct H3 as (? & -> & ->); cbn in *; lia.
  - rewrite (exec_frame _ _ _ _ E) by congruence. cbn [length]. lia.
  - rewrite (exec_frame _ _ _ _ E) by congruence. cbn [length]. lia.
Qed.
Print Assumptions C39_calls_take_few_steps.

Fixpoint hon (pre l : list act) : bool :=
  match l with
  | [] => true
  | a :: r => (match completes a with Some (op, _) => Nat.ltb (completions op pre) (writes op pre) | None => true end && hon (pre ++ [a]) r)%bool
  end.
Lemma hon_ok : forall l pre, hon pre l = true -> forall l1 a l2 op d, l = l1 ++ a :: l2 -> completes a = Some (op, d) ->
  (completions op (pre ++ l1) < writes op (pre ++ l1))%nat.
Proof.
  induction l as [|x l IH]; intros pre H l1 a l2 op d E C; [destruct l1; discriminate|].
  cbn [hon] in H. apply andb_true_iff in H. destruct H as [H1 H2]. destruct l1 as [|y l1].
  - injection E as -> ->. rewrite C in H1. apply Nat.ltb_lt in H1. now rewrite app_nil_r.
  - injection E as -> ->. specialize (IH (pre ++ [y]) H2 l1 a l2 op d eq_refl C). now rewrite <- app_assoc in IH.
Qed.
(** The hypotheses are met: two callers of one opcode and one of another, honest controller, results delivered to their owners. *)
Example C39_example : exists l s, runs l s /\ honest l /\
  thr s 0%nat = Some (mkT opA (PRet (COk [0; 7]))) /\ thr s 1%nat = Some (mkT opA (PRet (COk [0; 9]))) /\ thr s 2%nat = Some (mkT opB (PRet (COk [12]))).
Proof.
  set (l := [ASpawn 0 opA; ASpawn 1 opA; ALock 0; AGetBuf 0; AReg 0; AWrite 0 true; AEvt 14 [2; 13; 32; 0; 7]; ASpawn 2 opB; ALock 2; AGetBuf 2; AReg 2;
     ADeliver 0; AWrite 2 true; AEvt 15 [12; 1; 14; 32]; ADelete 0; AUnlock 0; ALock 1; AGetBuf 1; AReg 1; ADeliver 2; AWrite 1 true; AEvt 14 [1; 13; 32; 0; 9];
     ADelete 2; AUnlock 2; ADeliver 1; ADelete 1; AUnlock 1]).
  assert (X : exists s, exec_all hinit l = Some s /\ thr s 0%nat = Some (mkT opA (PRet (COk [0; 7]))) /\ thr s 1%nat = Some (mkT opA (PRet (COk [0; 9]))) /\ thr s 2%nat = Some (mkT opB (PRet (COk [12])))) by (vm_compute; eauto 6).
  destruct X as (s & X & Y). exists l, s. split; [exact X|]. split; [|exact Y]. split.
  - apply (hon_ok l []). vm_compute. reflexivity.
  - repeat (apply Forall_cons; [cbn; try exact I; try reflexivity; try (unfold opA, opB; discriminate); try lia|]). constructor.
Qed.
