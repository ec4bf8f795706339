(** * C184, C185: advertising, scanning and dialling calls at the same time *)
Require Import Verif.Base Verif.M_cmd Verif.M_gap Verif.M_gapconc Verif.S_gapconc Verif.P_gapconc Verif.P_gapconc2 Verif.P_gapconc3 Verif.P_gapconc4.

(** Whatever calls run at the same time, beside whatever connections come and go: when the call that was last to say whether the device should advertise has
    returned success, the controller was last told just that - and so it stays, whoever else sends, until another call says otherwise. *)
Theorem C184_advertising : forall h l s t v, runs h l s -> last_asked wants_adv (g_hist s) = Some (t, v) -> returned s t true -> told adv_value (g_log s) = Some v.
Proof.
  intros h l s t v R L (th & N & P). pose proof (i_last _ _ (runs_inv RA h l s R)) as X. cbn [pick] in X. rewrite L in X. destruct X as (_ & _ & th1 & N1 & S1). rewrite N in N1. injection N1 as <-.
  unfold state_ok in S1. rewrite P in S1. apply S1.
Qed.
Print Assumptions C184_advertising.
Theorem C184_scanning : forall h l s t v, runs h l s -> last_asked wants_scan (g_hist s) = Some (t, v) -> returned s t true -> told scan_value (g_log s) = Some v.
Proof.
  intros h l s t v R L (th & N & P). pose proof (i_last _ _ (runs_inv RS h l s R)) as X. cbn [pick] in X. rewrite L in X. destruct X as (_ & _ & th1 & N1 & S1). rewrite N in N1. injection N1 as <-.
  unfold state_ok in S1. rewrite P in S1. apply S1.
Qed.
Print Assumptions C184_scanning.
(** Those who say so are the calls themselves (never the host, when connections come and go): StopAdvertising says 0, an advertising call 1; StopScanning 0, Scan 1. *)
Theorem C184_who_asks : forall h l s t v, runs h l s ->
  (last_asked wants_adv (g_hist s) = Some (t, v) -> (call_of s t = Some KStop /\ v = 0) \/ (exists ad sr, call_of s t = Some (KAdv ad sr) /\ v = 1) \/ (exists ad sr p, call_of s t = Some (KRaw ad sr p) /\ v = 1)) /\
  (last_asked wants_scan (g_hist s) = Some (t, v) -> (call_of s t = Some KStopScan /\ v = 0) \/ (exists d, call_of s t = Some (KScan d) /\ v = 1)).
Proof.
  intros h l s t v R. split; intro L; destruct (last_asked_in _ _ _ _ L) as (x & IN & F); destruct (hist_calls h l s t x R IN) as (th & N & P); unfold call_of; rewrite N; cbn [option_map];
    destruct (t_call th) as [ad sr|ad sr p| |dup| |a rnd|]; cbn [prog] in P; destruct x; try discriminate F; injection F as <-;
    try (destruct (too_long ad sr)); try destruct dup; try destruct (Nat.eqb (length a) 6); unfold p_set, p_advertise in P; cbn [app In] in P; repeat (destruct P as [P|P]; try discriminate P); try contradiction; try injection P as <-.
  - right. left. exists ad, sr. now split.
  - right. right. exists ad, sr, p. now split.
  - left. now split.
  - right. exists true. now split.
  - right. exists false. now split.
  - left. now split.
Qed.
Print Assumptions C184_who_asks.
(** So: after StopAdvertising (StopScanning) has returned success, the device does not advertise (scan) until a call asks for it again,
    also if enabling it again because of a connection was under way all the time. *)
Theorem C184_stop_is_final : forall h l s t, runs h l s -> returned s t true ->
  (call_of s t = Some KStop -> forall v, last_asked wants_adv (g_hist s) = Some (t, v) -> ~ advertising s) /\
  (call_of s t = Some KStopScan -> forall v, last_asked wants_scan (g_hist s) = Some (t, v) -> ~ scanning s).
Proof.
  intros h l s t R RT. split; intros C v L A; unfold advertising, scanning in A.
  - rewrite (C184_advertising h l s t v R L RT) in A. injection A as ->. destruct (proj1 (C184_who_asks h l s t 1 R) L) as [[_ H]|[(ad & sr & H & _)|(ad & sr & p & H & _)]]; [discriminate H|congruence|congruence].
  - rewrite (C184_scanning h l s t v R L RT) in A. injection A as ->. destruct (proj2 (C184_who_asks h l s t 1 R) L) as [[_ H]|(d & H & _)]; [discriminate H|congruence].
Qed.
Print Assumptions C184_stop_is_final.
(** An advertising call in which everything was accepted (a raw one that returned success, see C114 for the others), a Scan that returned success. *)
Theorem C184_started : forall h l s t, runs h l s -> returned s t true ->
  (call_of s t <> Some KStop -> forall v, last_asked wants_adv (g_hist s) = Some (t, v) -> advertising s) /\
  (call_of s t <> Some KStopScan -> forall v, last_asked wants_scan (g_hist s) = Some (t, v) -> scanning s).
Proof.
  intros h l s t R RT. split; intros C v L.
  - unfold advertising. rewrite (C184_advertising h l s t v R L RT). destruct (proj1 (C184_who_asks h l s t v R) L) as [[H _]|[(ad & sr & _ & ->)|(ad & sr & p & _ & ->)]]; [contradiction|reflexivity|reflexivity].
  - unfold scanning. rewrite (C184_scanning h l s t v R L RT). destruct (proj2 (C184_who_asks h l s t v R) L) as [[H _]|(d & _ & ->)]; [contradiction|reflexivity].
Qed.
Print Assumptions C184_started.

(** Example: advertising; a connection comes, and the goroutine that enables advertising again has made its packet when StopAdvertising is called: it must wait
    for the opcode, and in the end the device does not advertise. *)
Definition steps (t n : nat) : list act := repeat (GStep t) n.
Definition cmd (t : nat) : list act := [GStep t; GStep t; GWrite t true; GAnswer t].
Definition whole_adv (t : nat) : list act := [GStep t; GStep t] ++ cmd t ++ [GStep t; GStep t] ++ cmd t ++ cmd t ++ [GStep t] ++ cmd t ++ [GStep t].
Definition stop_race : list act := GCall (KAdv [2; 1; 6] []) :: whole_adv 0 ++ [GConnected; GStep 1; GStep 1; GCall KStop; GStep 2; GWrite 1 true; GAnswer 1; GStep 1] ++ cmd 2 ++ [GStep 2].
Example C184_example : exists s, runs new_host stop_race s /\ returned s 2 true /\ last_asked wants_adv (g_hist s) = Some (2%nat, 0) /\ map fst (g_log s) <> [] /\ length (g_log s) = 6%nat.
Proof. eexists. split; [vm_compute; reflexivity|]. split; [eexists; split; vm_compute; reflexivity|]. split; [vm_compute; reflexivity|]. split; [vm_compute; discriminate|reflexivity]. Qed.

(** What is on the air.  As long as an advertising call begins only when the ones before it have returned - all other calls, and enabling advertising again, at
    any time: when the latest one has returned success, the controller was last told its payload, byte for byte.  (For the calls other than the raw one, which
    report success also when the controller refused the payload, C114, if no command is refused or lost.) *)
Theorem C184_payload : forall h l s t th ad sr, fineh h -> Forall gact_ok l -> runs h l s -> one_at_a_time h l ->
  nth_error (g_thr s) t = Some th -> payload_of (t_call th) = Some (ad, sr) -> latest s t -> returned s t true ->
  (exists p, t_call th = KRaw ad sr p) \/ reliable l ->
  told data_value (g_log s) = Some ad /\ told rsp_value (g_log s) = Some sr.
Proof.
  intros h l s t th ad sr F K R ONE N P L (th1 & N1 & E) C. rewrite N in N1. injection N1 as <-.
  pose proof (m_stage _ _ (runs_inv3 (reliable l) h l s F K ONE (fun X => X) R) _ _ _ _ N P L) as ST. rewrite E in ST. inversion ST; subst; [now split|].
  match goal with H : true = true -> _ |- _ => apply (H eq_refl) end. destruct C as [[p C]|C]; [right|now left]. now rewrite C.
Qed.
Print Assumptions C184_payload.
(** As long as a call has not returned a step of a call is possible: one of its own, or, if it waits for an opcode, one of the call that holds it. *)
Theorem C184_no_deadlock : forall h l s t th, fineh h -> Forall gact_ok l -> runs h l s -> nth_error (g_thr s) t = Some th -> (forall ok, ~ returned s t ok) ->
  exists t' a s', actor a = Some t' /\ exec s a = Some s' /\ (t' = t \/ exists c, t_ph th = Run /\ g_lock s (opcode c) = Some t').
Proof.
  intros h l s t th F K R N NE. destruct (moves s t th (runs_inv2 h l s F K R) N) as [(a & s' & A & E)|(c & r & rest & t' & P & T & LK & a & s' & A & E)].
  - intros ok X. apply (NE ok). now exists th.
  - exists t, a, s'. split; [destruct A as [->|[->| ->]]; reflexivity|]. split; [exact E|now left].
  - exists t', a, s'. split; [destruct A as [->|[->| ->]]; reflexivity|]. split; [exact E|]. right. now exists c.
Qed.
Print Assumptions C184_no_deadlock.
(** and every call takes at most 23 steps. *)
Theorem C184_few_steps : forall h l s t, runs h l s -> (steps_of l t <= 23)%nat.
Proof. exact steps_bound. Qed.
Print Assumptions C184_few_steps.
(** The defaults of NewHCI meet the hypothesis about the structs. *)
Example C184_fine : fineh new_host.
Proof.
  assert (Z6 : all_bytes (repeat 0 6)) by (cbn; repeat (apply Forall_cons; [unfold is_byte; lia|]); apply Forall_nil).
  unfold fineh, struct_value. split; [reflexivity|]. split; [reflexivity|]. split; repeat (apply Forall_cons; [cbn; first [lia|split; [reflexivity|exact Z6]]|]); apply Forall_nil.
Qed.
(** Example: an advertising call; a connection; while advertising is enabled again, a second advertising call with another payload. *)
Definition second_adv : list act := GCall (KAdv [2; 1; 6] []) :: whole_adv 0 ++ [GConnected; GStep 1; GStep 1; GCall (KRaw [7; 7] [8] def_advp); GStep 2; GStep 2; GStep 2] ++ cmd 2 ++ [GStep 2; GWrite 1 true; GStep 2; GAnswer 1; GStep 1] ++ cmd 2 ++ cmd 2 ++ [GStep 2] ++ cmd 2 ++ [GStep 2].
Example C184_payload_example : exists s th, runs new_host second_adv s /\ one_at_a_time new_host second_adv /\ Forall gact_ok second_adv /\ nth_error (g_thr s) 2 = Some th /\ payload_of (t_call th) = Some ([7; 7], [8]) /\ latest s 2 /\ returned s 2 true.
Proof.
  eexists. eexists. split; [vm_compute; reflexivity|]. split; [apply oneb_ok; vm_compute; reflexivity|]. split; [|split; [reflexivity|]; split; [reflexivity|]; split; [|eexists; split; reflexivity]].
  - unfold second_adv. apply Forall_forall. intros a IN. cbn in IN. repeat (destruct IN as [<-|IN]; [cbn [gact_ok kcall_ok]; try exact Coq.Init.Logic.I; apply C184_fine|]). contradiction.
  - intros t' th' L N. destruct t' as [|[|[|[|t']]]]; try lia; discriminate N.
Qed.

(** A failed command ends the call; the call then reports success exactly if the command was one of the two that set the payload and the call is not a raw one
    (C114); every other failure of every call is reported. *)
Theorem C184_failures_reported : forall h l s t c a s', runs h l s -> fails s t c a -> exec s a = Some s' ->
  exists ok, returned s' t ok /\ (ok = true <-> (c = CAdData \/ c = CSrData) /\ exists ad sr, call_of s t = Some (KAdv ad sr)).
Proof.
  intros h l s t c a s' R (th & r & b & N & F) E. destruct (runs_allt h l s R _ _ N) as [[_ P] _]. exists r.
  assert (Q : returned s' t r /\ forgiving (t_call th) c r).
  { destruct F as [[-> Q]|[[-> (acc & Q)]|[-> Q]]]; rewrite Q in P; (split; [|exact P]); cbn [exec] in E; rewrite N in E; destruct th as [k todo ph]; cbn [t_ph] in Q; subst ph; apply some_inj in E; subst s';
      (eexists; split; [cbn [set_lock set_thr g_thr]; rewrite (upd_get _ _ _ _ _ N), Nat.eqb_refl; reflexivity|reflexivity]). }
  destruct Q as [Q1 Q2]. split; [exact Q1|]. unfold forgiving in Q2. rewrite Q2. unfold call_of. rewrite N. cbn [option_map].
  split; intros [H (ad & sr & K)]; (split; [exact H|]); exists ad, sr; congruence.
Qed.
Print Assumptions C184_failures_reported.
(** An advertising call with more than 31 bytes of advertising data or of scan response sends nothing; the raw one reports it. *)
Theorem C184_too_long : forall h l s t k, runs h l s -> call_of s t = Some k -> (match k with KAdv ad sr | KRaw ad sr _ => (31 < length ad)%nat \/ (31 < length sr)%nat | _ => False end) ->
  ~ (exists c a, fails s t c a) /\ (forall acc, exec s (GWrite t acc) = None) /\ (returned s t true -> exists ad sr, k = KAdv ad sr).
Proof.
  intros h l s t k R C LG. unfold call_of in C. destruct (nth_error (g_thr s) t) as [th|] eqn:N; [|discriminate C]. cbn [option_map] in C. apply some_inj in C. subst k.
  destruct (runs_allt h l s R _ _ N) as [_ SI]. destruct (SI LG) as [_ P].
  split; [intros (c & a & th' & r & b & N' & F); rewrite N in N'; apply some_inj in N'; subst th'; destruct F as [[_ F]|[[_ (acc & F)]|[_ F]]]; rewrite F in P; contradiction|].
  split; [intro acc; cbn [exec]; rewrite N; destruct th as [k todo ph]; cbn [t_ph] in P; destruct ph; try reflexivity; contradiction|].
  intros (th' & N' & F). rewrite N in N'. apply some_inj in N'. subst th'. rewrite F in P. exact (P eq_refl).
Qed.
Print Assumptions C184_too_long.
(** One with at most 31 bytes of each has these as its payload: C184_payload is about it. *)
Theorem C184_fits : forall ad sr p, ((length ad <= 31)%nat /\ (length sr <= 31)%nat <-> payload_of (KAdv ad sr) = Some (ad, sr)) /\ ((length ad <= 31)%nat /\ (length sr <= 31)%nat <-> payload_of (KRaw ad sr p) = Some (ad, sr)).
Proof.
  intros ad sr p. cbn [payload_of]. destruct (too_long ad sr) eqn:T.
  - assert (X : ~ ((length ad <= 31)%nat /\ (length sr <= 31)%nat)). { unfold too_long in T. apply Bool.orb_true_iff in T. destruct T as [T|T]; apply Nat.ltb_lt in T; lia. } split; (split; [intro H; contradiction|discriminate]).
  - assert (X := short _ _ T). split; split; auto.
Qed.
Print Assumptions C184_fits.
(** Example: Advertise whose parameters the controller refuses returns an error; Advertise whose payload it refuses returns success; a raw call with 32 bytes returns an error. *)
Definition refuse_payload : list act := [GCall (KAdv [2; 1; 6] []); GStep 0; GStep 0; GStep 0; GStep 0; GWrite 0 false].
Definition refuse_params : list act := GCall (KAdv [2; 1; 6] []) :: [GStep 0; GStep 0] ++ cmd 0 ++ [GStep 0; GStep 0] ++ cmd 0 ++ [GStep 0; GStep 0; GWrite 0 false].
Example C184_failures_example :
  (exists s s', runs new_host refuse_payload s /\ fails s 0 CAdData (GAnswer 0) /\ exec s (GAnswer 0) = Some s' /\ returned s' 0 true) /\
  (exists s s', runs new_host refuse_params s /\ fails s 0 CAdvParams (GAnswer 0) /\ exec s (GAnswer 0) = Some s' /\ returned s' 0 false) /\
  (exists s, runs new_host [GCall (KRaw (repeat 0 32) [] (fun _ => GInt 0)); GStep 0; GStep 0] s /\ returned s 0 false).
Proof.
  split; [|split].
  - eexists. eexists. split; [vm_compute; reflexivity|]. split; [eexists; eexists; exists []; split; [vm_compute; reflexivity|right; right; split; [reflexivity|vm_compute; reflexivity]]|]. split; [vm_compute; reflexivity|]. eexists; split; vm_compute; reflexivity.
  - eexists. eexists. split; [vm_compute; reflexivity|]. split; [eexists; eexists; exists []; split; [vm_compute; reflexivity|right; right; split; [reflexivity|vm_compute; reflexivity]]|]. split; [vm_compute; reflexivity|]. eexists; split; vm_compute; reflexivity.
  - eexists. split; [vm_compute; reflexivity|]. eexists; split; vm_compute; reflexivity.
Qed.

(** * C185: refuted *)
Definition mixed : list act := [GCall (KAdv [1; 2; 3] []); GCall (KAdv [9] []); GStep 0; GStep 1; GStep 1; GStep 0]
  ++ cmd 0 ++ cmd 1 ++ ([GStep 0; GStep 0] ++ cmd 0 ++ cmd 0 ++ [GStep 0] ++ cmd 0 ++ [GStep 0]) ++ ([GStep 1; GStep 1] ++ cmd 1 ++ cmd 1 ++ [GStep 1] ++ cmd 1 ++ [GStep 1]).
(** Two advertising calls at the same time, one with the payload 1,2,3, one with the payload 9; both succeed; the device advertises the payload 1. *)
Theorem C185_mixed_payload_refuted : exists s, runs new_host mixed s /\ returned s 0 true /\ returned s 1 true /\ advertising s /\
  forall b, In b (map fst (g_log s)) -> data_value b = Some [1] \/ data_value b = None.
Proof.
  eexists. split; [vm_compute; reflexivity|]. split; [eexists; split; vm_compute; reflexivity|]. split; [eexists; split; vm_compute; reflexivity|]. split; [vm_compute; reflexivity|].
  intros b IN. cbn in IN. repeat (destruct IN as [<-|IN]; [vm_compute; tauto|]). contradiction.
Qed.
Print Assumptions C185_mixed_payload_refuted.
(** Two calls of Dial at the same time, for the addresses a and b: the one for a makes the controller connect to b, the one for b fails. *)
Definition dials : list act := [GCall (KDial [1; 1; 1; 1; 1; 1] false); GCall (KDial [2; 2; 2; 2; 2; 2] false); GStep 0; GStep 0; GStep 1; GStep 1] ++ cmd 0 ++ [GStep 0; GStep 1; GStep 1; GWrite 1 false; GAnswer 1].
Theorem C185_mixed_dial_refuted : exists s p, runs new_host dials s /\ returned s 0 true /\ returned s 1 false /\ g_log s = [(p, true); (p, false)] /\ firstn 6 (skipn 10 p) = [2; 2; 2; 2; 2; 2].
Proof.
  eexists. eexists. split; [vm_compute; reflexivity|]. split; [eexists; split; vm_compute; reflexivity|]. split; [eexists; split; vm_compute; reflexivity|]. split; [vm_compute; reflexivity|]. vm_compute. reflexivity.
Qed.
Print Assumptions C185_mixed_dial_refuted.
