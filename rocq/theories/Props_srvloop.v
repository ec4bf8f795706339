(** C131-C139: the goroutines of an ATT server, under every interleaving. *)
Require Import Verif.Base Verif.M_attdb Verif.S_attdb Verif.M_attsrv Verif.S_attsrv Verif.P_attsrv3 Verif.P_attsrv6 Verif.Props_attsrv
  Verif.M_srvloop Verif.S_srvloop Verif.P_srvloop Verif.P_srvloop2 Verif.P_srvloop3 Verif.P_srvloop4 Verif.P_srvloop5 Verif.P_srvloop6 Verif.P_srvloop7 Verif.P_srvloop8.

(** ---- concrete executions ---- *)
Fixpoint exec (s : ls) (l : list act) : option (ls * list vis) :=
  match l with
  | [] => Some (s, [])
  | a :: r => match lstep s a with Some (s1, v) => match exec s1 r with Some (s2, t) => Some (s2, v ++ t) | None => None end | None => None end
  end.
Lemma exec_from : forall r i l s t s' t', lrun i l s t -> exec s r = Some (s', t') -> lrun i (l ++ r) s' (t ++ t').
Proof.
  induction r as [|a r IH]; intros i l s t s' t' R H; cbn [exec] in H.
  - injection H as <- <-. now rewrite !app_nil_r.
  - destruct (lstep s a) as [[s1 v]|] eqn:ST; [|discriminate]. destruct (exec s1 r) as [[s2 t2]|] eqn:X; [|discriminate]. injection H as <- <-.
    change (a :: r) with ([a] ++ r). rewrite !app_assoc. apply (IH i _ s1 _ s2 t2); [|exact X]. econstructor; eauto.
Qed.
Lemma exec_run : forall i l s t, exec i l = Some (s, t) -> lrun i l s t.
Proof. intros i l s t H. exact (exec_from l i [] i [] s t (lr_nil i) H). Qed.
Definition sees (l : list act) (t : list vis) : Prop := exists s, lrun (linit ex_s) l s t.
Lemma sees_exec : forall l t, option_map snd (exec (linit ex_s) l) = Some t -> sees l t.
Proof. intros l t H. destruct (exec (linit ex_s) l) as [[s t']|] eqn:X; [|discriminate]. injection H as ->. exists s. now apply exec_run. Qed.
Lemma ex_new : new_server ex_db 515 23 = Some ex_s. Proof. reflexivity. Qed.
(** enabling notifications of the first characteristic, indications of the last *)
Definition serve (p : bytes) : list act := [AArrive p; ATake; ARead; ASeq; AHandle ex_e; AHWrite true; AHPut].
Definition cmd (p : bytes) : list act := [AArrive p; ATake; ARead; ASeq; AHandle ex_e; AHPut].
Definition on_n : list act := serve [18; 4; 0; 1; 0].
Definition on_i : list act := serve [18; 11; 0; 2; 0].

(** ** C131 *)
Theorem C131_in_order : forall d rx tx s0 l s t, new_server d rx tx = Some s0 -> lrun (linit s0) l s t ->
  exists rest, requests (arrived l) = map pdu_of (servings t) ++ rest.
Proof.
  intros d rx tx s0 l s t N H. pose proof (tinv_run _ _ _ _ _ _ _ N H) as [A (rest & R & _) _ _ _ _]. exists (rest ++ requests (inq s)). rewrite A, requests_app, R. now rewrite app_assoc.
Qed.
Print Assumptions C131_in_order.
(** the answers and the handlers called are those of a server that does one request after the other *)
Theorem C131_as_sequential : forall d rx tx s0 l s t, new_server d rx tx = Some s0 -> lrun (linit s0) l s t ->
  exists s', served s0 (servings t) s' /\
    loop_run s0 (map (fun x => (fst (fst (fst x)), pdu_of x)) (servings t)) = Ret (s', flat_map (fun x => answer_of (snd (fst x))) (servings t), flat_map (fun x => snd x) (servings t)).
Proof.
  intros d rx tx s0 l s t N H. destruct (t_served _ _ _ _ (tinv_run _ _ _ _ _ _ _ N H)) as (s' & S & _). exists s'. split; [exact S|]. apply served_loop_run; [exact S|].
  apply Forall_forall. intros x X. now apply (served_in _ _ _ _ _ _ _ N H).
Qed.
Print Assumptions C131_as_sequential.
Theorem C131_one_at_a_time : forall d rx tx s0 l s t, new_server d rx tx = Some s0 -> lrun (linit s0) l s t ->
  exists ts tl, request_view t = turns ts ++ tl /\ (tl = [] \/ exists e p r cs, r <> [] /\ tl = [VHandle e p (Some r) cs]).
Proof.
  intros d rx tx s0 l s t N H. destruct (t_view _ _ _ _ (tinv_run _ _ _ _ _ _ _ N H)) as (ts & tl & V & T). exists ts, tl. split; [exact V|]. unfold tail_ok in T.
  destruct (hd s); auto; destruct T as [[_ T]|(NE & e & p & cs & T)]; auto; right; exists e, p, rsp, cs; auto.
Qed.
Print Assumptions C131_one_at_a_time.
(** from the hand-over until the server is done with the request, the bytes its handlers see are those that arrived *)
Theorem C131_data_stable : forall d rx tx s0 l s t k (b : bool), new_server d rx tx = Some s0 -> lrun (linit s0) l s t -> working_on (hd s) = Some (k, b) ->
  exists p, req_of s k = Some p /\ nth_error (requests (arrived l)) (length (servings t) - if b then 1 else 0)%nat = Some p /\ (b = true -> servings t <> []).
Proof.
  intros d rx tx s0 l s t k b N H W. pose proof (tinv_run _ _ _ _ _ _ _ N H) as [A (rest & R1 & _ & R3) TH _ _ _]. pose proof (oinv_run _ _ _ _ H) as [O1 O2 O3 O4 O5].
  destruct b.
  - assert (I : in_hand (hd s) = Some k) by (destruct (hd s); cbn in W |- *; try discriminate; injection W as ->; reflexivity).
    destruct (TH k I) as (l' & x & E & Q). exists (pdu_of x). split; [exact Q|]. rewrite A, requests_app, R1, E, !map_app, app_length. cbn [map length]. split; [|intros _ Z; destruct l'; discriminate].
    replace (length l' + 1 - 1)%nat with (length (map pdu_of l')) by (rewrite map_length; lia). rewrite <- !app_assoc. cbn [app]. rewrite nth_error_app2, Nat.sub_diag by lia. reflexivity.
  - assert (HD : hd s = HGot k) by (destruct (hd s); cbn in W; try discriminate; injection W as ->; reflexivity).
    assert (KB : (k < 2)%nat). { rewrite HD in O4. cbn [own_hd] in O4. rewrite Forall_forall in O4. apply O4. apply in_or_app. right. now left. }
    destruct (req_of s k) as [p|] eqn:Q.
    + exists p. split; [reflexivity|]. split; [|discriminate]. rewrite A, requests_app, R1, R3 by congruence. unfold got. rewrite HD. unfold oreq at 1. rewrite Q. rewrite Nat.sub_0_r, <- !app_assoc. cbn [app].
      rewrite <- (map_length pdu_of (servings t)). rewrite nth_error_app2, Nat.sub_diag by lia. reflexivity.
    + exfalso. unfold req_of in Q. destruct (nth_error (bufs s) k) eqn:NB; [discriminate|]. apply nth_error_None in NB. lia.
Qed.
Print Assumptions C131_data_stable.
(** at most two requests are taken from the connection ahead of the one in work *)
Theorem C131_read_ahead : forall d rx tx s0 l s t, new_server d rx tx = Some s0 -> lrun (linit s0) l s t ->
  arrived l = reads t ++ inq s /\ (length (requests (reads t)) <= length (servings t) + 2)%nat.
Proof.
  intros d rx tx s0 l s t N H. pose proof (tinv_run _ _ _ _ _ _ _ N H) as [A (rest & R1 & R2 & _) _ _ _ _]. split; [exact A|]. rewrite R1, app_length, map_length. lia.
Qed.
Print Assumptions C131_read_ahead.
(** a read request and a write command arrive together, and a notification is sent between the handling of the first and its answer *)
Example C131_example : sees (on_n ++ [AArrive [18; 6; 0; 5]; AArrive [82; 6; 0; 9]; ACall 0 [7]; ATake; ARead; ACTake 0; ASeq; ATake; AHandle ex_e; ARead; ACWrite 0 true; AHWrite true; AHPut; ASeq; AHandle ex_e; AHPut])
  [VRead [18; 4; 0; 1; 0]; VHandle ex_e [18; 4; 0; 1; 0] (Some [19]) []; VWrite SRsp [19] true; VRead [18; 6; 0; 5]; VHandle ex_e [18; 6; 0; 5] (Some [19]) [CWrite 6 [5]]; VRead [82; 6; 0; 9];
   VWrite (SCall 0) [27; 3; 0; 7] true; VRet 0 COk; VWrite SRsp [19] true; VHandle ex_e [82; 6; 0; 9] None [CWrite 6 [9]]].
Proof. apply sees_exec. vm_compute. reflexivity. Qed.

(** ** C132 *)
(** without new PDUs and calls the library comes to rest *)
Theorem C132_comes_to_rest : forall s l s' t, lrun s l s' t -> Forall (fun a => external a = false) l -> (length l + work s' <= work s)%nat.
Proof.
  intros s l s' t H F. induction H as [|s l s1 t a s2 v R IH ST]; [cbn; lia|]. apply Forall_app in F. destruct F as [F1 F2]. apply Forall_cons_iff in F2. destruct F2 as [F2 _].
  specialize (IH F1). pose proof (work_decreases _ _ _ _ ST F2). rewrite app_length. cbn [length]. lia.
Qed.
Print Assumptions C132_comes_to_rest.
Lemma rest_shape : forall d rx tx s0 l s t, new_server d rx tx = Some s0 -> lrun (linit s0) l s t -> ~ crashed s -> quiet s \/ quiet_but_timers s /\ ~ awaiting_confirmation s -> (idle s \/ ended s) /\ done_calls s.
Proof.
  intros d rx tx s0 l s t N H C [Q|[Q A]].
  - apply quiet_full; auto; [eapply oinv_run; eauto|eapply kinv_run; eauto|eapply einv_run; eauto].
  - destruct (quiet_shape s) as [X|(X & _)]; auto; [eapply oinv_run; eauto|eapply kinv_run; eauto|eapply einv_run; eauto|now elim A].
Qed.
(** at rest (with the timers of pending indications expired, or none pending) every request has been served and its answer written *)
Theorem C132_all_answered : forall d rx tx s0 l s t, new_server d rx tx = Some s0 -> lrun (linit s0) l s t -> Forall acceptable (arrived l) -> ~ crashed s ->
  quiet s \/ quiet_but_timers s /\ ~ awaiting_confirmation s -> exists ts, request_view t = turns ts /\ map (fun x => pdu_of (fst x)) ts = requests (arrived l).
Proof.
  intros d rx tx s0 l s t N H AC C Q. destruct (rest_shape _ _ _ _ _ _ _ N H C Q) as [S _]. pose proof (tinv_run _ _ _ _ _ _ _ N H) as [A (rest & R1 & _ & R3) _ _ (ts & tl & V & TL) _].
  assert (RE : rest = []). { rewrite (R3 C). unfold got, sent. destruct S as [((k & S1) & _ & _ & S2)|[S1 S2]]; rewrite S1, S2; reflexivity. }
  assert (IE : inq s = []).
  { destruct S as [(_ & S & _)|[S1 _]]; [exact S|]. destruct (allread_run _ _ _ _ _ _ _ N H) as [[Z _]|(p & P1 & P2)]; [now rewrite S1|exact Z|]. exfalso. rewrite Forall_forall in AC. exact (P2 (AC p P1)). }
  assert (TE : tl = []) by (destruct S as [(_ & _ & _ & S2)|[_ S2]]; rewrite S2 in TL; exact TL).
  exists ts. rewrite TE, app_nil_r in V. split; [exact V|]. rewrite A, IE, app_nil_r, R1, RE, app_nil_r. rewrite <- (map_map fst pdu_of). f_equal.
  assert (X : forall t', servings (request_view t') = servings t'). { clear. induction t' as [|v t' IH]; [reflexivity|]. destruct v as [ | |o p ok| | | | ]; cbn; try exact IH; [f_equal; exact IH|destruct o; exact IH]. }
  rewrite <- X, V. clear. induction ts as [|[[[[e p] o] cs] ok] ts IH]; [reflexivity|]. change (turns ((e, p, o, cs, ok) :: ts)) with (turn (e, p, o, cs) ok ++ turns ts). rewrite servings_app. cbn [map fst]. rewrite IH.
  cbn [turn]. destruct o as [[|]|]; reflexivity.
Qed.
Print Assumptions C132_all_answered.
(** once the timers have expired too, every call of the application has returned, exactly once *)
Theorem C132_calls_return : forall d rx tx s0 l s t k, new_server d rx tx = Some s0 -> lrun (linit s0) l s t -> ~ crashed s -> quiet s -> (k < calls_made l)%nat -> exists r, returned k t = [r].
Proof.
  intros d rx tx s0 l s t k N H C Q K. destruct (rest_shape _ _ _ _ _ _ _ N H C (or_introl Q)) as [_ D]. destruct (cinv_run _ _ _ _ _ _ _ N H) as [C1 C2 _]. rewrite C1 in K.
  destruct (nth_error (callers s) k) as [c|] eqn:E; [|apply nth_error_None in E; lia]. unfold done_calls in D. destruct (Forall_nth _ _ _ _ D E) as [r P].
  pose proof (C2 k c E) as F. unfold phase_fits in F. rewrite P in F. destruct F as (p & ok & _ & _ & R & _). eauto.
Qed.
Print Assumptions C132_calls_return.
(** while an indication waits for its confirmation, requests go on being served: only an MTU exchange waits for it *)
Theorem C132_served_during_indication : forall d rx tx s0 l s t, new_server d rx tx = Some s0 -> lrun (linit s0) l s t -> ~ crashed s -> quiet_but_timers s ->
  (forall p, In p (arrived l) -> p <> [] -> nth 0 p 0 <> 2) -> Forall acceptable (arrived l) -> map pdu_of (servings t) = requests (arrived l).
Proof.
  intros d rx tx s0 l s t N H C Q NM AC. pose proof (tinv_run _ _ _ _ _ _ _ N H) as [A (rest & R1 & _ & R3) TH _ _ _].
  assert (X : rest = [] /\ inq s = []).
  { assert (Z : idle s \/ ended s).
    { destruct (quiet_shape s) as [[X _]|(_ & _ & _ & _ & _ & X)]; auto; [eapply oinv_run; eauto|eapply kinv_run; eauto|eapply einv_run; eauto|].
      destruct X as [X|[(k & m & rsp & X) _]]; auto. exfalso. destruct (mtu_from _ _ _ _ _ _ _ N H) as [q I]; [now rewrite X|]. exact (NM _ I ltac:(discriminate) eq_refl). }
    destruct Z as [((k & S1) & S3 & _ & S2)|[S1 S2]].
    - split; [|exact S3]. rewrite (R3 C). unfold got, sent. now rewrite S1, S2.
    - split; [rewrite (R3 C); unfold got, sent; now rewrite S1, S2|]. destruct (allread_run _ _ _ _ _ _ _ N H) as [[Z _]|(p & P1 & P2)]; [now rewrite S1|exact Z|]. exfalso. rewrite Forall_forall in AC. exact (P2 (AC p P1)). }
  destruct X as [X1 X2]. now rewrite A, X2, app_nil_r, R1, X1, app_nil_r.
Qed.
Print Assumptions C132_served_during_indication.
(** the library at rest after a request; the buffer of the reader is the second *)
Lemma ex_quiet_but : forall s, hd s = HWait -> (exists k, rd s = RRead k) -> inq s = [] -> down s = false -> done_calls s -> quiet s.
Proof.
  intros s HD (k & RD) IN DN DC a E. unfold lstep. rewrite HD.
  assert (CC : forall j c, nth_error (callers s) j = Some c -> exists r, c_ph c = CRet r) by (intros j c Q; exact (Forall_nth _ _ _ _ DC Q)).
  destruct a as [p| |nt data| | |[j|]| | |e| | |ok| | | |j|j ok|j|j|j]; cbn in E; try discriminate E; cbn [live_step]; rewrite ?RD, ?HD; try reflexivity.
  all: try (unfold step_read; rewrite IN, DN; reflexivity).
  all: destruct (nth_error (callers s) j) as [c|] eqn:Q; try reflexivity; destruct (CC _ _ Q) as [r P]; rewrite P; reflexivity.
Qed.
Example C132_example : exists s, lrun (linit ex_s) (on_n ++ [ACall 0 [7]; ACTake 0; ACWrite 0 true; ATake]) s
   [VRead [18; 4; 0; 1; 0]; VHandle ex_e [18; 4; 0; 1; 0] (Some [19]) []; VWrite SRsp [19] true; VWrite (SCall 0) [27; 3; 0; 7] true; VRet 0 COk] /\ quiet s /\ ~ crashed s.
Proof.
  eexists. split; [apply exec_run; vm_compute; reflexivity|]. split; [|discriminate]. apply ex_quiet_but; try reflexivity; [eexists; reflexivity|]. constructor; [eexists; reflexivity|constructor].
Qed.

(** ** C133 *)
(** after the end of the connection: at rest Loop has returned, once, having closed the connection once *)
Theorem C133_ends : forall d rx tx s0 l s t, new_server d rx tx = Some s0 -> lrun (linit s0) l s t -> ~ crashed s -> In ADown l -> quiet s \/ quiet_but_timers s /\ ~ awaiting_confirmation s ->
  times_closed t = 1%nat /\ times_ended t = 1%nat.
Proof.
  intros d rx tx s0 l s t N H C D Q. destruct (rest_shape _ _ _ _ _ _ _ N H C Q) as [S _]. pose proof (vinv_run _ _ _ _ _ _ _ N H) as [V1 V2 _ _ _].
  destruct S as [(_ & _ & S & _)|[S1 S2]]; [rewrite (down_stays _ _ _ _ H D) in S; discriminate|]. rewrite S2 in V1. rewrite S1 in V2. split; [exact V2|exact V1].
Qed.
Print Assumptions C133_ends.
Theorem C133_once : forall d rx tx s0 l s t, new_server d rx tx = Some s0 -> lrun (linit s0) l s t -> (times_closed t <= 1)%nat /\ (times_ended t <= 1)%nat.
Proof.
  intros d rx tx s0 l s t N H. pose proof (vinv_run _ _ _ _ _ _ _ N H) as [V1 V2 _ _ _]. unfold times_closed, times_ended. change (cnt isclose t <= 1 /\ cnt isdone t <= 1)%nat. rewrite V1, V2.
  split; [destruct (rd s); lia|destruct (hd s); lia].
Qed.
Print Assumptions C133_once.
(** then no notifier is left open, if the configuration descriptors were only given values their characteristics support (C22) *)
Theorem C133_notifiers_closed : forall d rx tx s0 l s t, wf_db d -> new_server d rx tx = Some s0 -> lrun (linit s0) l s t ->
  Forall (fun p => all_bytes p /\ asks_supported d p) (arrived l) -> times_ended t = 1%nat -> forall n, In n (notifs (sv s)) -> nt_open n = false.
Proof.
  intros d rx tx s0 l s t W N H F E n I. pose proof (vinv_run _ _ _ _ _ _ _ N H) as [V1 _ _ _ _]. assert (HD : hd s = HDone) by (unfold times_ended in E; change (cnt isdone t = 1%nat) in E; rewrite V1 in E; destruct (hd s); try discriminate; reflexivity).
  destruct (t_served _ _ _ _ (tinv_run _ _ _ _ _ _ _ N H)) as (s' & S1 & _ & S3). destruct (S3 HD) as (nl & K1 & K2). rewrite K2 in I. cbn [set_nn notifs] in I.
  apply (C22_closed_at_end d s' nl W); auto. apply (served_supported d s0 (servings t)); [eapply rs_init; exact N| |exact S1]. apply Forall_forall. intros x X. rewrite Forall_forall in F. apply F. now apply (served_in _ _ _ _ _ _ _ N H).
Qed.
Print Assumptions C133_notifiers_closed.
(** the server's goroutines crash only where the sequential server does (C13): in the handling of a request *)
Theorem C133_crash_only_in_request : forall d rx tx s0 l s t, wf_db d -> table_ok d -> new_server d rx tx = Some s0 -> Forall all_bytes (arrived l) -> lrun (linit s0) l s t ->
  no_panics s0 l -> ~ crashed s.
Proof.
  intros d rx tx s0 l s t W T N B H NP C. destruct (crash_cause _ _ _ _ _ _ _ W T N B H C) as (s' & e & p & S & I & E). apply (NP (servings t) s' e p); auto.
  intros q Q. apply in_map_iff in Q. destruct Q as (x & <- & X). now apply (served_in _ _ _ _ _ _ _ N H).
Qed.
Print Assumptions C133_crash_only_in_request.
(** the connection drops while an indication waits and a notifier is open *)
Example C133_example : sees (on_i ++ [ACall 0 [7]; ACTake 0; ACWrite 0 true; ACSelect 0; ADown; ATake; ARead; AShut; AHEnd; AClean; AShut; AShut; ACClosed 0])
   [VRead [18; 11; 0; 2; 0]; VHandle ex_e [18; 11; 0; 2; 0] (Some [19]) []; VWrite SRsp [19] true; VWrite (SCall 0) [29; 10; 0; 7] true; VDone; VClose; VRet 0 CErrClosed].
Proof. apply sees_exec. vm_compute. reflexivity. Qed.

(** ** C134 *)
(** what a call of Write on a notifier does: nothing yet; or one PDU, of the kind and handle of the notifier, carrying its data or the first 20 or more bytes of it;
    and it returns at most once, saying what happened *)
Theorem C134_call : forall d rx tx s0 l1 nt data l2 s t, new_server d rx tx = Some s0 -> lrun (linit s0) (l1 ++ ACall nt data :: l2) s t ->
  exists s1 t1 n, lrun (linit s0) l1 s1 t1 /\ nth_error (notifs (sv s1)) nt = Some n /\
    let k := calls_made l1 in
    (writes k t = [] /\ returned k t = [] /\ confirmed k t = 0%nat \/
     exists p ok, writes k t = [(p, ok)] /\ carries (nt_ind n) (nt_vh n) data p /\
       (returned k t = [] /\ ok = true /\ nt_ind n = true /\ confirmed k t = 0%nat \/ exists r, returned k t = [r] /\ result_fits (nt_ind n) r ok (confirmed k t))).
Proof.
  intros d rx tx s0 l1 nt data l2 s t N H. destruct (call_made _ _ _ _ _ _ _ _ _ _ N H) as (s1 & t1 & n & c & R1 & NT & NC & E1 & E2 & E3). exists s1, t1, n. split; [exact R1|]. split; [exact NT|].
  intro k. pose proof (c_fits _ _ _ (cinv_run _ _ _ _ _ _ _ N H) k c NC) as F. unfold phase_fits in F. rewrite E1, E2, E3 in F. destruct (c_ph c).
  - left. exact F.
  - left. exact F.
  - destruct F as (I & (p & W & Y) & R & K). right. exists p, true. auto 10.
  - destruct F as (I & (p & W & Y) & R & K). right. exists p, true. auto 10.
  - destruct F as (p & ok & W & Y & R & K). right. exists p, ok. split; [exact W|]. split; [exact Y|]. right. exists r. auto.
Qed.
Print Assumptions C134_call.
(** nothing else is written on behalf of the application *)
Theorem C134_no_other_write : forall d rx tx s0 l s t k, new_server d rx tx = Some s0 -> lrun (linit s0) l s t -> (calls_made l <= k)%nat -> writes k t = [] /\ returned k t = [].
Proof. intros d rx tx s0 l s t k N H K. destruct (cinv_run _ _ _ _ _ _ _ N H) as [C1 _ C3]. rewrite C1 in K. destruct (C3 k K) as (A & B & _). auto. Qed.
Print Assumptions C134_no_other_write.
(** at most one indication waits for its confirmation *)
Theorem C134_one_outstanding : forall d rx tx s0 l s t j k, new_server d rx tx = Some s0 -> lrun (linit s0) l s t -> outstanding j t -> outstanding k t -> j = k.
Proof.
  intros d rx tx s0 l s t j k N H J K. pose proof (kinv_run _ _ _ _ _ _ _ N H) as KI. destruct (cinv_run _ _ _ _ _ _ _ N H) as [C1 C2 C3].
  assert (X : forall i, outstanding i t -> exists c, nth_error (callers s) i = Some c /\ holds true c = true).
  { intros i [[p W] R]. destruct (nth_error (callers s) i) as [c|] eqn:E.
    - exists c. split; [reflexivity|]. pose proof (C2 i c E) as F. unfold phase_fits in F. unfold holds. destruct (c_ph c) eqn:P.
      + destruct F as (F & _). rewrite W in F. discriminate.
      + destruct F as (F & _). rewrite W in F. discriminate.
      + destruct F as (-> & _). reflexivity.
      + destruct F as (-> & _). reflexivity.
      + destruct F as (q & ok & _ & _ & F & _). rewrite R in F. discriminate.
    - apply nth_error_None in E. destruct (C3 i E) as (F & _). rewrite W in F. discriminate. }
  destruct (X j J) as (cj & J1 & J2). destruct (X k K) as (ck & K1 & K2). apply (cnt_two (holds true) (callers s) j k cj ck); auto.
  destruct KI as [_ KI _ _ _ _ _ _]. assert (0 < cnt (holds true) (callers s))%nat; [|lia]. destruct (cnt (holds true) (callers s)) eqn:Z; [|lia]. pose proof (cnt_zero _ _ _ _ Z J1). congruence.
Qed.
Print Assumptions C134_one_outstanding.
(** a long value is cut at the MTU; two indications wait for each other *)
Example C134_example : sees (on_i ++ [ACall 0 (repeat 9 30); ACall 0 [8]; ACTake 1; ACWrite 1 true; ACSelect 1; AArrive [30]; ATake; ARead; AConf (Some 1%nat); ACTake 0; ACWrite 0 true])
   [VRead [18; 11; 0; 2; 0]; VHandle ex_e [18; 11; 0; 2; 0] (Some [19]) []; VWrite SRsp [19] true; VWrite (SCall 1) [29; 10; 0; 8] true; VRead [30]; VConf (Some 1%nat); VRet 1 COk;
    VWrite (SCall 0) (29 :: 10 :: 0 :: repeat 9 20) true].
Proof. apply sees_exec. vm_compute. reflexivity. Qed.
Example C134_example_outstanding : outstanding 0 [VWrite (SCall 0) (29 :: 10 :: 0 :: repeat 9 20) true].
Proof. split; [eexists; reflexivity|reflexivity]. Qed.

(** ** C135: "a confirmation that has arrived ends the call that waits for it, without any timer" *)
(** An indication is sent; an Exchange MTU Request, a Write Command and the confirmation arrive: the handler of the MTU exchange waits for the indication buffer, the reader for the handler, and the
    confirmation is never read. Only the 30 s timer ends it, and the call fails although it was confirmed. *)
Definition deadlock : list act := on_i ++ [ACall 0 [7]; ACTake 0; ACWrite 0 true; ACSelect 0; AArrive [2; 100; 0]; AArrive [82; 6; 0; 9]; AArrive [30]; ATake; ARead; ASeq; AHandle ex_e; AMtuN; ATake; ARead].
Theorem C135_deadlock_refuted : exists s t, lrun (linit ex_s) deadlock s t /\ In [30] (arrived deadlock) /\ returned 0 t = [] /\ quiet_but_timers s /\
  exists s', lstep s (ACTimeout 0) = Some (s', [VRet 0 CErrTimeout]).
Proof.
  eexists _, _. split; [apply exec_run; vm_compute; reflexivity|]. split; [cbn; tauto|]. split; [reflexivity|]. split; [|eexists; vm_compute; reflexivity].
  intros a E T. destruct a as [p| |nt data| | |[j|]| | |e| | |ok| | | |j|j ok|j|j|j]; try discriminate E; try discriminate T; try reflexivity; destruct j as [|[|j]]; reflexivity.
Qed.
Print Assumptions C135_deadlock_refuted.
(** A confirmation that is read before the caller has reached its select is dropped as spurious. *)
Theorem C135_early_confirmation_refuted : exists l s t, lrun (linit ex_s) l s t /\ writes 0 t = [([29; 10; 0; 7], true)] /\ In (VConf None) t /\ returned 0 t = [] /\ quiet_but_timers s /\ awaiting_confirmation s.
Proof.
  exists (on_i ++ [ACall 0 [7]; ACTake 0; ACWrite 0 true; AArrive [30]; ATake; ARead; AConf None; ACSelect 0]). eexists _, _. split; [apply exec_run; vm_compute; reflexivity|]. split; [reflexivity|].
  split; [cbn; tauto|]. split; [reflexivity|]. split; [|eexists 0%nat, _, _; split; reflexivity].
  intros a E T. destruct a as [p| |nt data| | |[j|]| | |e| | |ok| | | |j|j ok|j|j|j]; try discriminate E; try discriminate T; try reflexivity; destruct j as [|[|j]]; reflexivity.
Qed.
Print Assumptions C135_early_confirmation_refuted.
(** without Exchange MTU Requests nothing is left unread: at rest, timers aside, a call still waits only if every PDU that arrived has been read *)
Theorem C135_without_mtu_exchange_partial : forall d rx tx s0 l s t, new_server d rx tx = Some s0 -> lrun (linit s0) l s t -> ~ crashed s -> quiet_but_timers s ->
  (forall p, In p (arrived l) -> p <> [] -> nth 0 p 0 <> 2) -> awaiting_confirmation s -> reads t = arrived l.
Proof.
  intros d rx tx s0 l s t N H C Q NM W. pose proof (tinv_run _ _ _ _ _ _ _ N H) as [A _ _ _ _ _]. destruct (quiet_shape s) as [[_ X]|(_ & _ & _ & _ & _ & X)]; auto; [eapply oinv_run; eauto|eapply kinv_run; eauto|eapply einv_run; eauto| |].
  - exfalso. destruct W as (k & c & n & W1 & W2). destruct (Forall_nth _ _ _ _ X W1) as [r P]. congruence.
  - destruct X as [(_ & I & _)|[(k & m & rsp & X) _]].
    + rewrite A, I. now rewrite app_nil_r.
    + exfalso. destruct (mtu_from _ _ _ _ _ _ _ N H) as [q I]; [now rewrite X|]. exact (NM _ I ltac:(discriminate) eq_refl).
Qed.
Print Assumptions C135_without_mtu_exchange_partial.

(** ** C136: "only the end of the connection ends the serving of requests" *)
Theorem C136_empty_pdu_refuted : exists l t, ~ In ADown l /\ arrived l = [[]; [18; 6; 0; 5]] /\ sees l t /\ t = [VRead []; VClose; VDone] /\ servings t = [].
Proof.
  exists [AArrive []; AArrive [18; 6; 0; 5]; ATake; ARead; AShut; AShut; AShut; AHEnd; AClean], [VRead []; VClose; VDone]. split; [cbn; intuition discriminate|]. split; [reflexivity|]. split; [|split; reflexivity].
  apply sees_exec. vm_compute. reflexivity.
Qed.
Print Assumptions C136_empty_pdu_refuted.
Theorem C136_long_pdu_refuted : exists l t p, length p = 516%nat /\ ~ In ADown l /\ arrived l = [p] /\ sees l t /\ t = [VRead p; VClose; VDone].
Proof.
  exists [AArrive (repeat 82 516); ATake; ARead; AShut; AShut; AShut; AHEnd; AClean], [VRead (repeat 82 516); VClose; VDone], (repeat 82 516). split; [apply repeat_length|]. split; [cbn [In]; intuition discriminate|]. split; [reflexivity|].
  split; [|reflexivity]. apply sees_exec. vm_compute. reflexivity.
Qed.
Print Assumptions C136_long_pdu_refuted.
Theorem C136_ends_only_partial : forall d rx tx s0 l s t, new_server d rx tx = Some s0 -> lrun (linit s0) l s t -> times_closed t = 1%nat \/ times_ended t = 1%nat ->
  In ADown l \/ exists p, In p (arrived l) /\ ~ acceptable p.
Proof.
  intros d rx tx s0 l s t N H E. pose proof (vinv_run _ _ _ _ _ _ _ N H) as [V1 V2 _ _ V5]. pose proof (einv_run _ _ _ _ H) as EI. apply V5. destruct E as [E|E].
  - change (cnt isclose t = 1%nat) in E. rewrite V2 in E. destruct (rd s); try discriminate E. reflexivity.
  - change (cnt isdone t = 1%nat) in E. rewrite V1 in E. destruct (hd s) eqn:HD; try discriminate E. unfold einv in EI. rewrite HD in EI. specialize (EI (or_intror eq_refl)). destruct (rd s); try discriminate EI; reflexivity.
Qed.
Print Assumptions C136_ends_only_partial.

(** ** C137: "the data a write handler was given stays the same after the handler has returned" *)
(** Two Write Commands of the same length, then a third: the buffer of the first now holds the third. *)
Theorem C137_buffer_reused_refuted : exists l1 l2 s1 t1 s2 t2 k, lrun (linit ex_s) l1 s1 t1 /\ working_on (hd s1) = Some (k, true) /\ req_of s1 k = Some [82; 6; 0; 1] /\
  In (VHandle ex_e [82; 6; 0; 1] None [CWrite 6 [1]]) t1 /\ lrun s1 l2 s2 t2 /\ req_of s2 k = Some [82; 6; 0; 3].
Proof.
  exists (cmd [82; 6; 0; 9] ++ [AArrive [82; 6; 0; 1]; AArrive [82; 6; 0; 2]; AArrive [82; 6; 0; 3]; ATake; ARead; ASeq; AHandle ex_e]).
  exists [AHPut; ATake; ARead; ASeq; AHandle ex_e; AHPut; ATake; ARead]. eexists _, _, _, _, _.
  split; [apply exec_run; vm_compute; reflexivity|]. split; [reflexivity|]. split; [vm_compute; reflexivity|]. split; [cbn; tauto|]. split; [apply exec_run; vm_compute; reflexivity|]. vm_compute. reflexivity.
Qed.
Print Assumptions C137_buffer_reused_refuted.
(** what holds: until the server is done with the request (its answer written), the bytes stay *)
Theorem C137_until_answered_partial : forall d rx tx s0 l s t k, new_server d rx tx = Some s0 -> lrun (linit s0) l s t -> working_on (hd s) = Some (k, true) ->
  exists t' x, servings t = t' ++ [x] /\ req_of s k = Some (pdu_of x).
Proof.
  intros d rx tx s0 l s t k N H W. apply (t_hand _ _ _ _ (tinv_run _ _ _ _ _ _ _ N H)). destruct (hd s); cbn in W |- *; try discriminate; injection W as ->; reflexivity.
Qed.
Print Assumptions C137_until_answered_partial.

(** ** C138: "until the response to an Exchange MTU Request is written, no PDU is longer than the old MTU" *)
Theorem C138_long_before_response_refuted : exists l t1 t2 p, sees l (t1 ++ VWrite (SCall 0) p true :: t2) /\ length p = 100%nat /\
  (forall x, In x t1 -> x <> VWrite SRsp [3; 3; 2] true) /\ In (VWrite SRsp [3; 3; 2] true) t2.
Proof.
  exists (on_n ++ [ACall 0 (repeat 9 97); AArrive [2; 100; 0]; ATake; ARead; ASeq; AHandle ex_e; AMtuN; ACTake 0; ACWrite 0 true; AMtuI; AHWrite true]).
  exists [VRead [18; 4; 0; 1; 0]; VHandle ex_e [18; 4; 0; 1; 0] (Some [19]) []; VWrite SRsp [19] true; VRead [2; 100; 0]; VHandle ex_e [2; 100; 0] (Some [3; 3; 2]) []], [VRet 0 COk; VWrite SRsp [3; 3; 2] true], (27 :: 3 :: 0 :: repeat 9 97).
  split; [apply sees_exec; vm_compute; reflexivity|]. split; [reflexivity|]. split; [|cbn; tauto]. intros x X. cbn in X. intuition (subst; discriminate).
Qed.
Print Assumptions C138_long_before_response_refuted.
(** what holds: nothing goes out that is longer than the initial MTU and than every MTU the peer has asked for so far *)
Theorem C138_within_an_mtu_partial : forall d rx tx s0 l s t o p, new_server d rx tx = Some s0 -> lrun (linit s0) l s t -> In (VWrite o p true) t ->
  Z.of_nat (length p) <= tx \/ exists a b, In [2; a; b] (map pdu_of (servings t)) /\ Z.of_nat (length p) <= de16 a b.
Proof. intros d rx tx s0 l s t o p N H I. exact (writes_within _ _ _ _ _ _ _ N H o p I). Qed.
Print Assumptions C138_within_an_mtu_partial.

(** ** C139: "nothing is sent on a notifier after the peer has switched it off" *)
Theorem C139_after_switch_off_refuted : exists l t1 t2, sees l (t1 ++ t2) /\ In (VHandle ex_e [18; 4; 0; 0; 0] (Some [19]) []) t1 /\ In (VWrite SRsp [19] true) t1 /\ unsolicited t1 = [] /\ unsolicited t2 = [[27; 3; 0; 7]].
Proof.
  exists (on_n ++ serve [18; 4; 0; 0; 0] ++ [ACall 0 [7]; ACTake 0; ACWrite 0 true]).
  exists [VRead [18; 4; 0; 1; 0]; VHandle ex_e [18; 4; 0; 1; 0] (Some [19]) []; VWrite SRsp [19] true; VRead [18; 4; 0; 0; 0]; VHandle ex_e [18; 4; 0; 0; 0] (Some [19]) []; VWrite SRsp [19] true], [VWrite (SCall 0) [27; 3; 0; 7] true; VRet 0 COk].
  split; [apply sees_exec; vm_compute; reflexivity|]. split; [cbn; tauto|]. split; [cbn; tauto|]. split; reflexivity.
Qed.
Print Assumptions C139_after_switch_off_refuted.
(** what holds: before the peer has asked for anything, nothing is sent *)
Theorem C139_not_before_asked_partial : forall d rx tx s0 l s t, new_server d rx tx = Some s0 -> lrun (linit s0) l s t -> servings t = [] -> unsolicited t = [].
Proof.
  intros d rx tx s0 l s t N H Z. pose proof (no_calls_before _ _ _ _ _ _ _ N H Z) as C. apply no_writes_no_unsolicited. intro k. destruct (cinv_run _ _ _ _ _ _ _ N H) as [_ _ C3]. destruct (C3 k) as (W & _); [rewrite C; cbn; lia|exact W].
Qed.
Print Assumptions C139_not_before_asked_partial.
