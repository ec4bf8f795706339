(** A client with an embedded server: exclusion of requests and answers; nothing gets stuck. *)
Require Import Verif.Base Verif.M_attdb Verif.M_attsrv Verif.S_attsrv Verif.M_srvloop Verif.S_srvloop Verif.P_srvloop Verif.P_srvloop2 Verif.P_srvloop3 Verif.P_srvloop4 Verif.P_srvloop5 Verif.P_srvloop6 Verif.M_dual Verif.S_dual Verif.P_dual Verif.P_dual2.
Require Verif.M_attloop Verif.S_attloop Verif.P_attloop.

Lemma urun_trans : forall a t b t' c, urun a t b -> urun b t' c -> urun a (t ++ t') c.
Proof. intros a t b t' c A B. induction B as [s|s t' s1 e s2 R IH ST]; [now rewrite app_nil_r|]. rewrite app_assoc. econstructor; [exact (IH A)|exact ST]. Qed.
Lemma urun_one : forall a e b, ustep a e b -> urun a e b.
Proof. intros a e b H. change e with ([] ++ e). econstructor; [constructor|exact H]. Qed.
Lemma urun_split : forall s t s', urun s t s' -> forall t1 x t2, t = t1 ++ x :: t2 -> exists ta sa e1 e2 sb, urun s ta sa /\ ustep sa (e1 ++ x :: e2) sb /\ t1 = ta ++ e1.
Proof.
  intros s t s' H. induction H as [s|s t s1 e s2 H IH S]; intros t1 x t2 E; [destruct t1; discriminate|].
  destruct (P_attloop.split_app _ _ _ _ _ E) as [(d' & E1 & _)|(c' & -> & ->)]; [exact (IH _ _ _ E1)|].
  exists t, s1, c', t2, s2. auto.
Qed.
Lemma server_no_rsp : forall s a s' v, server_act a = true -> lstep s a = Some (s', v) -> forall p ok, ~ In (VWrite SRsp p ok) v.
Proof.
  intros s a s' v A ST. apply lstep_cases in ST. destruct ST as [_ [H|H]].
  - destruct H; try discriminate A; intros p ok I; cbn in I; intuition discriminate.
  - destruct (call_core _ _ _ _ H) as (_ & _ & _ & _ & _ & _ & _ & _ & E & _). exact E.
Qed.
Lemma answer_step : forall u e u' e1 p ok e2, ustep u e u' -> e = e1 ++ US (VWrite SRsp p ok) :: e2 -> e1 = [] /\ nth_error (M_attloop.callers (cl u)) 0 = Some M_attloop.KHold.
Proof.
  intros u e u' e1 p ok e2 ST E. assert (I : In (US (VWrite SRsp p ok)) e) by (rewrite E; apply in_or_app; right; now left).
  destruct ST as [s e c' P L F R Y|s a s' v A L|s b q O W Q|s k rsp W T Q|s k rsp ok' W Q M|s k W|s O W AL]; try contradiction.
  - apply in_map_iff in I. destruct I as (x & D & _). discriminate.
  - apply in_map_iff in I. destruct I as (x & D & I). injection D as ->. exfalso. exact (server_no_rsp _ _ _ _ A L _ _ I).
  - destruct I as [I|[]]. discriminate.
  - symmetry in E. apply P_attloop.single in E. destruct E as (-> & _ & _). auto.
Qed.
Lemma open_pending : forall t, (forall t1 t2, t = t1 ++ t2 -> 0 <= S_attloop.open_requests (client_view t1)) -> own_pending t -> 1 <= S_attloop.open_requests (client_view t).
Proof.
  intros t P (a & k & r & b & -> & F). specialize (P a _ eq_refl). rewrite client_app, P_attloop.open_app. change (UC (M_attloop.ESent k r) :: b) with ([UC (M_attloop.ESent k r)] ++ b). rewrite client_app, P_attloop.open_app.
  change (S_attloop.open_requests (client_view [UC (M_attloop.ESent k r)])) with 1. assert (0 <= S_attloop.open_requests (client_view b)); [|lia]. clear P. induction b as [|x b IH]; [cbn; lia|].
  apply Forall_cons_iff in F. destruct F as [F1 F2]. specialize (IH F2). change (x :: b) with ([x] ++ b). rewrite client_app, P_attloop.open_app. destruct x as [e|v]; [|exact IH]. change (client_view [UC e]) with [e].
  assert (0 <= S_attloop.open_requests [e]); [destruct e; try contradiction; vm_compute; discriminate|lia].
Qed.
Lemma run_prefix : forall s t s', urun s t s' -> forall t1 t2, t = t1 ++ t2 -> exists ta sa e1 e2 sb, urun s ta sa /\ (ustep sa (e1 ++ e2) sb \/ e1 ++ e2 = [] /\ sb = sa) /\ t1 = ta ++ e1.
Proof.
  intros s t s' H t1 t2 E. destruct t2 as [|x t2].
  - rewrite app_nil_r in E. subst t1. exists t, s', [], [], s'. split; [exact H|]. split; [right; split; reflexivity|now rewrite app_nil_r].
  - destruct (urun_split _ _ _ H _ _ _ E) as (ta & sa & e1 & e2 & sb & A & B & C). exists ta, sa, e1, (x :: e2), sb. auto.
Qed.
(** open requests never go below zero in any prefix of a step *)
Lemma step_open : forall s t e s' e1 e2, P_attloop.inv s t -> M_attloop.lstep s e s' -> e = e1 ++ e2 -> 0 <= S_attloop.open_requests (t ++ e1).
Proof.
  intros s t e s' e1 e2 I ST E. rewrite P_attloop.open_app. pose proof (P_attloop.iv_open _ _ I) as O. assert (N : 0 <= S_attloop.open_requests t) by (rewrite O; unfold P_attloop.cnt; lia).
  destruct e2 as [|x e2].
  - rewrite app_nil_r in E. subst e1. rewrite <- P_attloop.open_app. rewrite (P_attloop.iv_open _ _ (P_attloop.inv_step _ _ _ _ I ST)). unfold P_attloop.cnt. lia.
  - destruct e1 as [|y e1]; [cbn; lia|]. assert (Z : S_attloop.open_requests (y :: e1) = 0); [|lia]. destruct ST; try discriminate E; try (injection E as <- E; destruct e1; discriminate E).
    + apply P_attloop.open_none. destruct (P_attloop.loop_step_spec s b H0) as (_ & _ & F & _). rewrite E in F. apply Forall_app in F. exact (proj1 F).
    + injection E as <- E. destruct e1; [reflexivity|destruct e1; discriminate E].
Qed.
Lemma client_prefix : forall e1 e2 : list uev, client_view (e1 ++ e2) = client_view e1 ++ client_view e2. Proof. exact client_app. Qed.
Lemma open_nonneg : forall n s0 b t u, urun (uinit n s0 b) t u -> forall t1 t2, t = t1 ++ t2 -> 0 <= S_attloop.open_requests (client_view t1).
Proof.
  intros n s0 b t u H t1 t2 E. destruct (run_prefix _ _ _ H _ _ E) as (ta & sa & e1 & e2 & sb & A & B & ->). rewrite client_app.
  pose proof (P_attloop.inv_runs _ _ _ (client_runs _ _ _ _ _ A)) as I. assert (N : 0 <= S_attloop.open_requests (client_view ta)) by (rewrite (P_attloop.iv_open _ _ I); unfold P_attloop.cnt; lia).
  destruct B as [B|[B _]].
  - destruct (client_step _ _ _ B) as [L|[L _]]; rewrite client_app in L.
    + exact (step_open _ _ _ _ _ _ I L eq_refl).
    + apply app_eq_nil in L. destruct L as [-> _]. now rewrite app_nil_r.
  - apply app_eq_nil in B. destruct B as [-> _]. cbn [client_view flat_map]. now rewrite app_nil_r.
Qed.
Lemma exclusion : forall n s0 b t u t1 p ok t2, urun (uinit n s0 b) t u -> t = t1 ++ US (VWrite SRsp p ok) :: t2 -> S_attloop.open_requests (client_view t1) = 0.
Proof.
  intros n s0 b t u t1 p ok t2 H E. destruct (urun_split _ _ _ H _ _ _ E) as (ta & sa & e1 & e2 & sb & A & B & ->). destruct (answer_step _ _ _ _ _ _ _ B eq_refl) as [-> K]. rewrite app_nil_r.
  pose proof (P_attloop.inv_runs _ _ _ (client_runs _ _ _ _ _ A)) as I. rewrite (P_attloop.iv_open _ _ I).
  pose proof (P_attloop.iv_tok _ _ I) as T. assert (W : P_attloop.cnt P_attloop.active (M_attloop.callers (cl sa)) <= 1) by (destruct (M_attloop.token (cl sa)); lia).
  destruct (Z.eq_dec (P_attloop.cnt P_attloop.waits (M_attloop.callers (cl sa))) 0) as [D|D]; [exact D|]. exfalso.
  destruct (P_attloop.waiter_exists (M_attloop.callers (cl sa))) as (j & op & J); [unfold P_attloop.cnt in *; lia|].
  assert (0%nat = j) by (apply (P_attloop.cnt_two _ P_attloop.active _ _ _ _ _ K J); auto). subst j. congruence.
Qed.

(** ** Nothing gets stuck *)
Section Finish.
Variables (d : dbt) (rx tx : Z) (n : nat) (s0 : srv) (at0 : bool) (en : env).
Hypothesis NS : new_server d rx tx = Some s0.
Definition reaches (u : du) : Prop := exists t, urun (uinit n s0 at0) t u.
Definition no_rx (t : list uev) : Prop := Forall (fun x => match x with UC (M_attloop.ERx _) | UC (M_attloop.EDropReq _) => False | _ => True end) t.
Lemma reaches_run : forall u t u', reaches u -> urun u t u' -> reaches u'.
Proof. intros u t u' [t0 A] B. exists (t0 ++ t). eapply urun_trans; eauto. Qed.
Lemma reaches_sinv : forall u, reaches u -> exists t, sinv s0 t u.
Proof. intros u [t A]. exists t. eapply sinv_runs; eauto. Qed.
(** from [u] the goroutines can get to a state with [P], without anything being received *)
Definition leads (u : du) (P : du -> Prop) : Prop := exists t u', urun u t u' /\ no_rx t /\ P u'.
Lemma leads_now : forall u (P : du -> Prop), P u -> leads u P.
Proof. intros u P H. exists [], u. split; [constructor|]. split; [constructor|exact H]. Qed.
Lemma leads_step : forall u e u' (P : du -> Prop), ustep u e u' -> no_rx e -> leads u' P -> leads u P.
Proof. intros u e u' P A N (t & v & B & M & H). exists (e ++ t), v. split; [eapply urun_trans; [apply urun_one; exact A|exact B]|]. split; [apply Forall_app; split; assumption|exact H]. Qed.
Lemma leads_trans : forall u (P Q : du -> Prop), reaches u -> leads u P -> (forall v, reaches v -> P v -> leads v Q) -> leads u Q.
Proof.
  intros u P Q R (t & v & A & N & H) K. destruct (K v (reaches_run _ _ _ R A) H) as (t' & w & B & M & G). exists (t ++ t'), w. split; [eapply urun_trans; eauto|]. split; [apply Forall_app; split; assumption|exact G].
Qed.
Lemma no_rx_us : forall v, no_rx (map US v).
Proof. intro v. apply Forall_forall. intros x X. apply in_map_iff in X. destruct X as (y & <- & _). exact Logic.I. Qed.
Definition same (u v : du) : Prop := hd (sl v) = hd (sl u) /\ M_attloop.inq (cl v) = M_attloop.inq (cl u) /\ ap v = ap u.
Lemma same_refl : forall u, same u u. Proof. intro u. repeat split. Qed.
(** a call holding a buffer can be brought to return it *)
Lemma give_back_buf : forall k c m r s s', give_back k c m r s = Some s' -> cbuf c s' = Some m /\ hd s' = hd s.
Proof.
  intros k c m r s s' H. pose proof (give_back_core _ _ _ _ _ _ H) as [CO _]. unfold core in CO. injection CO as _ _ _ _ HD _. split; [|exact HD].
  unfold give_back in H. destruct (cbuf c s); [discriminate|]. injection H as <-. destruct (upd_caller_fields k (CRet r) (set_cbuf c (Some m) s)) as (_ & _ & _ & _ & _ & _ & _ & A & B). unfold cbuf, set_cbuf in *. destruct (c_ind c); [rewrite B|rewrite A]; reflexivity.
Qed.
Definition chan (ind : bool) (s : ls) : option nat := if ind then ibuf s else nbuf s.
Lemma server_move : forall u a s' v (P : du -> Prop), server_act a = true -> lstep (sl u) a = Some (s', v) -> leads (mkDu (cl u) s' (ap u)) P -> leads u P.
Proof. intros u a s' v P A L H. eapply leads_step; [exact (u_server u a s' v A L)|apply no_rx_us|exact H]. Qed.
Lemma free_buffer : forall ind u, reaches u -> hd (sl u) <> HPanic -> leads u (fun v => same u v /\ cl v = cl u /\ exists m, chan ind (sl v) = Some m).
Proof.
  intros ind u R NP. destruct (reaches_sinv u R) as [t Z]. pose proof (z_k _ _ _ Z) as K. destruct (chan ind (sl u)) as [m|] eqn:C.
  { apply leads_now. split; [apply same_refl|]. split; [reflexivity|]. eauto. }
  assert (CN : cnt (holds ind) (callers (sl u)) = 1%nat). { unfold chan in C. destruct ind; [pose proof (k_i _ K) as X|pose proof (k_n _ K) as X]; rewrite C in X; cbn [here] in X; lia. }
  destruct (cnt_pos (holds ind) (callers (sl u))) as (k & c & NK & HC); [lia|]. unfold holds in HC. apply andb_true_iff in HC. destruct HC as [HI HB]. apply Bool.eqb_prop in HI.
  assert (LS : forall x a, hd x <> HPanic -> lstep x a = live_step x a) by (intros x a Q; unfold lstep; destruct (hd x); try reflexivity; contradiction).
  assert (CB : forall s, cbuf c s = chan ind s) by (intro s; unfold cbuf, chan; now rewrite HI).
  (* the last step, from the select *)
  assert (TW : forall w k c m, reaches w -> hd (sl w) <> HPanic -> same u w -> cl w = cl u -> c_ind c = ind -> nth_error (callers (sl w)) k = Some c -> c_ph c = CWait m -> leads w (fun v => same u v /\ cl v = cl u /\ exists m, chan ind (sl v) = Some m)).
  { clear - NS LS. intros w k c m R NP S1 S2 HI NK P. destruct (reaches_sinv w R) as [t Z]. destruct (give_back_ok (sl w) k c m CErrTimeout (z_k _ _ _ Z) NK ltac:(now rewrite P)) as [s' G].
    apply (server_move w (ACTimeout k) s' [VRet k CErrTimeout]); [reflexivity|rewrite LS by exact NP; cbn [live_step]; rewrite NK, P, G; reflexivity|]. apply leads_now. destruct (give_back_buf _ _ _ _ _ _ G) as [B1 B2].
    split; [|split; [exact S2|]]. { destruct S1 as (A1 & A2 & A3). repeat split; cbn [sl cl ap]; congruence. }
    exists m. cbn [sl]. unfold chan. unfold cbuf in B1. now rewrite HI in B1. }
  destruct (c_ph c) as [|m|m|m|r] eqn:P; cbn [buf_of] in HB; try discriminate HB.
  - (* about to write *)
    assert (M : (23 <= m)%nat) by (pose proof (Forall_nth _ _ _ _ (k_big _ K) NK) as Q; cbv beta in Q; rewrite P in Q; exact Q).
    destruct (notify_ok (if c_ind c then 29 else 27) m (c_vh c) (c_data c) M) as [p NPD].
    destruct (give_back_ok (sl u) k c m CErrWrite K NK ltac:(now rewrite P)) as [s' G].
    apply (server_move u (ACWrite k false) s' [VWrite (SCall k) p false; VRet k CErrWrite]); [reflexivity|rewrite LS by exact NP; cbn [live_step]; rewrite NK, P, NPD; cbn [may_write negb orb andb]; rewrite G; reflexivity|].
    apply leads_now. destruct (give_back_buf _ _ _ _ _ _ G) as [B1 B2]. split; [repeat split; exact B2|]. split; [reflexivity|]. exists m. cbn [sl]. now rewrite <- CB.
  - (* written, before the select *)
    destruct (upd_caller_fields k (CWait m) (sl u)) as (A1 & A2 & A3 & A4 & A5 & A6 & A7 & A8 & A9).
    assert (ST : ustep u (map US []) (mkDu (cl u) (upd_caller k (CWait m) (sl u)) (ap u))) by (apply (u_server u (ACSelect k)); [reflexivity|rewrite LS by exact NP; cbn [live_step]; rewrite NK, P; reflexivity]).
    eapply leads_step; [exact ST|apply no_rx_us|]. apply (TW _ k (set_ph (CWait m) c) m); cbn [sl cl ap]; auto.
    + eapply reaches_run; [exact R|]. apply urun_one. exact ST.
    + rewrite A6. exact NP.
    + repeat split; cbn [sl cl ap]. exact A6.
    + rewrite (upd_caller_callers k (CWait m) (sl u) c NK), nth_error_upd, Nat.eqb_refl. assert (L : (k < length (callers (sl u)))%nat) by (apply nth_error_Some; congruence). apply Nat.ltb_lt in L. now rewrite L.
  - apply (TW u k c m); auto. apply same_refl.
Qed.
Lemma free_token : forall u k rsp, reaches u -> hd (sl u) = HWrite k rsp -> leads u (fun v => sl v = sl u /\ M_attloop.inq (cl v) = M_attloop.inq (cl u) /\ ap v = ap u /\ nth_error (M_attloop.callers (cl v)) 0 = Some M_attloop.KHold).
Proof.
  intros u k rsp R W. destruct (reaches_sinv u R) as [t Z]. destruct R as [t0 R]. pose proof (P_attloop.inv_runs _ _ _ (client_runs _ _ _ _ _ R)) as I.
  destruct (z_tok _ _ _ Z) as [T|[T _]]; [|apply leads_now; auto].
  assert (TK : forall w, sl w = sl u -> M_attloop.inq (cl w) = M_attloop.inq (cl u) -> ap w = ap u -> M_attloop.token (cl w) = true -> nth_error (M_attloop.callers (cl w)) 0 = Some M_attloop.KIdle ->
    leads w (fun v => sl v = sl u /\ M_attloop.inq (cl v) = M_attloop.inq (cl u) /\ ap v = ap u /\ nth_error (M_attloop.callers (cl v)) 0 = Some M_attloop.KHold)).
  { intros w E1 E2 E3 TO C0. eapply leads_step; [apply (u_take w k rsp); [now rewrite E1|exact TO|exact C0]|constructor|]. apply leads_now. cbn [sl cl ap]. split; [exact E1|]. split; [exact E2|]. split; [exact E3|]. apply set_caller0. now apply nth0_len in C0. }
  destruct (M_attloop.token (cl u)) eqn:TO; [now apply TK|]. pose proof (P_attloop.iv_tok _ _ I) as IT. rewrite TO in IT.
  assert (X : exists j x, nth_error (M_attloop.callers (cl u)) j = Some x /\ P_attloop.active x = true).
  { clear - IT. induction (M_attloop.callers (cl u)) as [|x l IH]; [cbn in IT; discriminate|]. unfold P_attloop.cnt in IT. cbn [filter] in IT. destruct (P_attloop.active x) eqn:A; [exists 0%nat, x; auto|]. destruct (IH IT) as (j & y & J & Y). exists (S j), y. auto. }
  destruct X as (j & x & J & X). destruct j as [|j]; [rewrite T in J; injection J as <-; discriminate|].
  assert (UP : nth_error (upd (M_attloop.callers (cl u)) (S j) M_attloop.KIdle) 0 = nth_error (M_attloop.callers (cl u)) 0) by (destruct (M_attloop.callers (cl u)); reflexivity).
  assert (NP : hd (sl u) <> HPanic) by (rewrite W; discriminate).
  destruct x as [| |op]; try discriminate X.
  - eapply leads_step; [apply (u_client u [] (M_attloop.set_caller (cl u) true (S j) M_attloop.KIdle)); [exact NP|now apply M_attloop.l_send_fail|constructor|constructor|exact UP]|constructor|].
    apply TK; auto. cbn [cl M_attloop.set_caller M_attloop.callers]. now rewrite UP.
  - eapply leads_step; [apply (u_client u [M_attloop.EGave (S j)] (M_attloop.set_caller (cl u) true (S j) M_attloop.KIdle)); [exact NP|now apply M_attloop.l_timeout with op|repeat constructor|repeat constructor|exact UP]|repeat constructor|].
    apply TK; auto. cbn [cl M_attloop.set_caller M_attloop.callers]. now rewrite UP.
Qed.
Definition settled (q : list bytes) (v : du) : Prop := hd (sl v) = HPanic \/ hd (sl v) = HWait /\ M_attloop.inq (cl v) = q /\ ap v = AOn.
Lemma finish_put : forall u k, hd (sl u) = HPut k -> ap u = AOn -> leads u (settled (M_attloop.inq (cl u))).
Proof. intros u k H A. eapply leads_step; [exact (u_next u k H)|constructor|]. apply leads_now. right. auto. Qed.
Lemma finish_write : forall u k rsp, reaches u -> hd (sl u) = HWrite k rsp -> ap u = AOn -> leads u (settled (M_attloop.inq (cl u))).
Proof.
  intros u k rsp R H A. apply (leads_trans u _ _ R (free_token u k rsp R H)). intros v RV (E1 & E2 & E3 & E4).
  eapply leads_step; [apply (u_write v k rsp false); [now rewrite E1|exact E4|reflexivity]|repeat constructor|]. rewrite <- E2. apply (finish_put (mkDu (M_attloop.set_caller (cl v) true 0 M_attloop.KIdle) (set_hd (HPut k) (sl v)) (ap v)) k); [reflexivity|cbn [ap]; congruence].
Qed.
Lemma finish_after : forall u k rsp, reaches u -> hd (sl u) = match rsp with [] => HPut k | _ => HWrite k rsp end -> ap u = AOn -> leads u (settled (M_attloop.inq (cl u))).
Proof. intros u k rsp R H A. destruct rsp; [exact (finish_put u k H A)|exact (finish_write u k _ R H A)]. Qed.
Lemma lstep_live : forall x a, hd x <> HPanic -> lstep x a = live_step x a.
Proof. intros x a Q. unfold lstep. destruct (hd x); try reflexivity; contradiction. Qed.
Lemma finish_mtui : forall u k m rsp, reaches u -> hd (sl u) = HMtuI k m rsp -> ap u = AOn -> leads u (settled (M_attloop.inq (cl u))).
Proof.
  intros u k m rsp R H A. apply (leads_trans u _ _ R (free_buffer true u R ltac:(rewrite H; discriminate))). intros v RV ((E1 & E2 & E3) & E4 & x & C). rewrite H in E1. rewrite A in E3.
  assert (ST : ustep v (map US []) (mkDu (cl v) (set_hd (match rsp with [] => HPut k | _ => HWrite k rsp end) (set_ibuf (Some m) (sl v))) (ap v))).
  { apply (u_server v AMtuI); [reflexivity|]. rewrite lstep_live by (rewrite E1; discriminate). cbn [live_step]. rewrite E1. cbn [chan] in C. rewrite C. reflexivity. }
  eapply leads_step; [exact ST|constructor|]. rewrite <- E2. apply (finish_after (mkDu (cl v) _ (ap v)) k rsp); [|reflexivity|exact E3]. eapply reaches_run; [exact RV|]. apply urun_one. exact ST.
Qed.
Lemma finish_mtun : forall u k m rsp, reaches u -> hd (sl u) = HMtuN k m rsp -> ap u = AOn -> leads u (settled (M_attloop.inq (cl u))).
Proof.
  intros u k m rsp R H A. apply (leads_trans u _ _ R (free_buffer false u R ltac:(rewrite H; discriminate))). intros v RV ((E1 & E2 & E3) & E4 & x & C). rewrite H in E1. rewrite A in E3.
  assert (ST : ustep v (map US []) (mkDu (cl v) (set_hd (HMtuI k m rsp) (set_nbuf (Some m) (sl v))) (ap v))).
  { apply (u_server v AMtuN); [reflexivity|]. rewrite lstep_live by (rewrite E1; discriminate). cbn [live_step]. rewrite E1. cbn [chan] in C. rewrite C. reflexivity. }
  eapply leads_step; [exact ST|constructor|]. rewrite <- E2. apply (finish_mtui (mkDu (cl v) _ (ap v)) k m rsp); [|reflexivity|exact E3]. eapply reaches_run; [exact RV|]. apply urun_one. exact ST.
Qed.
Lemma finish_got : forall u k, reaches u -> hd (sl u) = HGot k -> ap u = AOn -> leads u (settled (M_attloop.inq (cl u))).
Proof.
  intros u k R H A. destruct (reaches_sinv u R) as [t Z]. destruct (z_got _ _ _ Z k H) as [r Q]. destruct (handle (sv (sl u)) en r) as [[[s' o] cs]|] eqn:HH.
  - assert (ST : ustep u (map US [VHandle en r o cs]) (mkDu (cl u) (set_hd (after_handle k (sv (sl u)) s' o) (set_sv s' (sl u))) (ap u))).
    { apply (u_server u (AHandle en)); [reflexivity|]. rewrite lstep_live by (rewrite H; discriminate). cbn [live_step]. rewrite H, Q, HH. reflexivity. }
    eapply leads_step; [exact ST|repeat constructor|]. assert (R' := reaches_run _ _ _ R (urun_one _ _ _ ST)).
    set (rsp := match o with Some x => x | None => [] end). change (M_attloop.inq (cl u)) with (M_attloop.inq (cl (mkDu (cl u) (set_hd (after_handle k (sv (sl u)) s' o) (set_sv s' (sl u))) (ap u)))).
    destruct (Nat.eqb (txlen (sv (sl u))) (txlen s')) eqn:EQ.
    + apply (finish_after _ k rsp); [exact R'| |exact A]. cbn [sl set_hd hd]. unfold after_handle. rewrite EQ. fold rsp. destruct rsp; reflexivity.
    + apply (finish_mtun _ k (txlen s') rsp); [exact R'| |exact A]. cbn [sl set_hd hd]. unfold after_handle. rewrite EQ. reflexivity.
  - eapply leads_step; [apply (u_server u (AHandle en) (set_hd HPanic (sl u)) []); [reflexivity|rewrite lstep_live by (rewrite H; discriminate); cbn [live_step]; rewrite H, Q, HH; reflexivity]|constructor|]. apply leads_now. now left.
Qed.
Lemma finish_current : forall u, reaches u -> ap u = AOn -> leads u (settled (M_attloop.inq (cl u))).
Proof.
  intros u R A. destruct (reaches_sinv u R) as [t Z]. destruct (z_end _ _ _ Z) as [E1 E2]. destruct (hd (sl u)) eqn:H; try contradiction.
  - apply leads_now. right. auto.
  - eapply finish_got; eauto.
  - eapply finish_mtun; eauto.
  - eapply finish_mtui; eauto.
  - eapply finish_write; eauto.
  - eapply finish_put; eauto.
  - apply leads_now. now left.
Qed.
Lemma finish_all : forall q u, M_attloop.inq (cl u) = q -> reaches u -> ap u = AOn -> leads u (settled []).
Proof.
  induction q as [|b q IH]; intros u Q R A; (apply (leads_trans u _ _ R (finish_current u R A)); rewrite Q; intros v RV [P|(P1 & P2 & P3)]; [apply leads_now; now left|]).
  - apply leads_now. right. auto.
  - assert (ST := u_recv v b q P3 P1 P2). eapply leads_step; [exact ST|repeat constructor|]. apply IH; [reflexivity|eapply reaches_run; [exact RV|apply urun_one; exact ST]|exact P3].
Qed.
End Finish.
