(** Histories: splitting, what a call was made on, what is read before the end. *)
Require Import Verif.Base Verif.M_attdb Verif.S_attdb Verif.M_attsrv Verif.S_attsrv Verif.P_attsrv2
  Verif.M_srvloop Verif.S_srvloop Verif.P_srvloop Verif.P_srvloop2 Verif.P_srvloop3 Verif.P_srvloop4 Verif.P_srvloop5 Verif.P_srvloop6 Verif.P_srvloop7.

Lemma lrun_split : forall b s a s' t, lrun s (a ++ b) s' t -> exists s1 t1 t2, lrun s a s1 t1 /\ lrun s1 b s' t2 /\ t = t1 ++ t2.
Proof.
  induction b as [|x b IH] using rev_ind; intros s a s' t H.
  - rewrite app_nil_r in H. exists s', t, []. split; [exact H|]. split; [constructor|now rewrite app_nil_r].
  - rewrite app_assoc in H. inversion H as [s2 E1 E2|s2 l s1 t1 y s3 v R ST E1 E2 E3 E4]; subst; [exfalso; match goal with Q : [] = _ |- _ => symmetry in Q; apply app_eq_nil in Q; destruct Q; discriminate end|].
    apply app_inj_tail in E2. destruct E2 as [-> ->]. destruct (IH _ _ _ _ R) as (sa & ta & tb & A & B & ->). exists sa, ta, (tb ++ v).
    split; [exact A|]. split; [econstructor; eauto|now rewrite app_assoc].
Qed.
(** what a call is about does not change *)
Definition same_call (c c' : caller) : Prop := c_ind c' = c_ind c /\ c_vh c' = c_vh c /\ c_data c' = c_data c.
Lemma upd_same_call : forall l j p c0 k c, nth_error l j = Some c0 -> nth_error l k = Some c -> exists c', nth_error (upd l j (set_ph p c0)) k = Some c' /\ same_call c c'.
Proof.
  induction l as [|z l IH]; intros j p c0 k c H1 H2; [destruct j; discriminate|]. destruct j as [|j], k as [|k]; cbn [upd nth_error] in *.
  - injection H1 as ->. injection H2 as ->. eexists. split; [reflexivity|repeat split].
  - exists c. split; [exact H2|repeat split].
  - exists c. split; [exact H2|repeat split].
  - eauto.
Qed.
Lemma caller_step : forall s a s' v k c, lstep s a = Some (s', v) -> nth_error (callers s) k = Some c -> exists c', nth_error (callers s') k = Some c' /\ same_call c c'.
Proof.
  intros s a s' v k c ST N. apply lstep_cases in ST. destruct ST as [_ [H|H]].
  - exists c. split; [|repeat split]. destruct H; exact N.
  - destruct H as [nt data n HN|j c0 n kk s'' HR HJ HP HG|kk HR HX|j c0 n HJ HP HB|j c0 n p HJ HP HI HY HW|j c0 n p ok s'' HJ HP HI HY HW HG|j c0 n HJ HP|j c0 n s'' HJ HP HG|j c0 n s'' HJ HP HC HG|j ok c0 n HJ HP HY].
    all: cbn [set_rd set_hd set_callers callers].
    + exists c. split; [|repeat split]. rewrite nth_error_app1; [exact N|]. apply nth_error_Some. congruence.
    + rewrite (give_back_callers _ _ _ _ _ _ HJ HG). eapply upd_same_call; eauto.
    + exists c. split; [exact N|repeat split].
    + destruct (set_cbuf_fields c0 None s) as (B1 & B2 & B3 & B4 & B5 & B6 & B7 & B8). assert (Q : nth_error (callers (set_cbuf c0 None s)) j = Some c0) by (rewrite B8; exact HJ).
      rewrite (upd_caller_callers j (CBuf n) _ _ Q), B8. eapply upd_same_call; eauto.
    + rewrite (upd_caller_callers j (CSent n) _ _ HJ). eapply upd_same_call; eauto.
    + rewrite (give_back_callers _ _ _ _ _ _ HJ HG). eapply upd_same_call; eauto.
    + rewrite (upd_caller_callers j (CWait n) _ _ HJ). eapply upd_same_call; eauto.
    + rewrite (give_back_callers _ _ _ _ _ _ HJ HG). eapply upd_same_call; eauto.
    + rewrite (give_back_callers _ _ _ _ _ _ HJ HG). eapply upd_same_call; eauto.
    + exists c. split; [exact N|repeat split].
Qed.
Lemma caller_run : forall s l s' t k c, lrun s l s' t -> nth_error (callers s) k = Some c -> exists c', nth_error (callers s') k = Some c' /\ same_call c c'.
Proof.
  intros s l s' t k c R N. induction R as [|s l s1 t a s2 v R IH ST]; [exists c; split; [exact N|repeat split]|].
  destruct (IH N) as (c1 & N1 & A1 & A2 & A3). destruct (caller_step _ _ _ _ _ _ ST N1) as (c2 & N2 & B1 & B2 & B3). exists c2. split; [exact N2|]. unfold same_call. repeat split; congruence.
Qed.
(** the call numbered by the calls before it *)
Lemma call_made : forall d rx tx s0 l1 nt data l2 s t, new_server d rx tx = Some s0 -> lrun (linit s0) (l1 ++ ACall nt data :: l2) s t ->
  exists s1 t1 n c, lrun (linit s0) l1 s1 t1 /\ nth_error (notifs (sv s1)) nt = Some n /\ nth_error (callers s) (calls_made l1) = Some c /\ c_ind c = nt_ind n /\ c_vh c = nt_vh n /\ c_data c = data.
Proof.
  intros d rx tx s0 l1 nt data l2 s t N H. replace (l1 ++ ACall nt data :: l2) with ((l1 ++ [ACall nt data]) ++ l2) in H by (rewrite <- app_assoc; reflexivity).
  destruct (lrun_split _ _ _ _ _ H) as (s2 & t2 & t3 & R2 & R3 & ->). destruct (lrun_split _ _ _ _ _ R2) as (s1 & t1 & t1' & R1 & R1' & ->).
  assert (ST : lstep s1 (ACall nt data) = Some (s2, t1')).
  { inversion R1' as [|x1 x2 x3 x4 x5 x6 x7 Q1 Q2 Q3 Q4 Q5 Q6]; subst. destruct x2; [|destruct x2; discriminate]. cbn in Q4. injection Q4 as ->.
    inversion Q1; subst; [exact Q2|]. match goal with Q : _ ++ [_] = [] |- _ => apply app_eq_nil in Q; destruct Q; discriminate end. }
  pose proof (c_count _ _ _ (cinv_run _ _ _ _ _ _ _ N R1)) as CC.
  apply lstep_cases in ST. destruct ST as [_ [ST|ST]]; [inversion ST|]. inversion ST as [nt' data' n HN| | | | | | | | |]; subst; try discriminate.
  - assert (Q : nth_error (callers (set_callers (callers s1 ++ [mkC (nt_ind n) (nt_vh n) data CNew]) s1)) (calls_made l1) = Some (mkC (nt_ind n) (nt_vh n) data CNew)).
    { cbn [set_callers callers]. rewrite CC, nth_error_app2, Nat.sub_diag by lia. reflexivity. }
    destruct (caller_run _ _ _ _ _ _ R3 Q) as (c & C1 & C2 & C3 & C4). exists s1, t1, n, c. cbn in C2, C3, C4. auto 10.
Qed.
(** after the last read everything that arrived was read, unless an unacceptable PDU ended the reading *)
Definition allread (l : list act) (s : ls) : Prop := gone (rd s) = true -> (inq s = [] /\ down s = true) \/ exists p, In p (arrived l) /\ ~ acceptable p.
Lemma allread_step : forall s0 l s t a s' v, tinv s0 l s t -> allread l s -> lstep s a = Some (s', v) -> allread (l ++ [a]) s'.
Proof.
  intros s0 l s t a s' v T A ST. apply lstep_cases in ST. destruct ST as [_ [H|H]].
  - assert (MONO : (exists p, In p (arrived l) /\ ~ acceptable p) -> exists p, In p (arrived (l ++ [a])) /\ ~ acceptable p).
    { intros (p & P1 & P2). exists p. split; [rewrite arrived_app; apply in_or_app; auto|exact P2]. }
    destruct H; unfold allread in *; cbn [set_in set_down set_bufs set_pool set_rd set_hd set_sv set_nbuf set_ibuf rd hd inq down];
      repeat match goal with G : rd _ = _ |- _ => rewrite G in *; clear G end; intro Q; try discriminate Q;
      try (destruct (A Q) as [[A1 A2]|A1]; [left; first [split; assumption|split; [assumption|reflexivity]]|right; exact (MONO A1)]).
    all: try (destruct (A eq_refl) as [[A1 A2]|A1]; [left; first [split; assumption|split; [assumption|reflexivity]]|right; exact (MONO A1)]).
    + destruct (A Q) as [[A1 A2]|A1]; [congruence|right; exact (MONO A1)].
    + left. auto.
    + right. exists p. split.
      * rewrite arrived_app. apply in_or_app. left. rewrite (t_arr _ _ _ _ T), H0. apply in_or_app. right. now left.
      * intros [B1 B2]. unfold max_mtu in H1. destruct H1 as [-> |H1]; [now elim B1|lia].
  - pose proof (call_core _ _ _ _ H) as (_ & IN & DW & _ & _ & _ & HR & _). intro G.
    assert (G0 : gone (rd s) = true) by (destruct HR as [E|(k & E1 & E2)]; [now rewrite <- E|rewrite E2 in G; discriminate]).
    destruct (A G0) as [[A1 A2]|(p & P1 & P2)]; [left; split; congruence|right; exists p; split; [rewrite arrived_app; apply in_or_app; auto|exact P2]].
Qed.
Lemma allread_run : forall d rx tx s0 l s t, new_server d rx tx = Some s0 -> lrun (linit s0) l s t -> allread l s.
Proof.
  intros d rx tx s0 l s t N H. remember (linit s0) as i eqn:E. induction H as [|s l s1 t a s2 v R IH ST]; subst; [intro Q; discriminate Q|].
  eapply allread_step; eauto. eapply tinv_run; eauto.
Qed.
(** before any request there is no notifier *)
Lemma no_calls_before : forall d rx tx s0 l s t, new_server d rx tx = Some s0 -> lrun (linit s0) l s t -> servings t = [] -> callers s = [].
Proof.
  intros d rx tx s0 l s t N H. remember (linit s0) as i eqn:E. induction H as [|s l s1 t a s2 v R IH ST]; intro Z; subst; [reflexivity|].
  rewrite servings_app in Z. apply app_eq_nil in Z. destruct Z as [Z1 Z2]. specialize (IH eq_refl Z1).
  assert (M0 : notifs s0 = []) by (unfold new_server in N; destruct ((rx <? 23) || (rx >? 515)); [discriminate|injection N as <-; reflexivity]).
  assert (C0 : cccs s0 = []) by (unfold new_server in N; destruct ((rx <? 23) || (rx >? 515)); [discriminate|injection N as <-; reflexivity]).
  assert (NN : notifs (sv s1) = []).
  { destruct (t_served _ _ _ _ (tinv_run _ _ _ _ _ _ _ N R)) as (sv' & S1 & S2 & S3). rewrite Z1 in S1. inversion S1 as [x E1 E2|x1 x2 x3 x4 x5 x6 x7 x8 x9 x10 E1 E2]; [|apply app_eq_nil in E2; destruct E2; discriminate].
    subst. destruct (hd s1) eqn:HD; try (rewrite (S2 ltac:(discriminate)); exact M0). destruct (S3 eq_refl) as (nl & K1 & K2). rewrite C0 in K1. cbn [cleanup] in K1. injection K1 as K1. rewrite K2. cbn [set_nn notifs]. congruence. }
  apply lstep_cases in ST. destruct ST as [_ [H|H]]; [destruct H; exact IH|].
  destruct H as [nt data n HN|j c0 n kk s'' HR HJ HP HG|kk HR HX|j c0 n HJ HP HB|j c0 n p HJ HP HI HY HW|j c0 n p ok s'' HJ HP HI HY HW HG|j c0 n HJ HP|j c0 n s'' HJ HP HG|j c0 n s'' HJ HP HC HG|j ok c0 n HJ HP HY].
  all: try (rewrite IH in HJ; destruct j; discriminate HJ).
  - rewrite NN in HN. destruct nt; discriminate.
  - exact IH.
Qed.
Lemma unsolicited_app : forall a b, unsolicited (a ++ b) = unsolicited a ++ unsolicited b.
Proof. intros. apply flat_map_app. Qed.
Lemma no_writes_no_unsolicited : forall t, (forall k, writes k t = []) -> unsolicited t = [].
Proof.
  induction t as [|v t IH]; intro H; [reflexivity|]. assert (Q : forall k, writes k [v] = [] /\ writes k t = []).
  { intro k. specialize (H k). change (v :: t) with ([v] ++ t) in H. rewrite writes_app in H. apply app_eq_nil in H. exact H. }
  change (v :: t) with ([v] ++ t). rewrite unsolicited_app, IH by (intro k; apply (Q k)). rewrite app_nil_r. unfold unsolicited. cbn [flat_map].
  destruct v as [ | |o p ok| | | | ]; try reflexivity. destruct o as [|k]; [reflexivity|]. destruct ok; [|reflexivity]. destruct (Q k) as [Q1 _]. cbn in Q1. rewrite Nat.eqb_refl in Q1. discriminate.
Qed.
(** the exchange of the buffers comes from an MTU request *)
Definition in_mtu (h : hphase) : bool := match h with HMtuN _ _ _ | HMtuI _ _ _ => true | _ => false end.
Lemma mtu_from : forall d rx tx s0 l s t, new_server d rx tx = Some s0 -> lrun (linit s0) l s t -> in_mtu (hd s) = true -> exists q, In (2 :: q) (arrived l).
Proof.
  intros d rx tx s0 l s t N H. remember (linit s0) as i eqn:E. induction H as [|s l s1 t a s2 v R IH ST]; intro M; subst; [discriminate|]. specialize (IH eq_refl).
  assert (MONO : in_mtu (hd s1) = true -> exists q, In (2 :: q) (arrived (l ++ [a]))).
  { intro Q. destruct (IH Q) as [q I]. exists q. rewrite arrived_app. apply in_or_app. now left. }
  pose proof (tinv_run _ _ _ _ _ _ _ N R) as [TA (rest & R1 & _ & R3) _ _ _ _].
  apply lstep_cases in ST. destruct ST as [NP [ST|ST]].
  - destruct ST; cbn [set_in set_down set_bufs set_pool set_rd set_hd set_sv set_nbuf set_ibuf hd in_mtu] in M; try discriminate M; try (apply MONO; exact M).
    + assert (I : In r (arrived l)). { rewrite TA. apply in_or_app. left. assert (J : In r (requests (reads t))).
        { rewrite R1, (R3 NP). apply in_or_app. right. apply in_or_app. left. unfold got, oreq. rewrite H, H0. now left. }
        apply filter_In in J. tauto. }
      unfold after_handle in M. destruct (Nat.eqb (txlen (sv s1)) (txlen s')) eqn:TX; [destruct o as [[|]|]; discriminate M|]. apply Nat.eqb_neq in TX.
      destruct (handle_env _ _ _ _ _ _ H1) as (_ & M' & _). destruct r as [|op q]; [injection H1 as <- _ _; now elim TX|]. destruct (Z.eq_dec op 2) as [->|NE].
      * exists q. rewrite arrived_app. apply in_or_app. now left.
      * exfalso. rewrite mtu_after_other in M' by assumption. lia.
    + apply MONO. now rewrite H.
    + destruct rsp; discriminate M.
  - pose proof (call_core _ _ _ _ ST) as (HD & _). destruct HD as [HD|HD]; rewrite HD in M; [discriminate|auto].
Qed.
Lemma down_step : forall s a s' v, lstep s a = Some (s', v) -> down s = true \/ a = ADown -> down s' = true.
Proof.
  intros s a s' v ST D. apply lstep_cases in ST. destruct ST as [_ [H|H]].
  - destruct H; cbn [set_in set_down set_bufs set_pool set_rd set_hd set_sv set_nbuf set_ibuf down]; destruct D as [D|D]; try discriminate D; auto.
  - pose proof (call_core _ _ _ _ H) as (_ & _ & DW & _). rewrite DW. destruct D as [D|D]; [exact D|]. destruct H; discriminate D.
Qed.
Lemma down_stays : forall s0 l s t, lrun s0 l s t -> In ADown l -> down s = true.
Proof.
  intros s0 l s t H. induction H as [|s l s1 t a s2 v R IH ST]; intro I; [destruct I|]. apply (down_step _ _ _ _ ST). apply in_app_or in I. destruct I as [I|[I|[]]]; auto.
Qed.
(** ---- the MTU of the connection ---- *)
Lemma att_write_mtu : forall s e a data s' st cs, att_write s e a data = Ret (s', st, cs) -> ctxmtu s' = ctxmtu s.
Proof.
  intros s e a data s' st cs H. unfold att_write in H. destruct (a_wh a) as [[i|ci]|]; [injection H as <- _ _; reflexivity| |injection H as <- _ _; reflexivity].
  destruct (cccd_write s ci data) as [[s1 st1]|] eqn:E; [|discriminate]. cbn [gbind] in H. injection H as <- _ _. unfold cccd_write, cccd_start_n, cccd_stop_n, cccd_start_i, cccd_stop_i in E.
  repeat match type of E with
  | @Ret _ _ = Ret _ => injection E as <- _
  | Panic = Ret _ => discriminate E
  | gbind (Ret _) _ = _ => cbn [gbind] in E
  | gbind Panic _ = _ => discriminate E
  | context [match ?x with _ => _ end] => destruct x
  | context [gbind (gle16 data) _] => destruct (gle16 data)
  end; reflexivity.
Qed.
Lemma handle_mtu : forall s e r s' o cs, handle s e r = Ret (s', o, cs) -> ctxmtu s' = ctxmtu s \/ exists a b, r = [2; a; b] /\ ctxmtu s' = de16 a b.
Proof.
  intros s e r s' o cs H. destruct r as [|op t]; [injection H as <- _ _; now left|].
  refine (handle_op (fun x => ctxmtu (fst (fst x)) = ctxmtu s \/ exists a b, op :: t = [2; a; b] /\ ctxmtu (fst (fst x)) = de16 a b) s e op t _ _ _ _ _ _ _ _ _ _ _ _ _ H); cbn [fst]; try (intros; now left).
  - intros -> s1 p G. apply h_mtu_inv in G. destruct G as [(-> & _)|(a & b & R & B & -> & _)]; [now left|]. right. exists a, b. split; [exact R|]. cbn [set_mtu ctxmtu]. lia.
  - intros _ s1 p c G. left. unfold h_write in G. destruct (Nat.ltb _ 3); [injection G as <- _ _; reflexivity|]. destruct (r16 _ 1) as [h|]; [|discriminate]. cbn [gbind] in G.
    destruct (db_at (s_db s) h) as [[a|]|]; [|injection G as <- _ _; reflexivity|discriminate]. cbn [gbind] in G. destruct (gfrom _ 3) as [v|]; [|discriminate]. cbn [gbind] in G.
    destruct (att_write s e a v) as [[[s2 st] c2]|] eqn:E; [|discriminate]. cbn [gbind] in G. injection G as <- _ _. eapply att_write_mtu; eauto.
  - intros _ s1 c G. left. unfold h_write_cmd in G. destruct (Nat.leb _ 3); [injection G as <- _; reflexivity|]. destruct (r16 _ 1) as [h|]; [|discriminate]. cbn [gbind] in G.
    destruct (db_at (s_db s) h) as [[a|]|]; [|injection G as <- _; reflexivity|discriminate]. cbn [gbind] in G. destruct (gfrom _ 3) as [v|]; [|discriminate]. cbn [gbind] in G.
    destruct (att_write s e a v) as [[[s2 st] c2]|] eqn:E; [|discriminate]. cbn [gbind] in G. injection G as <- _. eapply att_write_mtu; eauto.
  - intros _ s1 p G. left. unfold h_prepare in G. destruct (r16 _ 1) as [h|]; [|discriminate]. cbn [gbind] in G. destruct (Nat.ltb _ 3); [injection G as <- _; reflexivity|].
    destruct (db_at (s_db s) h) as [[a|]|]; [|injection G as <- _; reflexivity|discriminate]. cbn [gbind] in G. destruct (a_wh a); [|injection G as <- _; reflexivity].
    destruct (gfrom _ 5); [|discriminate]. cbn [gbind] in G. destruct (r16 _ 3); [|discriminate]. cbn [gbind] in G. injection G as <- _. destruct (prep s); reflexivity.
  - intros _ s1 p c G. left. unfold h_execute in G. destruct (Nat.ltb _ 2); [injection G as <- _ _; reflexivity|]. destruct (gidx _ 1) as [f|]; [|discriminate]. cbn [gbind] in G.
    destruct (f =? 0); [injection G as <- _ _; reflexivity|]. destruct (f =? 1); [|injection G as <- _ _; reflexivity]. destruct (prep s) as [a|]; [|discriminate]. destruct (a_wh a); [|injection G as <- _ _; reflexivity].
    destruct (att_write s e a (prepdata s)) as [[[s2 st] c2]|] eqn:E; [|discriminate]. cbn [gbind] in G. injection G as <- _ _. cbn [set_prep ctxmtu]. eapply att_write_mtu; eauto.
Qed.
Lemma served_mtu : forall s0 l s, served s0 l s -> ctxmtu s = ctxmtu s0 \/ exists a b, In [2; a; b] (map pdu_of l) /\ ctxmtu s = de16 a b.
Proof.
  intros s0 l s H. induction H; [now left|]. rewrite map_app. destruct (handle_mtu _ _ _ _ _ _ H0) as [E|(a & b & -> & E)].
  - rewrite E. destruct IHserved as [Q|(a & b & I & Q)]; [now left|]. right. exists a, b. split; [apply in_or_app; now left|exact Q].
  - right. exists a, b. split; [apply in_or_app; right; now left|exact E].
Qed.
(** nothing longer than an MTU of this connection goes out *)
Definition within (tx : Z) (t : list vis) (p : bytes) : Prop := Z.of_nat (length p) <= tx \/ exists a b, In [2; a; b] (map pdu_of (servings t)) /\ Z.of_nat (length p) <= de16 a b.
Lemma within_app : forall tx t v p, within tx t p -> within tx (t ++ v) p.
Proof. intros tx t v p [H|(a & b & I & H)]; [now left|]. right. exists a, b. split; [rewrite servings_app, map_app; apply in_or_app; now left|exact H]. Qed.
Lemma writes_within : forall d rx tx s0 l s t, new_server d rx tx = Some s0 -> lrun (linit s0) l s t -> forall o p, In (VWrite o p true) t -> within tx t p.
Proof.
  intros d rx tx s0 l s t N H. remember (linit s0) as i eqn:E. induction H as [|s l s1 t a s2 v R IH ST]; intros o p I; subst; [destruct I|]. apply in_app_or in I. destruct I as [I|I]; [apply within_app; eauto|]. apply within_app.
  assert (M : may_write s1 p true = true).
  { apply lstep_cases in ST. destruct ST as [_ [ST|ST]]; destruct ST; cbn [In] in I; repeat (destruct I as [I|I]; try discriminate I); try contradiction; injection I; intros; subst; assumption. }
  assert (W : Z.of_nat (length p) <= ctxmtu (sv s1)) by (unfold may_write in M; cbn [negb orb] in M; lia).
  assert (T0 : ctxmtu s0 = tx) by (unfold new_server in N; destruct ((rx <? 23) || (rx >? 515)); [discriminate|injection N as <-; reflexivity]).
  destruct (t_served _ _ _ _ (tinv_run _ _ _ _ _ _ _ N R)) as (sv' & S1 & S2 & S3).
  assert (Q : ctxmtu (sv s1) = ctxmtu sv'). { destruct (hd s1) eqn:HD; try (now rewrite (S2 ltac:(discriminate))). destruct (S3 eq_refl) as (nl & _ & ->). reflexivity. }
  rewrite Q in W. destruct (served_mtu _ _ _ S1) as [Z0|(x & y & J & Z0)]; [left; lia|right; exists x, y; split; [exact J|lia]].
Qed.
