(** The end of a connection; the cause of a crash; the link with the sequential model. *)
Require Import Verif.Base Verif.M_attdb Verif.S_attdb Verif.M_attsrv Verif.S_attsrv Verif.P_attsrv2 Verif.P_attsrv3 Verif.P_attsrv6
  Verif.M_srvloop Verif.S_srvloop Verif.P_srvloop Verif.P_srvloop2 Verif.P_srvloop3 Verif.P_srvloop4 Verif.P_srvloop5 Verif.P_srvloop6.

Definition isdone (v : vis) : bool := match v with VDone => true | _ => false end.
Definition isclose (v : vis) : bool := match v with VClose => true | _ => false end.
Definition gone (r : rphase) : bool := match r with RFail | RShut1 | RShut2 | RStopped => true | _ => false end.
Record vinv (l : list act) (s : ls) (t : list vis) : Prop := mkV {
  v_done : cnt isdone t = (match hd s with HDone => 1 | _ => 0 end)%nat;
  v_close : cnt isclose t = (match rd s with RStopped => 1 | _ => 0 end)%nat;
  v_data : map c_data (callers s) = call_data l;
  v_down : down s = true -> In ADown l \/ rd s = RStopped;
  v_gone : gone (rd s) = true -> In ADown l \/ exists p, In p (arrived l) /\ ~ acceptable p }.
Lemma call_data_snoc : forall l a, call_data (l ++ [a]) = call_data l ++ match a with ACall _ d => [d] | _ => [] end.
Proof. intros. unfold call_data. rewrite flat_map_app. cbn [flat_map]. now rewrite app_nil_r. Qed.
Lemma map_upd_same : forall {A B} (f : A -> B) l k x y, nth_error l k = Some y -> f x = f y -> map f (upd l k x) = map f l.
Proof. intros A B f l. induction l as [|z l IH]; intros k x y N E; [destruct k; discriminate|]. destruct k; cbn [upd map]; cbn in N; [injection N as ->; now rewrite E|f_equal; eauto]. Qed.
Lemma map_data_upd : forall l k p c, nth_error l k = Some c -> map c_data (upd l k (set_ph p c)) = map c_data l.
Proof. intros l k p c N. exact (map_upd_same c_data l k (set_ph p c) c N eq_refl). Qed.
Lemma vinv_step : forall s0 l s t a s' v, kinv s -> tinv s0 l s t -> vinv l s t -> lstep s a = Some (s', v) -> vinv (l ++ [a]) s' (t ++ v).
Proof.
  intros s0 l s t a s' v K T [V1 V2 V3 V4 V5] ST. pose proof (kinv_step _ _ _ _ K ST) as [_ PAN]. apply lstep_cases in ST. destruct ST as [NP [H|H]].
  - assert (V4' : forall s2, (down s2 = down s) -> (rd s = RStopped -> rd s2 = RStopped) -> down s2 = true -> In ADown (l ++ [a]) \/ rd s2 = RStopped).
    { intros s2 E1 E2 D. rewrite E1 in D. destruct (V4 D) as [Q|Q]; [left; apply in_or_app; auto|auto]. }
    assert (V5' : gone (rd s) = true -> In ADown (l ++ [a]) \/ exists p, In p (arrived (l ++ [a])) /\ ~ acceptable p).
    { intro G. destruct (V5 G) as [Q|(p & P1 & P2)]; [left; apply in_or_app; auto|right; exists p; split; [rewrite arrived_app; apply in_or_app; auto|exact P2]]. }
    destruct H; (constructor; [rewrite cnt_app, V1|rewrite cnt_app, V2|rewrite call_data_snoc, app_nil_r; exact V3| | ]);
      cbn [set_in set_down set_bufs set_pool set_rd set_hd set_sv set_nbuf set_ibuf rd hd down];
      repeat match goal with G : rd _ = _ |- _ => rewrite G in *; clear G | G : hd _ = _ |- _ => rewrite G in *; clear G end; try reflexivity; try exact V5'; try (intro Q; discriminate Q);
      try (apply (V4' _ eq_refl); intro Q; first [discriminate Q|exact Q]).
    all: try (left; apply in_or_app; right; now left).
    all: try (intros _; left; apply in_or_app; right; now left).
    all: try (rewrite ?Nat.add_0_r; reflexivity).
    all: try (let D := fresh "D" in intro D; match goal with V : down _ = true -> _ |- _ => destruct (V D) as [Q|Q]; [left; apply in_or_app; now left|discriminate Q] end).
    + intros _. destruct (V4 H1) as [Q|Q]; [|discriminate]. left. apply in_or_app. now left.
    + intros _. right. exists p. split.
      * rewrite arrived_app. apply in_or_app. left. rewrite (t_arr _ _ _ _ T), H0. apply in_or_app. right. now left.
      * intros [A B]. unfold max_mtu in H1. destruct H1 as [-> |H1]; [now elim A|lia].
    + intros _. now right.
    + unfold after_handle. destruct (Nat.eqb (txlen (sv s)) (txlen s')); destruct o as [[|]|]; reflexivity.
    + destruct rsp; reflexivity.
  - pose proof (call_core _ _ _ _ H) as (HD & _ & DW & _ & _ & _ & HR & _). destruct HD as [HD|HD]; [exfalso; destruct H; exact (PAN HD)|].
    assert (RDQ : match rd s' with RStopped => 1 | _ => 0 end%nat = match rd s with RStopped => 1 | _ => 0 end%nat) by (destruct HR as [-> |(k & E1 & E2)]; [reflexivity|now rewrite E1, E2]).
    constructor.
    + rewrite cnt_app, V1, HD. assert (Z0 : cnt isdone v = 0%nat) by (destruct H; reflexivity). lia.
    + rewrite cnt_app, V2, RDQ. assert (Z0 : cnt isclose v = 0%nat) by (destruct H; reflexivity). lia.
    + rewrite call_data_snoc. destruct H; rewrite ?app_nil_r; cbn [set_rd set_hd set_callers callers]; auto.
      * rewrite map_app, V3. reflexivity.
      * rewrite (give_back_callers _ _ _ _ _ _ H0 H2), (map_data_upd _ _ _ c H0). exact V3.
      * destruct (set_cbuf_fields c None s) as (B1 & B2 & B3 & B4 & B5 & B6 & B7 & B8). assert (N : nth_error (callers (set_cbuf c None s)) k = Some c) by (rewrite B8; exact H).
        rewrite (upd_caller_callers k (CBuf n) _ _ N), B8, (map_data_upd _ _ _ c H). exact V3.
      * rewrite (upd_caller_callers k (CSent n) _ _ H), (map_data_upd _ _ _ c H). exact V3.
      * rewrite (give_back_callers _ _ _ _ _ _ H H4), (map_data_upd _ _ _ c H). exact V3.
      * rewrite (upd_caller_callers k (CWait n) _ _ H), (map_data_upd _ _ _ c H). exact V3.
      * rewrite (give_back_callers _ _ _ _ _ _ H H1), (map_data_upd _ _ _ c H). exact V3.
      * rewrite (give_back_callers _ _ _ _ _ _ H H2), (map_data_upd _ _ _ c H). exact V3.
    + rewrite DW. intro D. destruct (V4 D) as [Q|Q]; [left; apply in_or_app; auto|]. right. destruct HR as [-> |(k & E1 & E2)]; [exact Q|congruence].
    + intro G. assert (G0 : gone (rd s) = true) by (destruct HR as [E|(k & E1 & E2)]; [now rewrite <- E|rewrite E2 in G; discriminate]).
      destruct (V5 G0) as [Q|(p & P1 & P2)]; [left; apply in_or_app; auto|right; exists p; split; [rewrite arrived_app; apply in_or_app; auto|exact P2]].
Qed.
Lemma vinv_run : forall d rx tx s0 l s t, new_server d rx tx = Some s0 -> lrun (linit s0) l s t -> vinv l s t.
Proof.
  intros d rx tx s0 l s t N H. remember (linit s0) as i eqn:E. induction H as [|s l s1 t a s2 v R IH ST]; subst.
  - constructor; try reflexivity; intro Q; discriminate Q.
  - apply (vinv_step s0 l s1); auto; [eapply kinv_run; eauto|eapply tinv_run; eauto].
Qed.

(** ---- the sequential model ---- *)
Lemma served_reach : forall d s0 l s', reach d s0 -> Forall (fun x => all_bytes (pdu_of x)) l -> served s0 l s' -> reach d s'.
Proof.
  intros d s0 l s' R F H. induction H; [exact R|]. apply Forall_app in F. destruct F as [F1 F2]. apply Forall_cons_iff in F2. destruct F2 as [F2 _].
  eapply reach_step; [apply IHserved; [exact R|exact F1]|exact F2|exact H0].
Qed.
Lemma served_supported : forall d s0 l s', reach_supported d s0 -> Forall (fun x => all_bytes (pdu_of x) /\ asks_supported d (pdu_of x)) l -> served s0 l s' -> reach_supported d s'.
Proof.
  intros d s0 l s' R F H. induction H; [exact R|]. apply Forall_app in F. destruct F as [F1 F2]. apply Forall_cons_iff in F2. destruct F2 as [[F2 F3] _].
  eapply rs_step; [apply IHserved; [exact R|exact F1]|exact F2|exact F3|exact H0].
Qed.
Lemma served_in : forall d rx tx s0 l s t, new_server d rx tx = Some s0 -> lrun (linit s0) l s t -> forall x, In x (servings t) -> In (pdu_of x) (arrived l) /\ is_request (pdu_of x) = true.
Proof.
  intros d rx tx s0 l s t N H x I. pose proof (tinv_run _ _ _ _ _ _ _ N H) as [TA (rest & R1 & _) _ _ _ _].
  assert (J : In (pdu_of x) (requests (reads t))) by (rewrite R1; apply in_or_app; left; now apply in_map).
  apply filter_In in J. destruct J as [J1 J2]. split; [|exact J2]. rewrite TA. apply in_or_app. now left.
Qed.
Lemma cleanup_no_panic : forall m s, (forall k c, In (k, c) m -> (Z.testbit c 0 = true -> aget (nn s) k <> None) /\ (Z.testbit c 1 = true -> aget (inn s) k <> None)) -> exists l, cleanup s m = Ret l.
Proof.
  induction m as [|[k c] m IH]; intros s H; cbn [cleanup]; [eauto|]. destruct (H k c (or_introl eq_refl)) as [A B].
  assert (E1 : exists l1, (if Z.testbit c 1 then match aget (inn s) k with None => Panic | Some i => Ret (close_notif (notifs s) i) end else Ret (notifs s)) = Ret l1).
  { destruct (Z.testbit c 1); [|eauto]. destruct (aget (inn s) k); [eauto|now elim (B eq_refl)]. }
  destruct E1 as [l1 ->]. cbn [gbind].
  assert (E2 : exists l2, (if Z.testbit c 0 then match aget (nn s) k with None => Panic | Some i => Ret (close_notif l1 i) end else Ret l1) = Ret l2).
  { destruct (Z.testbit c 0); [|eauto]. destruct (aget (nn s) k); [eauto|now elim (A eq_refl)]. }
  destruct E2 as [l2 ->]. cbn [gbind]. apply IH. intros k' c' I. cbn [set_nn nn inn]. apply H. now right.
Qed.
Lemma aset_keys_fst : forall {V} (m : list (Z * V)) k v, NoDup (map fst m) -> NoDup (map fst (aset m k v)).
Proof. intros V m k v N. apply (aset_keys m k v N). Qed.
Lemma start_n_cccs : forall s ci old ccc s' ok, cccd_start_n s ci old ccc = Ret (s', ok) -> cccs s' = cccs s.
Proof. intros s ci old ccc s' ok H. unfold cccd_start_n in H. destruct (_ && _); [|injection H as <- _; reflexivity]. destruct (Z.testbit (ci_prop ci) 4); [|injection H as <- _; reflexivity]. destruct (ci_nh ci); [injection H as <- _; reflexivity|discriminate]. Qed.
Lemma start_i_cccs : forall s ci old ccc s' ok, cccd_start_i s ci old ccc = Ret (s', ok) -> cccs s' = cccs s.
Proof. intros s ci old ccc s' ok H. unfold cccd_start_i in H. destruct (_ && _); [|injection H as <- _; reflexivity]. destruct (Z.testbit (ci_prop ci) 5); [|injection H as <- _; reflexivity]. destruct (ci_ih ci); [injection H as <- _; reflexivity|discriminate]. Qed.
Lemma stop_n_cccs : forall s ci old ccc s', cccd_stop_n s ci old ccc = Ret s' -> cccs s' = cccs s.
Proof. intros s ci old ccc s' H. unfold cccd_stop_n in H. destruct (_ && _); [|injection H as <-; reflexivity]. destruct (aget _ _); [injection H as <-; reflexivity|discriminate]. Qed.
Lemma stop_i_cccs : forall s ci old ccc s', cccd_stop_i s ci old ccc = Ret s' -> cccs s' = cccs s.
Proof. intros s ci old ccc s' H. unfold cccd_stop_i in H. destruct (_ && _); [|injection H as <-; reflexivity]. destruct (aget _ _); [injection H as <-; reflexivity|discriminate]. Qed.
Definition uniq (s : srv) : Prop := NoDup (map fst (cccs s)).
Lemma att_write_uniq : forall s e a data s' st cs, uniq s -> att_write s e a data = Ret (s', st, cs) -> uniq s'.
Proof.
  intros s e a data s' st cs U H. unfold att_write in H. destruct (a_wh a) as [[i|ci]|]; [injection H as <- _ _; exact U| |injection H as <- _ _; exact U].
  destruct (cccd_write s ci data) as [[s1 st1]|] eqn:E; [|discriminate]. cbn [gbind] in H. injection H as <- _ _. unfold cccd_write in E.
  destruct (gle16 data) as [ccc|]; [|discriminate]. cbn [gbind] in E. set (old := ccc_of (cccs s) (ci_handle ci)) in *.
  destruct (cccd_start_n s ci old ccc) as [[s2 ok1]|] eqn:E1; [|discriminate]. cbn [gbind] in E. apply start_n_cccs in E1. destruct (negb ok1); [injection E as <- _; unfold uniq; now rewrite E1|].
  destruct (cccd_stop_n s2 ci old ccc) as [s3|] eqn:E2; [|discriminate]. cbn [gbind] in E. apply stop_n_cccs in E2.
  destruct (cccd_start_i s3 ci old ccc) as [[s4 ok3]|] eqn:E3; [|discriminate]. cbn [gbind] in E. apply start_i_cccs in E3. destruct (negb ok3); [injection E as <- _; unfold uniq; rewrite E3, E2, E1; exact U|].
  destruct (cccd_stop_i s4 ci old ccc) as [s5|] eqn:E4; [|discriminate]. cbn [gbind] in E. apply stop_i_cccs in E4. injection E as <- _. unfold uniq. cbn [set_cccs cccs]. apply aset_keys_fst. rewrite E4, E3, E2, E1. exact U.
Qed.
Lemma handle_uniq : forall s e r s' o cs, uniq s -> handle s e r = Ret (s', o, cs) -> uniq s'.
Proof.
  intros s e r s' o cs U H. destruct r as [|op t]; [injection H as <- _ _; exact U|].
  refine (handle_op (fun x => uniq (fst (fst x))) s e op t _ _ _ _ _ _ _ _ _ _ _ _ _ H); cbn [fst]; try (intros; exact U).
  - intros _ s1 p G. apply h_mtu_inv in G. destruct G as [(-> & _)|(? & ? & _ & _ & -> & _)]; exact U.
  - intros _ s1 p c G. unfold h_write in G. destruct (Nat.ltb _ 3); [injection G as <- _ _; exact U|]. destruct (r16 _ 1) as [h|]; [|discriminate]. cbn [gbind] in G.
    destruct (db_at (s_db s) h) as [[a|]|]; [|injection G as <- _ _; exact U|discriminate]. cbn [gbind] in G. destruct (gfrom _ 3) as [v|]; [|discriminate]. cbn [gbind] in G.
    destruct (att_write s e a v) as [[[s2 st] c2]|] eqn:E; [|discriminate]. cbn [gbind] in G. injection G as <- _ _. eapply att_write_uniq; eauto.
  - intros _ s1 c G. unfold h_write_cmd in G. destruct (Nat.leb _ 3); [injection G as <- _; exact U|]. destruct (r16 _ 1) as [h|]; [|discriminate]. cbn [gbind] in G.
    destruct (db_at (s_db s) h) as [[a|]|]; [|injection G as <- _; exact U|discriminate]. cbn [gbind] in G. destruct (gfrom _ 3) as [v|]; [|discriminate]. cbn [gbind] in G.
    destruct (att_write s e a v) as [[[s2 st] c2]|] eqn:E; [|discriminate]. cbn [gbind] in G. injection G as <- _. eapply att_write_uniq; eauto.
  - intros _ s1 p G. unfold h_prepare in G. destruct (r16 _ 1) as [h|]; [|discriminate]. cbn [gbind] in G. destruct (Nat.ltb _ 3); [injection G as <- _; exact U|].
    destruct (db_at (s_db s) h) as [[a|]|]; [|injection G as <- _; exact U|discriminate]. cbn [gbind] in G. destruct (a_wh a); [|injection G as <- _; exact U].
    destruct (gfrom _ 5); [|discriminate]. cbn [gbind] in G. destruct (r16 _ 3); [|discriminate]. cbn [gbind] in G. injection G as <- _. destruct (prep s); exact U.
  - intros _ s1 p c G. unfold h_execute in G. destruct (Nat.ltb _ 2); [injection G as <- _ _; exact U|]. destruct (gidx _ 1) as [f|]; [|discriminate]. cbn [gbind] in G.
    destruct (f =? 0); [injection G as <- _ _; exact U|]. destruct (f =? 1); [|injection G as <- _ _; exact U]. destruct (prep s) as [a|]; [|discriminate]. destruct (a_wh a); [|injection G as <- _ _; exact U].
    destruct (att_write s e a (prepdata s)) as [[[s2 st] c2]|] eqn:E; [|discriminate]. cbn [gbind] in G. injection G as <- _ _. unfold uniq. cbn [set_prep cccs]. eapply att_write_uniq; eauto.
Qed.
Lemma served_uniq : forall s0 l s', uniq s0 -> served s0 l s' -> uniq s'.
Proof. intros s0 l s' U H. induction H; [exact U|]. exact (handle_uniq _ _ _ _ _ _ (IHserved U) H0). Qed.
Lemma aget_nodup : forall {V} (m : list (Z * V)) k v, NoDup (map fst m) -> In (k, v) m -> aget m k = Some v.
Proof.
  intros V m k v. induction m as [|[k' w] m IH]; intros N I; [destruct I|]. cbn [map fst] in N. inversion N as [|? ? N1 N2]; subst. cbn [aget]. destruct I as [E|I].
  - injection E as -> ->. now rewrite Z.eqb_refl.
  - destruct (k =? k') eqn:Q; [|auto]. apply Z.eqb_eq in Q. subst k'. elim N1. change k with (fst (k, v)). now apply in_map.
Qed.
(** cleaning up never panics *)
Lemma cleanup_reach : forall d s, wf_db d -> table_ok d -> reach d s -> uniq s -> cleanup s (cccs s) <> Panic.
Proof.
  intros d s W T R U E. destruct (reach_sinv d s W T R) as (_ & _ & (NN & NI) & _).
  destruct (cleanup_no_panic (cccs s) s) as [l L]; [|congruence]. intros k c I. pose proof (aget_nodup _ _ _ U I) as G. split; intro B; [apply NN|apply NI]; unfold ccc_of; now rewrite G.
Qed.
(** a crash is the crash of a request *)
Lemma crash_cause : forall d rx tx s0 l s t, wf_db d -> table_ok d -> new_server d rx tx = Some s0 -> Forall all_bytes (arrived l) -> lrun (linit s0) l s t -> crashed s ->
  exists sv' e p, served s0 (servings t) sv' /\ In p (arrived l) /\ handle sv' e p = Panic.
Proof.
  intros d rx tx s0 l s t W T N B H. remember (linit s0) as i eqn:E. induction H as [|s l s1 t a s2 v R IH ST]; intro C; subst; [discriminate|].
  rewrite arrived_app in B. apply Forall_app in B. destruct B as [B1 B2].
  pose proof (kinv_run _ _ _ _ _ _ _ N R) as K. pose proof (kinv_step _ _ _ _ K ST) as [_ PAN]. specialize (PAN C).
  pose proof (tinv_run _ _ _ _ _ _ _ N R) as [TA (rest & R1 & _ & R3) _ (sv' & S1 & S2 & _) _ _].
  apply lstep_cases in ST. destruct ST as [NP [ST|ST]]; [|destruct ST; contradiction]. unfold crashed in C. destruct ST; try contradiction; cbn [set_hd hd] in C.
  - exfalso. exact (proj2 (own_after k (sv s1) s' o) C).
  - rewrite arrived_app. exists sv', e, r. rewrite servings_app. cbn [servings flat_map]. rewrite app_nil_r. split; [exact S1|]. split.
    + apply in_or_app. left. rewrite TA. apply in_or_app. left. assert (J : In r (requests (reads t))).
      { rewrite R1, (R3 NP). apply in_or_app. right. apply in_or_app. left. unfold got, oreq. rewrite H, H0. now left. }
      apply filter_In in J. tauto.
    + rewrite <- S2 by congruence. exact H1.
  - discriminate.
  - exfalso. assert (E : sv s1 = sv') by (apply S2; congruence). rewrite E in H0. revert H0. apply (cleanup_reach d); auto.
    + apply (served_reach d s0 (servings t)); [eapply reach_init; exact N| |exact S1]. apply Forall_forall. intros x X. rewrite Forall_forall in B1. apply B1. now apply (served_in _ _ _ _ _ _ _ N R).
    + apply (served_uniq s0 (servings t)); [|exact S1]. unfold new_server in N. destruct ((rx <? 23) || (rx >? 515)); [discriminate|]. injection N as <-. constructor.
Qed.
(** the servings as a run of the sequential loop *)
Definition answer_of (o : option bytes) : list bytes := match o with Some (x :: l) => [x :: l] | _ => [] end.
Lemma loop_run_snoc : forall l s s1 outs cs e r s2 o cs2, loop_run s l = Ret (s1, outs, cs) -> loop_pdu s1 e r = Ret (s2, o, cs2) -> loop_run s (l ++ [(e, r)]) = Ret (s2, outs ++ o, cs ++ cs2).
Proof.
  induction l as [|[e0 r0] l IH]; intros s s1 outs cs e r s2 o cs2 H P; cbn [app loop_run] in *.
  - injection H as <- <- <-. rewrite P. cbn [gbind]. now rewrite !app_nil_r.
  - destruct (loop_pdu s e0 r0) as [[[sa oa] ca]|]; [|discriminate]. cbn [gbind] in *. destruct (loop_run sa l) as [[[sb ob] cb]|] eqn:E; [|discriminate]. cbn [gbind] in H. injection H as <- <- <-.
    rewrite (IH _ _ _ _ _ _ _ _ _ E P). cbn [gbind]. now rewrite !app_assoc.
Qed.
Lemma served_loop_run : forall s0 l s', served s0 l s' -> Forall (fun x => is_request (pdu_of x) = true) l ->
  loop_run s0 (map (fun x => (fst (fst (fst x)), pdu_of x)) l) = Ret (s', flat_map (fun x => answer_of (snd (fst x))) l, flat_map (fun x => snd x) l).
Proof.
  intros s0 l s' H F. induction H; [reflexivity|]. apply Forall_app in F. destruct F as [F1 F2]. apply Forall_cons_iff in F2. destruct F2 as [F2 _].
  rewrite map_app, !flat_map_app. cbn [map flat_map fst snd pdu_of]. rewrite !app_nil_r. apply (loop_run_snoc _ _ s1); [auto|].
  unfold pdu_of in F2. cbn [fst snd] in F2. unfold loop_pdu. destruct p as [|c p]; [discriminate|]. cbn [is_request] in F2. apply andb_true_iff in F2. destruct F2 as [F2 _].
  assert (Q : loop_pdu s1 e (c :: p) = (let! (s'0, p0, cs0) := handle s1 e (c :: p) in Ret (s'0, match p0 with Some (x :: l0) => [x :: l0] | _ => [] end, cs0))).
  { unfold loop_pdu. destruct c as [|q|q]; try reflexivity. destruct q as [q|q|]; try reflexivity. destruct q as [q|q|]; try reflexivity. destruct q as [q|q|]; try reflexivity. destruct q as [q|q|]; try reflexivity. destruct q as [q|q|]; try reflexivity. discriminate. }
  unfold loop_pdu in Q. rewrite Q, H0. cbn [gbind]. unfold answer_of. destruct o as [[|]|]; reflexivity.
Qed.
