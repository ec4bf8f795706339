Require Import Verif.Base Verif.M_uuid Verif.M_attdb Verif.S_attdb Verif.P_attdb Verif.M_attsrv Verif.S_attsrv Verif.P_attsrv Verif.P_attsrv2.

(** ---- shape of request PDUs ---- *)
Lemma r16_1 : forall op a b t, r16 (op :: a :: b :: t) 1 = Ret (de16 a b). Proof. reflexivity. Qed.
Lemma r16_3 : forall op a b c d t, r16 (op :: a :: b :: c :: d :: t) 3 = Ret (de16 c d). Proof. reflexivity. Qed.
Lemma r16_5 : forall op a b c d x y t, r16 (op :: a :: b :: c :: d :: x :: y :: t) 5 = Ret (de16 x y). Proof. reflexivity. Qed.
Lemma req_handle_of : forall op a b t, is_byte a -> is_byte b -> op :: a :: b :: t = req_handle op (de16 a b) t.
Proof. intros op a b t A B. unfold req_handle. now rewrite (le16_de16 a b A B). Qed.
Lemma req_range_of : forall op a b c d t, is_byte a -> is_byte b -> is_byte c -> is_byte d -> op :: a :: b :: c :: d :: t = req_range op (de16 a b) (de16 c d) t.
Proof. intros op a b c d t A B C D. unfold req_range. now rewrite (le16_de16 a b A B), (le16_de16 c d C D). Qed.

(** ---- writers never outgrow the buffer ---- *)
Lemma run_wops_len : forall n l buf st, (length buf <= n)%nat -> (length (fst (run_wops (Some n) l buf st)) <= n)%nat.
Proof.
  intros n l. induction l as [|[b|x] l IH]; intros buf st H; [exact H| |]; cbn [run_wops].
  - destruct (Nat.ltb (n - length buf) (length b)) eqn:E; apply IH; [exact H|]. rewrite app_length. lia.
  - now apply IH.
Qed.
Lemma att_read_len : forall s e a off n st b cs, att_read s e a off n = (st, b, cs) -> (length b <= n)%nat.
Proof.
  intros s e a off n st b cs H. unfold att_read in H. destruct (a_rh a) as [[i|ci]|].
  - assert (L := run_wops_len n (e (CRead (a_h a) off)) [] 0 ltac:(cbn; lia)). destruct (run_wops (Some n) (e (CRead (a_h a) off)) [] 0) as [b' st']. injection H as <- <- _. exact L.
  - assert (L := run_wops_len n (cccd_read s ci) [] 0 ltac:(cbn; lia)). destruct (run_wops (Some n) (cccd_read s ci) [] 0) as [b' st']. injection H as <- <- _. exact L.
  - injection H as <- <- _. cbn. lia.
Qed.
Lemma attr_at_db : forall d h, wf_db d -> db_at d h = Ret (attr_at d h).
Proof. intros d h W. apply db_at_find. exact W. Qed.

(** ---- the state invariant behind the notifier maps ---- *)
Definition ninv (s : srv) : Prop :=
  (forall h, Z.testbit (ccc_of (cccs s) h) 0 = true -> aget (nn s) h <> None) /\
  (forall h, Z.testbit (ccc_of (cccs s) h) 1 = true -> aget (inn s) h <> None).
Lemma aget_aset : forall {V} (m : list (Z * V)) k v k', aget (aset m k v) k' = if k' =? k then Some v else aget m k'.
Proof.
  intros V m k v k'. induction m as [|[k0 w] m IH]; cbn; [destruct (k' =? k); reflexivity|].
  destruct (k =? k0) eqn:E; cbn.
  - apply Z.eqb_eq in E. subst k0. destruct (k' =? k); reflexivity.
  - destruct (k' =? k0) eqn:F; [|exact IH]. destruct (k' =? k) eqn:G; [lia|reflexivity].
Qed.
Lemma ccc_aset : forall m k v k', ccc_of (aset m k v) k' = if k' =? k then v else ccc_of m k'.
Proof. intros. unfold ccc_of. rewrite aget_aset. destruct (k' =? k); reflexivity. Qed.
Lemma start_n_spec : forall s ci old ccc, ci_ok ci -> exists s' ok, cccd_start_n s ci old ccc = Ret (s', ok) /\
  cccs s' = cccs s /\ inn s' = inn s /\ (ok = false -> s' = s) /\
  (forall h, aget (nn s) h <> None -> aget (nn s') h <> None) /\
  (ok = true -> Z.testbit ccc 0 = true -> Z.testbit old 0 = false -> aget (nn s') (ci_handle ci) <> None).
Proof.
  intros s ci old ccc [CN _]. unfold cccd_start_n. destruct (Z.testbit ccc 0) eqn:A, (Z.testbit old 0) eqn:B; cbn [andb negb];
    try (exists s, true; repeat split; auto; try discriminate; congruence).
  destruct (Z.testbit (ci_prop ci) 4); [|exists s, false; repeat split; auto; discriminate].
  destruct (ci_nh ci) as [h|]; [|now elim (CN eq_refl)].
  eexists _, true. split; [reflexivity|]. cbn [set_nn cccs inn nn]. repeat split; try discriminate.
  - intros k K. rewrite aget_aset. destruct (k =? ci_handle ci); [discriminate|exact K].
  - intros _ _ _. rewrite aget_aset, Z.eqb_refl. discriminate.
Qed.
Lemma start_i_spec : forall s ci old ccc, ci_ok ci -> exists s' ok, cccd_start_i s ci old ccc = Ret (s', ok) /\
  cccs s' = cccs s /\ nn s' = nn s /\ (ok = false -> s' = s) /\
  (forall h, aget (inn s) h <> None -> aget (inn s') h <> None) /\
  (ok = true -> Z.testbit ccc 1 = true -> Z.testbit old 1 = false -> aget (inn s') (ci_handle ci) <> None).
Proof.
  intros s ci old ccc [_ CN]. unfold cccd_start_i. destruct (Z.testbit ccc 1) eqn:A, (Z.testbit old 1) eqn:B; cbn [andb negb];
    try (exists s, true; repeat split; auto; try discriminate; congruence).
  destruct (Z.testbit (ci_prop ci) 5); [|exists s, false; repeat split; auto; discriminate].
  destruct (ci_ih ci) as [h|]; [|now elim (CN eq_refl)].
  eexists _, true. split; [reflexivity|]. cbn [set_inn cccs inn nn]. repeat split; try discriminate.
  - intros k K. rewrite aget_aset. destruct (k =? ci_handle ci); [discriminate|exact K].
  - intros _ _ _. rewrite aget_aset, Z.eqb_refl. discriminate.
Qed.
Lemma stop_n_spec : forall s ci old ccc, (Z.testbit old 0 = true -> aget (nn s) (ci_handle ci) <> None) ->
  exists s', cccd_stop_n s ci old ccc = Ret s' /\ cccs s' = cccs s /\ nn s' = nn s /\ inn s' = inn s.
Proof.
  intros s ci old ccc H. unfold cccd_stop_n. destruct (negb (Z.testbit ccc 0) && Z.testbit old 0) eqn:E; [|exists s; auto].
  apply andb_true_iff in E. destruct E as [_ E]. destruct (aget (nn s) (ci_handle ci)) eqn:G; [|now elim (H E)]. eexists. split; [reflexivity|]. repeat split.
Qed.
Lemma stop_i_spec : forall s ci old ccc, (Z.testbit old 1 = true -> aget (inn s) (ci_handle ci) <> None) ->
  exists s', cccd_stop_i s ci old ccc = Ret s' /\ cccs s' = cccs s /\ nn s' = nn s /\ inn s' = inn s.
Proof.
  intros s ci old ccc H. unfold cccd_stop_i. destruct (negb (Z.testbit ccc 1) && Z.testbit old 1) eqn:E; [|exists s; auto].
  apply andb_true_iff in E. destruct E as [_ E]. destruct (aget (inn s) (ci_handle ci)) eqn:G; [|now elim (H E)]. eexists. split; [reflexivity|]. repeat split.
Qed.
Lemma cccd_write_ok : forall s ci data, ninv s -> ci_ok ci -> (2 <= length data)%nat ->
  exists s' st, cccd_write s ci data = Ret (s', st) /\ ninv s' /\
    forall h, ccc_of (cccs s') h = if (h =? ci_handle ci) && (st =? 0) then de16 (nth 0 data 0) (nth 1 data 0) else ccc_of (cccs s) h.
Proof.
  intros s ci data [IN II] CI L. destruct data as [|x [|y t]]; cbn [length] in L; try lia. unfold cccd_write.
  change (gle16 (x :: y :: t)) with (Ret (de16 x y)). cbn [gbind nth]. set (ccc := de16 x y). set (old := ccc_of (cccs s) (ci_handle ci)).
  destruct (start_n_spec s ci old ccc CI) as (s1 & ok1 & E1 & C1 & I1 & F1 & M1 & N1). rewrite E1. cbn [gbind].
  destruct ok1; cbn [negb].
  2:{ rewrite (F1 eq_refl). exists s, e_unlikely. split; [reflexivity|]. split; [split; assumption|]. intro h. rewrite andb_false_r. reflexivity. }
  destruct (stop_n_spec s1 ci old ccc) as (s2 & E2 & C2 & NN2 & I2). { intro B. apply M1, IN. exact B. } rewrite E2. cbn [gbind].
  destruct (start_i_spec s2 ci old ccc CI) as (s3 & ok3 & E3 & C3 & NN3 & F3 & M3 & N3). rewrite E3. cbn [gbind].
  destruct ok3; cbn [negb].
  2:{ rewrite (F3 eq_refl). exists s2, e_unlikely. split; [reflexivity|]. rewrite C2, C1. split; [|intro h; rewrite andb_false_r; reflexivity].
      split; intros h B; rewrite C2, C1 in B; [rewrite NN2; apply M1, IN, B|rewrite I2, I1; apply II, B]. }
  destruct (stop_i_spec s3 ci old ccc) as (s4 & E4 & C4 & NN4 & I4). { intro B. apply M3. rewrite I2, I1. apply II. exact B. } rewrite E4. cbn [gbind].
  eexists _, 0. split; [reflexivity|]. cbn [set_cccs cccs nn inn]. split.
  - split; intros h B; cbn [set_cccs cccs nn inn] in *; rewrite ccc_aset in B.
    + rewrite NN4, NN3, NN2. destruct (h =? ci_handle ci) eqn:H.
      * apply Z.eqb_eq in H. subst h. destruct (Z.testbit old 0) eqn:O; [apply M1, IN; exact O|now apply N1].
      * rewrite C4, C3, C2, C1 in B. apply M1, IN, B.
    + rewrite I4. destruct (h =? ci_handle ci) eqn:H.
      * apply Z.eqb_eq in H. subst h. destruct (Z.testbit old 1) eqn:O; [apply M3; rewrite I2, I1; apply II; exact O|now apply N3].
      * rewrite C4, C3, C2, C1 in B. apply M3. rewrite I2, I1. apply II, B.
  - intro h. rewrite ccc_aset, C4, C3, C2, C1. destruct (h =? ci_handle ci); reflexivity.
Qed.
Lemma cccd_write_short : forall s ci data, (length data < 2)%nat -> cccd_write s ci data = Panic.
Proof. intros s ci data H. unfold cccd_write. destruct data as [|x [|y t]]; cbn [length] in H; try lia; reflexivity. Qed.
Lemma att_write_panic : forall s e a data, ninv s -> attr_ok a -> (att_write s e a data = Panic <-> is_cccd (a_wh a) /\ (length data < 2)%nat).
Proof.
  intros s e a data I A. unfold att_write. destruct (a_wh a) as [[i|ci]|] eqn:W.
  - split; [discriminate|]. intros [[ci C] _]. discriminate C.
  - split.
    + intro H. split; [exists ci; reflexivity|]. destruct (Nat.ltb (length data) 2) eqn:L; [lia|].
      destruct (cccd_write_ok s ci data I (A ci W) ltac:(lia)) as (s' & st & E & _). rewrite E in H. discriminate H.
    + intros [_ L]. rewrite (cccd_write_short s ci data L). reflexivity.
  - split; [discriminate|]. intros [[ci C] _]. discriminate C.
Qed.
Lemma att_write_inv : forall s e a data s' st cs, ninv s -> attr_ok a -> att_write s e a data = Ret (s', st, cs) -> ninv s'.
Proof.
  intros s e a data s' st cs I A H. unfold att_write in H. destruct (a_wh a) as [[i|ci]|] eqn:W.
  - injection H as <- _ _. exact I.
  - destruct (Nat.ltb (length data) 2) eqn:L; [rewrite cccd_write_short in H by lia; discriminate|].
    destruct (cccd_write_ok s ci data I (A ci W) ltac:(lia)) as (s1 & st1 & E & I1 & _). rewrite E in H. cbn [gbind] in H. injection H as <- _ _. exact I1.
  - injection H as <- _ _. exact I.
Qed.
Definition table_ok (d : dbt) : Prop := Forall attr_ok (db_attrs d).
Definition sinv (d : dbt) (s : srv) : Prop :=
  s_db s = d /\ (23 <= txlen s)%nat /\ ninv s /\ (forall a, prep s = Some a -> attr_ok a /\ In a (db_attrs d) /\ a_wh a <> None).
Lemma attr_at_in : forall d h a, attr_at d h = Some a -> In a (db_attrs d) /\ a_h a = h.
Proof. intros d h a H. apply find_some in H. split; [tauto|lia]. Qed.
Lemma sinv_init : forall d rx tx s, new_server d rx tx = Some s -> sinv d s.
Proof.
  intros d rx tx s H. unfold new_server in H. destruct ((rx <? 23) || (rx >? 515)); [discriminate|]. injection H as <-.
  split; [reflexivity|]. split; [cbn; lia|]. split; [|intros a E; discriminate E]. split; intros h B; cbn in B; discriminate B.
Qed.
Lemma handle_sinv : forall d s e r s' o cs, wf_db d -> table_ok d -> all_bytes r -> sinv d s -> handle s e r = Ret (s', o, cs) -> sinv d s'.
Proof.
  intros d s e r s' o cs W T B (D & M & N & P) H.
  destruct (handle_env _ _ _ _ _ _ H) as (D' & M' & _).
  split; [congruence|]. split.
  { assert (23 <= mtu_after (Z.of_nat (txlen s)) r).
    { destruct r as [|op t]; [cbn; lia|]. destruct (Z.eq_dec op 2) as [->|]; [|rewrite mtu_after_other by assumption; lia].
      unfold mtu_after. destruct t as [|a [|b [|? ?]]]; try lia. destruct (23 <=? de16 a b) eqn:?; lia. }
    lia. }
  destruct r as [|op t]; [injection H as <- _ _; split; assumption|].
  refine (handle_op (fun x => ninv (fst (fst x)) /\ forall a, prep (fst (fst x)) = Some a -> attr_ok a /\ In a (db_attrs d) /\ a_wh a <> None) s e op t _ _ _ _ _ _ _ _ _ _ _ _ _ H); cbn [fst]; try (intros; split; assumption).
  - intros _ s1 p G. apply h_mtu_inv in G. destruct G as [(-> & _)|(? & ? & _ & _ & -> & _)]; [split; assumption|]. split; [exact N|exact P].
  - intros _ s1 p c G. destruct (h_write_keeps _ _ _ _ _ _ G) as (_ & K & _). rewrite K. split; [|exact P].
    unfold h_write in G. destruct (Nat.ltb _ 3); [injection G as <- _ _; exact N|]. destruct (r16 _ 1) as [h|]; [|discriminate]. cbn [gbind] in G.
    rewrite D, (attr_at_db d h W) in G. cbn [gbind] in G. destruct (attr_at d h) as [a|] eqn:A; [|injection G as <- _ _; exact N].
    destruct (gfrom _ 3) as [v|]; [|discriminate]. cbn [gbind] in G. destruct (att_write s e a v) as [[[s2 st] c2]|] eqn:E; [|discriminate]. cbn [gbind] in G. injection G as <- _ _.
    eapply att_write_inv; [exact N| |exact E]. unfold table_ok in T. rewrite Forall_forall in T. apply T. now apply attr_at_in in A.
  - intros _ s1 c G. destruct (h_write_cmd_keeps _ _ _ _ _ G) as (_ & K & _). rewrite K. split; [|exact P].
    unfold h_write_cmd in G. destruct (Nat.leb _ 3); [injection G as <- _; exact N|]. destruct (r16 _ 1) as [h|]; [|discriminate]. cbn [gbind] in G.
    rewrite D, (attr_at_db d h W) in G. cbn [gbind] in G. destruct (attr_at d h) as [a|] eqn:A; [|injection G as <- _; exact N].
    destruct (gfrom _ 3) as [v|]; [|discriminate]. cbn [gbind] in G. destruct (att_write s e a v) as [[[s2 st] c2]|] eqn:E; [|discriminate]. cbn [gbind] in G. injection G as <- _.
    eapply att_write_inv; [exact N| |exact E]. unfold table_ok in T. rewrite Forall_forall in T. apply T. now apply attr_at_in in A.
  - intros _ s1 p G. unfold h_prepare in G. destruct (r16 _ 1) as [h|]; [|discriminate]. cbn [gbind] in G. destruct (Nat.ltb _ 3); [injection G as <- _; split; assumption|].
    rewrite D, (attr_at_db d h W) in G. cbn [gbind] in G. destruct (attr_at d h) as [a|] eqn:A; [|injection G as <- _; split; assumption].
    destruct (a_wh a) eqn:WH; [|injection G as <- _; split; assumption]. destruct (gfrom _ 5); [|discriminate]. cbn [gbind] in G. destruct (r16 _ 3); [|discriminate]. cbn [gbind] in G.
    injection G as <- _. apply attr_at_in in A. destruct (prep s) as [b|] eqn:PS; (split; [exact N|]); cbn [set_prep prep]; intros a' E; injection E as <-.
    + now apply P.
    + split; [|split; [apply A|congruence]]. unfold table_ok in T. rewrite Forall_forall in T. apply T, A.
  - intros _ s1 p c G. unfold h_execute in G. destruct (Nat.ltb _ 2); [injection G as <- _ _; split; assumption|]. destruct (gidx _ 1) as [f|]; [|discriminate]. cbn [gbind] in G.
    destruct (f =? 0); [injection G as <- _ _; split; [exact N|discriminate]|]. destruct (f =? 1); [|injection G as <- _ _; split; assumption].
    destruct (prep s) as [a|] eqn:PS; [|discriminate]. destruct (P a eq_refl) as (PA & _ & PW). destruct (a_wh a) eqn:WH; [|now elim PW].
    destruct (att_write s e a (prepdata s)) as [[[s2 st] c2]|] eqn:E; [|discriminate]. cbn [gbind] in G. injection G as <- _ _. split; [|discriminate].
    exact (att_write_inv _ _ _ _ _ _ _ N PA E).
Qed.
Lemma reach_sinv : forall d s, wf_db d -> table_ok d -> reach d s -> sinv d s.
Proof. intros d s W T R. induction R as [rx tx s H|s e r s' o cs R IH B H]; [eapply sinv_init; exact H|eapply handle_sinv; eauto]. Qed.
