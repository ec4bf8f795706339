Require Import Verif.Base Verif.M_uuid Verif.M_attdb Verif.S_attdb Verif.P_attdb Verif.M_attsrv Verif.S_attsrv Verif.P_attsrv Verif.P_attsrv2 Verif.P_attsrv3 Verif.P_attsrv4.

(** ---- one answer per request ---- *)
Lemma run_wops_st : forall c l buf st, is_byte st -> is_byte (snd (run_wops c l buf st)).
Proof.
  intros c l. induction l as [|[b|x] l IH]; intros buf st H; [exact H| |]; cbn [run_wops].
  - destruct c as [n|]; [destruct (Nat.ltb _ _)|]; now apply IH.
  - apply IH, u8_byte.
Qed.
Lemma att_read_st : forall s e a off n st b cs, att_read s e a off n = (st, b, cs) -> is_byte st.
Proof.
  intros s e a off n st b cs H. unfold att_read in H. destruct (a_rh a) as [[i|ci]|].
  - assert (L := run_wops_st (Some n) (e (CRead (a_h a) off)) [] 0 ltac:(unfold is_byte; lia)). destruct (run_wops (Some n) (e (CRead (a_h a) off)) [] 0) as [b' st']. injection H as <- <- _. exact L.
  - assert (L := run_wops_st (Some n) (cccd_read s ci) [] 0 ltac:(unfold is_byte; lia)). destruct (run_wops (Some n) (cccd_read s ci) [] 0) as [b' st']. injection H as <- <- _. exact L.
  - injection H as <- <- _. unfold is_byte, e_read_not_perm. lia.
Qed.
Lemma cccd_write_st : forall s ci data s' st, cccd_write s ci data = Ret (s', st) -> st = 0 \/ st = 14.
Proof.
  intros s ci data s' st H. unfold cccd_write in H. destruct (gle16 data); [|discriminate]. cbn [gbind] in H.
  destruct (cccd_start_n _ _ _ _) as [[s1 [|]]|]; [| |discriminate]; cbn [gbind negb] in H; [|injection H as _ <-; now right].
  destruct (cccd_stop_n _ _ _ _); [|discriminate]. cbn [gbind] in H.
  destruct (cccd_start_i _ _ _ _) as [[s3 [|]]|]; [| |discriminate]; cbn [gbind negb] in H; [|injection H as _ <-; now right].
  destruct (cccd_stop_i _ _ _ _); [|discriminate]. cbn [gbind] in H. injection H as _ <-. now left.
Qed.
Lemma att_write_st : forall s e a data s' st cs, att_write s e a data = Ret (s', st, cs) -> is_byte st.
Proof.
  intros s e a data s' st cs H. unfold att_write in H. destruct (a_wh a) as [[i|ci]|].
  - injection H as _ <- _. apply run_wops_st. unfold is_byte. lia.
  - destruct (cccd_write s ci data) as [[s1 st1]|] eqn:E; [|discriminate]. cbn [gbind] in H. injection H as _ <- _. apply cccd_write_st in E. unfold is_byte. lia.
  - injection H as _ <- _. unfold is_byte, e_write_not_perm. lia.
Qed.
Lemma rbt_code : forall s e c2 cap l ty d buf cs code c, rbt_loop s e c2 cap l ty d buf cs = (inl code, c) -> 1 <= code <= 255.
Proof.
  intros s e c2 cap l ty. induction l as [|a l IH]; intros d buf cs code c H; cbn [rbt_loop] in H; [discriminate|].
  destruct (negb (uuid_equal (a_typ a) ty)); [eapply IH; exact H|].
  destruct (match a_v a with Some v => (0, v, []) | None => att_read s e a 0 c2 end) as [[st v] cc] eqn:E.
  destruct (negb (st =? 0)) eqn:S.
  - destruct (Nat.eqb d 0); [|discriminate]. injection H as <- _. destruct (a_v a); [injection E as <- _ _; discriminate S|]. apply att_read_st in E. unfold is_byte in E. lia.
  - destruct (_ && _); [discriminate|]. destruct (Nat.ltb _ _); [discriminate|]. eapply IH; exact H.
Qed.
Lemma rbg_code : forall cap l d buf code, rbg_loop cap l d buf = Ret (inl code) -> code = 6.
Proof.
  intros cap l. induction l as [|x l IH]; intros d buf code L; cbn [rbg_loop] in L; [discriminate|].
  destruct (a_v x); [|destruct (Nat.ltb _ _); [discriminate|injection L as <-; reflexivity]]. destruct (_ && _); [discriminate|]. destruct (Nat.ltb _ _); [discriminate|]. eapply IH; exact L.
Qed.
Lemma ans_err0 : forall op t code, 1 <= code <= 255 -> answers (op :: t) (err_rsp op 0 code).
Proof. intros op t code H. exists op, t. split; [reflexivity|]. right. exists 0, code. split; [apply err_rsp_pdu; unfold is_byte; lia|]. split; [exact H|now left]. Qed.
Lemma ans_errh : forall op a b t code, 1 <= code <= 255 -> answers (op :: a :: b :: t) (err_rsp op (de16 a b) code).
Proof. intros op a b t code H. exists op, (a :: b :: t). split; [reflexivity|]. right. exists (de16 a b), code. split; [apply err_rsp_pdu; unfold is_byte; lia|]. split; [exact H|]. right. exists a, b, t. now split. Qed.
Lemma ans_ok : forall op t body, In op [2; 4; 6; 8; 10; 12; 16; 18; 22; 24] -> answers (op :: t) (op + 1 :: body).
Proof. intros op t body H. exists op, t. split; [reflexivity|]. left. split; [exact H|]. now exists body. Qed.
Lemma r16_1_inv : forall op t h, r16 (op :: t) 1 = Ret h -> exists a b t', t = a :: b :: t' /\ h = de16 a b.
Proof.
  intros op t h H. destruct t as [|a [|b t]]; try discriminate H. injection H as <-. now exists a, b, t.
Qed.
Ltac rg H h a b t' := destruct (r16 _ 1) as [h|] eqn:?; [|discriminate H]; cbn [gbind] in H;
  match goal with Q : r16 (_ :: _) 1 = Ret h |- _ => apply r16_1_inv in Q; destruct Q as (a & b & t' & -> & ->) end.
Lemma handle_answers : forall s e op t s' o cs, handle s e (op :: t) = Ret (s', o, cs) ->
  (op = 82 /\ o = None) \/ (op <> 82 /\ exists p, o = Some p /\ answers (op :: t) p).
Proof.
  intros s e op t s' o cs H.
  refine (handle_op (fun x => (op = 82 /\ snd (fst x) = None) \/ (op <> 82 /\ exists p, snd (fst x) = Some p /\ answers (op :: t) p)) s e op t _ _ _ _ _ _ _ _ _ _ _ _ _ H); cbn [fst snd].
  - intros -> s1 p G. right. split; [lia|]. exists p. split; [reflexivity|]. apply h_mtu_inv in G. destruct G as [(_ & -> & _)|(? & ? & _ & _ & _ & -> & _)]; [apply ans_err0; lia|]. apply (ans_ok 2). cbn; tauto.
  - intros -> p G. right. split; [lia|]. exists p. split; [reflexivity|]. unfold h_find_info in G. destruct (negb _); [injection G as <-; apply ans_err0; unfold e_invalid_pdu; lia|].
    rg G h a b t'. destruct (r16 _ 3) as [en|]; [|discriminate]. cbn [gbind] in G. destruct (_ || _); [injection G as <-; apply ans_errh; unfold e_invalid_handle; lia|].
    destruct (Nat.ltb _ _); [discriminate|]. destruct (db_subrange _ _ _) as [l|]; [|discriminate]. cbn [gbind] in G. destruct (fi_loop _ _ _ _) as [fmt buf].
    destruct (fmt =? 0); [injection G as <-; apply ans_errh; unfold e_attr_not_found; lia|]. apply rsp_of_inv in G. destruct G as [-> _]. apply (ans_ok 4). cbn; tauto.
  - intros -> p G. right. split; [lia|]. exists p. split; [reflexivity|]. unfold h_find_by_type in G. destruct (Nat.ltb (length _) 7); [injection G as <-; apply ans_err0; unfold e_invalid_pdu; lia|].
    rg G h a b t'. destruct (r16 _ 3) as [en|]; [|discriminate]. cbn [gbind] in G. destruct (_ || _); [injection G as <-; apply ans_errh; unfold e_invalid_handle; lia|].
    destruct (Nat.ltb _ _); [discriminate|]. destruct (r16 _ 5) as [ty|]; [|discriminate]. cbn [gbind] in G. destruct (gfrom _ 7) as [v|]; [|discriminate]. cbn [gbind] in G.
    destruct (db_subrange _ _ _) as [l|]; [|discriminate]. cbn [gbind] in G. destruct (fbtv_loop _ _ _ _ _) as [[|x buf]|].
    + injection G as <-; apply ans_errh; unfold e_attr_not_found; lia.
    + apply rsp_of_inv in G. destruct G as [-> _]. apply (ans_ok 6). cbn; tauto.
    + injection G as <-; apply ans_errh; unfold e_invalid_handle; lia.
  - intros -> p c G. right. split; [lia|]. exists p. split; [reflexivity|]. unfold h_read_by_type in G. destruct (_ && _); [injection G as <- _; apply ans_err0; unfold e_invalid_pdu; lia|].
    rg G h a b t'. destruct (r16 _ 3) as [en|]; [|discriminate]. cbn [gbind] in G. destruct (_ || _); [injection G as <- _; apply ans_errh; unfold e_invalid_handle; lia|].
    destruct (Nat.ltb _ _); [discriminate|]. destruct (gfrom _ 5) as [ty|]; [|discriminate]. cbn [gbind] in G.
    destruct (db_subrange _ _ _) as [l|]; [|discriminate]. cbn [gbind] in G. destruct (rbt_loop _ _ _ _ _ _ _ _ _) as [[code|[[|d] buf]] cc] eqn:L.
    + injection G as <- _. apply ans_errh. eapply rbt_code; exact L.
    + injection G as <- _. apply ans_errh; unfold e_attr_not_found; lia.
    + destruct (rsp_of _ _ _) as [q|] eqn:Q; [|discriminate]. cbn [gbind] in G. injection G as <- _. apply rsp_of_inv in Q. destruct Q as [-> _]. apply (ans_ok 8). cbn; tauto.
  - intros -> p c G. right. split; [lia|]. exists p. split; [reflexivity|]. unfold h_read in G. destruct (negb _); [injection G as <- _; apply ans_err0; unfold e_invalid_pdu; lia|].
    destruct (Nat.ltb _ _); [discriminate|]. rg G h a b t'. destruct (db_at _ _) as [[x|]|]; [| |discriminate]; cbn [gbind] in G; [|injection G as <- _; apply ans_errh; unfold e_invalid_handle; lia].
    destruct (a_v x) as [v|].
    + destruct (rsp_of _ _ _) as [q|] eqn:Q; [|discriminate]. cbn [gbind] in G. injection G as <- _. apply rsp_of_inv in Q. destruct Q as [-> _]. apply (ans_ok 10). cbn; tauto.
    + destruct (att_read _ _ _ _ _) as [[st v] cc] eqn:E. apply att_read_st in E. destruct (negb (st =? 0)) eqn:S; [injection G as <- _; apply ans_errh; unfold is_byte in E; lia|].
      destruct (rsp_of _ _ _) as [q|] eqn:Q; [|discriminate]. cbn [gbind] in G. injection G as <- _. apply rsp_of_inv in Q. destruct Q as [-> _]. apply (ans_ok 10). cbn; tauto.
  - intros -> p c G. right. split; [lia|]. exists p. split; [reflexivity|]. unfold h_read_blob in G. destruct (negb _); [injection G as <- _; apply ans_err0; unfold e_invalid_pdu; lia|].
    rg G h a b t'. destruct (db_at _ _) as [[x|]|]; [| |discriminate]; cbn [gbind] in G; [|injection G as <- _; apply ans_errh; unfold e_invalid_handle; lia].
    destruct (Nat.ltb _ _); [discriminate|]. destruct (a_v x) as [v|].
    + destruct (rsp_of _ _ _) as [q|] eqn:Q; [|discriminate]. cbn [gbind] in G. injection G as <- _. apply rsp_of_inv in Q. destruct Q as [-> _]. apply (ans_ok 12). cbn; tauto.
    + destruct (r16 _ 3) as [off|]; [|discriminate]. cbn [gbind] in G.
      destruct (att_read _ _ _ _ _) as [[st v] cc] eqn:E. apply att_read_st in E. destruct (negb (st =? 0)) eqn:S; [injection G as <- _; apply ans_errh; unfold is_byte in E; lia|].
      destruct (rsp_of _ _ _) as [q|] eqn:Q; [|discriminate]. cbn [gbind] in G. injection G as <- _. apply rsp_of_inv in Q. destruct Q as [-> _]. apply (ans_ok 12). cbn; tauto.
  - intros -> p G. right. split; [lia|]. exists p. split; [reflexivity|]. unfold h_read_by_group in G. destruct (_ && _); [injection G as <-; apply ans_err0; unfold e_invalid_pdu; lia|].
    rg G h a b t'. destruct (r16 _ 3) as [en|]; [|discriminate]. cbn [gbind] in G. destruct (_ || _); [injection G as <-; apply ans_errh; unfold e_invalid_handle; lia|].
    destruct (Nat.ltb _ _); [discriminate|]. destruct (db_subrange _ _ _) as [l|]; [|discriminate]. cbn [gbind] in G.
    destruct (rbg_loop _ _ _ _) as [[code|[[|d] buf]]|] eqn:L; cbn [gbind] in G; [| | |discriminate].
    + injection G as <-. apply ans_errh. assert (code = 6); [|lia].
      eapply rbg_code; exact L.
    + injection G as <-. apply ans_errh; unfold e_attr_not_found; lia.
    + apply rsp_of_inv in G. destruct G as [-> _]. apply (ans_ok 16). cbn; tauto.
  - intros -> s1 p c G. right. split; [lia|]. exists p. split; [reflexivity|]. unfold h_write in G. destruct (Nat.ltb _ _); [injection G as _ <- _; apply ans_err0; unfold e_invalid_pdu; lia|].
    rg G h a b t'. destruct (db_at _ _) as [[x|]|]; [| |discriminate]; cbn [gbind] in G; [|injection G as _ <- _; apply ans_errh; unfold e_invalid_handle; lia].
    destruct (gfrom _ 3); [|discriminate]. cbn [gbind] in G. destruct (att_write _ _ _ _) as [[[s2 st] cc]|] eqn:E; [|discriminate]. cbn [gbind] in G. injection G as _ <- _.
    apply att_write_st in E. destruct (st =? 0) eqn:S; [apply (ans_ok 18); cbn; tauto|]. apply ans_errh. unfold is_byte in E. lia.
  - intros -> s1 c G. now left.
  - intros -> s1 p G. right. split; [lia|]. exists p. split; [reflexivity|]. unfold h_prepare in G. rg G h a b t'. destruct (Nat.ltb _ _); [injection G as _ <-; apply ans_err0; unfold e_invalid_pdu; lia|].
    destruct (db_at _ _) as [[x|]|]; [| |discriminate]; cbn [gbind] in G; [|injection G as _ <-; apply ans_errh; unfold e_invalid_handle; lia].
    destruct (a_wh x); [|injection G as _ <-; apply ans_errh; unfold e_write_not_perm; lia]. destruct (gfrom _ 5); [|discriminate]. cbn [gbind] in G. destruct (r16 _ 3); [|discriminate]. cbn [gbind] in G.
    injection G as _ <-. apply (ans_ok 22). cbn; tauto.
  - intros -> s1 p c G. right. split; [lia|]. exists p. split; [reflexivity|]. unfold h_execute in G. destruct (Nat.ltb _ _); [injection G as _ <- _; apply ans_err0; unfold e_invalid_pdu; lia|].
    destruct (gidx _ 1) as [f|]; [|discriminate]. cbn [gbind] in G. destruct (f =? 0); [injection G as _ <- _; apply (ans_ok 24); cbn; tauto|].
    destruct (f =? 1); [|injection G as _ <- _; apply (ans_ok 24); cbn; tauto]. destruct (prep s) as [x|]; [|discriminate].
    destruct (a_wh x); [|injection G as _ <- _; apply ans_err0; unfold e_write_not_perm; lia].
    destruct (att_write _ _ _ _) as [[[s2 st] cc]|] eqn:E; [|discriminate]. cbn [gbind] in G. injection G as _ <- _.
    apply att_write_st in E. destruct (st =? 0) eqn:S; [apply (ans_ok 24); cbn; tauto|]. apply ans_err0. unfold is_byte in E. lia.
  - intros N. right. split; [cbn [In] in N; lia|]. exists (err_rsp op 0 6). split; [reflexivity|]. apply ans_err0. lia.
Qed.

(** ---- Read By Group Type ---- *)
Definition gval (a : attr) : bytes := match a_v a with Some v => v | None => [] end.
Definition g_same (d : nat) (a : attr) : bool := match a_v a with Some v => Nat.eqb (4 + length v) d | None => false end.
Lemma rbg_greedy : forall cap d l buf, (4 <= d)%nat -> (length buf <= cap)%nat ->
  (forall p x rest, l = p ++ x :: rest -> a_v x = None -> Forall (fun a => g_same d a = true) p -> (cap < length buf + length p * d)%nat) ->
  rbg_loop cap l d buf = Ret (inr (d, greedy cap d (fun a => group_value_entry d (a, gval a)) (take_while (g_same d) l) buf)).
Proof.
  intros cap d l. induction l as [|a l IH]; intros buf D B H; [reflexivity|]. cbn [rbg_loop take_while]. unfold g_same at 1.
  destruct (a_v a) as [v|] eqn:V.
  - replace (Nat.eqb d 0) with false by lia. cbn [negb andb]. destruct (Nat.eqb (4 + length v) d) eqn:E; cbn [negb]; [|reflexivity].
    cbn [greedy]. destruct (Nat.ltb cap (length buf + d)) eqn:C; [reflexivity|].
    assert (LE : length (group_value_entry d (a, gval a)) = d) by (unfold group_value_entry, gval; rewrite V; cbn [fst snd]; rewrite !app_length, !le16_length, firstn_length; lia).
    rewrite <- (IH (buf ++ group_value_entry d (a, gval a))).
    + unfold group_value_entry, gval. rewrite V. reflexivity.
    + exact D.
    + rewrite app_length, LE. lia.
    + intros p x rest -> X F. specialize (H (a :: p) x rest eq_refl X). rewrite app_length, LE.
      assert (cap < length buf + length (a :: p) * d)%nat by (apply H; constructor; [unfold g_same; now rewrite V|exact F]). cbn [length] in H0. lia.
  - exfalso. specialize (H [] a l eq_refl V (Forall_nil _)). cbn [length] in H. lia.
Qed.
Definition read_group_spec (mtu : nat) (a : attr) (rest : list attr) : bytes :=
  let d := entry_len 4 mtu (length (gval a)) in
  [17; Z.of_nat d] ++ flat_map (fun x => group_value_entry d (x, gval x)) (firstn ((mtu - 2) / d) (a :: take_while (g_same d) rest)).
Lemma read_group_ok : forall s st en ty a rest, wf_db (s_db s) -> (23 <= txlen s)%nat -> ok_range st en -> length ty = 2%nat \/ length ty = 16%nat ->
  between (s_db s) st en = a :: rest -> a_v a <> None ->
  (forall p x t, rest = p ++ x :: t -> a_v x = None -> exists b, In b p /\ g_same (entry_len 4 (txlen s) (length (gval a))) b = false) ->
  h_read_by_group s (req_range 16 st en ty) = Ret (read_group_spec (txlen s) a rest).
Proof.
  intros s st en ty a rest W M R LT BW V NS. unfold h_read_by_group. rewrite req_range_len.
  replace (negb (Nat.eqb (5 + length ty) 7) && negb (Nat.eqb (5 + length ty) 21)) with false by lia.
  destruct R as [R1 R2]. rewrite req_range_st, req_range_en by lia. cbn [gbind].
  replace ((st =? 0) || (st >? en)) with false by lia. rewrite (ltb_false (txlen s) 6) by lia.
  rewrite between_range by (exact W || (split; lia)). cbn [gbind]. rewrite BW. cbn [rbg_loop].
  unfold read_group_spec. set (d := entry_len 4 (txlen s) (length (gval a))) in *.
  destruct (a_v a) as [v|] eqn:VA; [|now elim V]. change (Nat.eqb 0 0) with true. cbn [negb andb length plus].
  assert (GV : gval a = v) by (unfold gval; now rewrite VA).
  assert (DD : Nat.min (Nat.min (S (S (S (S (length v))))) 255) (txlen s - 2) = d) by (unfold d, entry_len; rewrite GV; reflexivity). rewrite DD.
  assert (D1 : (4 <= d <= txlen s - 2)%nat) by (unfold d, entry_len; lia). assert (D2 : (d <= 255)%nat) by (unfold d, entry_len; lia).
  rewrite (ltb_false (txlen s - 2) d) by lia.
  assert (LE : length (group_value_entry d (a, gval a)) = d) by (unfold group_value_entry; cbn [fst snd]; rewrite !app_length, !le16_length, firstn_length; unfold d, entry_len; lia).
  change ([] ++ le16 (a_h a) ++ le16 (a_endh a) ++ firstn (d - 4) v) with (group_value_entry d (a, v)). rewrite <- GV.
  rewrite rbg_greedy; [|lia|lia|].
  - cbn [gbind]. destruct d as [|d'] eqn:DE; [lia|]. rewrite <- DE in *.
    assert (ES : forall x, In x (take_while (g_same d) rest) -> length (group_value_entry d (x, gval x)) = d).
    { intros x Hx. apply take_while_in in Hx. destruct Hx as [_ Hx]. unfold g_same in Hx. unfold group_value_entry, gval. destruct (a_v x); [|discriminate]. cbn [fst snd]. rewrite !app_length, !le16_length, firstn_length. lia. }
    rewrite greedy_spec; [|lia|exact ES]. rewrite LE.
    assert (QQ : ((txlen s - 2) / d = S ((txlen s - 2 - d) / d))%nat).
    { replace (txlen s - 2)%nat with ((txlen s - 2 - d) + 1 * d)%nat at 1 by lia. rewrite Nat.div_add by lia. lia. }
    assert (FL := fill_len (fun x => group_value_entry d (x, gval x)) d (take_while (g_same d) rest) (txlen s - 2 - d) ltac:(lia) ES).
    rewrite rsp_of_ok.
    + rewrite QQ. cbn [firstn flat_map app]. rewrite u8_id by (unfold is_byte; lia). reflexivity.
    + rewrite app_length, LE. cbn [length]. lia.
  - intros p x t E X F. destruct (NS p x t E X) as (b & IB & SB). rewrite Forall_forall in F. rewrite (F b IB) in SB. discriminate SB.
Qed.

(** ---- queued writes ---- *)
Lemma prepare_user : forall s h a off v, wf_db (s_db s) -> 0 <= h < 65536 -> 0 <= off < 65536 -> attr_at (s_db s) h = Some a -> a_wh a <> None ->
  h_prepare s (req_handle 22 h (le16 off ++ v)) =
  Ret (match prep s with None => set_prep s (Some a) v | Some b => set_prep s (Some b) (prepdata s ++ v) end, req_handle 23 h (le16 off ++ v)).
Proof.
  intros s h a off v W Hh Ho A WH. unfold h_prepare. rewrite req_handle_h by exact Hh. cbn [gbind].
  change (Nat.ltb (length (req_handle 22 h (le16 off ++ v))) 3) with false. cbv iota. rewrite attr_at_db by exact W. cbn [gbind]. rewrite A.
  destruct (a_wh a); [|now elim WH].
  assert (G5 : gfrom (req_handle 22 h (le16 off ++ v)) 5 = Ret v) by (rewrite gfrom_ok by (cbn [length]; unfold req_handle; rewrite !app_length, !le16_length; cbn; lia); reflexivity).
  rewrite G5. cbn [gbind]. assert (R3 : r16 (req_handle 22 h (le16 off ++ v)) 3 = Ret off) by (unfold r16; rewrite gfrom_ok by (unfold req_handle; rewrite !app_length, !le16_length; cbn; lia); change (gle16 (u8 off :: u8 (off / 256) :: v) = Ret off); unfold gle16; now rewrite de16_le16).
  rewrite R3. cbn [gbind]. reflexivity.
Qed.
