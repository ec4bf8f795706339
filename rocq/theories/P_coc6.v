(** What is written; numbers of requests. *)
Require Import Verif.Base Verif.M_attsrv Verif.M_gattcli Verif.M_coc Verif.S_coc Verif.P_gattcli Verif.P_gattcli3 Verif.P_coc Verif.P_coc2 Verif.P_coc3 Verif.P_coc4 Verif.P_coc5.

Definition okresp (p : bytes) : Prop := exists c, p = l2cap 5 (cmd_bytes c) /\ cmd_ok c /\ (x_code c = 1 \/ x_code c = 7 \/ x_code c = 19).
Lemma all_bytes_le16s : forall l, all_bytes (flat_map le16 l).
Proof. induction l as [|x l IH]; [constructor|]. cbn [flat_map le16 app]. constructor; [apply u8_byte|]. constructor; [apply u8_byte|exact IH]. Qed.
Lemma marshal_bytes : forall m, all_bytes (sig_marshal m).
Proof. intro m. unfold sig_marshal. destruct (sig_fields m); [apply all_bytes_le16s|constructor]. Qed.
Lemma marshal_length : forall m, (length (sig_marshal m) <= 10)%nat.
Proof. intro m. destruct m; cbn; lia. Qed.
Lemma sig_pdu_spec : forall m id, sig_pdu (sig_code m) id (sig_marshal m) = l2cap 5 (cmd_bytes (mkSC (sig_code m) id (sig_marshal m))).
Proof.
  intros m id. assert (L := marshal_length m). assert (C : u8 (sig_code m) = sig_code m) by (destruct m; reflexivity). unfold sig_pdu, l2cap, cmd_bytes. cbn [x_code x_id x_data]. rewrite C.
  assert (U1 : u16 (Z.of_nat (4 + length (sig_marshal m))) = Z.of_nat (length ([sig_code m; id] ++ le16 (Z.of_nat (length (sig_marshal m))) ++ sig_marshal m))) by (cbn [le16 app length]; unfold u16; lia).
  assert (U2 : u16 (Z.of_nat (length (sig_marshal m))) = Z.of_nat (length (sig_marshal m))) by (unfold u16; lia). rewrite U1, U2. reflexivity.
Qed.
Lemma sig_cmd_ok : forall m id, is_byte id -> cmd_ok (mkSC (sig_code m) id (sig_marshal m)).
Proof. intros m id B. assert (L := marshal_length m). split; [destruct m; cbn; unfold is_byte; lia|]. split; [exact B|]. split; [apply marshal_bytes|]. cbn [x_data]. lia. Qed.
Lemma resp_ok : forall m id, is_byte id -> (sig_code m = 1 \/ sig_code m = 7 \/ sig_code m = 19) -> okresp (sig_pdu (sig_code m) id (sig_marshal m)).
Proof. intros m id B C. exists (mkSC (sig_code m) id (sig_marshal m)). split; [apply sig_pdu_spec|]. split; [now apply sig_cmd_ok|exact C]. Qed.
Definition grows (P : bytes -> Prop) (s s' : cst) : Prop := c_sig s' = c_sig s /\ exists l, c_log s' = c_log s ++ l /\ Forall P l.
Lemma grows_refl : forall P s, grows P s s.
Proof. intros P s. split; [reflexivity|]. exists []. split; [now rewrite app_nil_r|constructor]. Qed.
Lemma grows_trans : forall P s1 s2 s3, grows P s1 s2 -> grows P s2 s3 -> grows P s1 s3.
Proof. intros P s1 s2 s3 [E1 (l & L & F)] [E2 (l' & L' & F')]. split; [congruence|]. exists (l ++ l'). split; [rewrite L', L; now rewrite app_assoc|]. apply Forall_app. auto. Qed.
Lemma grows_resp : forall w s id m, is_byte id -> (sig_code m = 1 \/ sig_code m = 7 \/ sig_code m = 19) -> grows okresp s (send_response w s id m).
Proof.
  intros w s id m B C. unfold send_response, put_pdu. destruct (w (c_log s)); cbn [fst]; [|apply grows_refl]. split; [reflexivity|]. eexists. split; [reflexivity|]. constructor; [now apply resp_ok|constructor].
Qed.
Lemma grows_other : forall P s s', c_sig s' = c_sig s -> c_log s' = c_log s -> grows P s s'.
Proof. intros P s s' E L. split; [exact E|]. exists []. split; [now rewrite app_nil_r|constructor]. Qed.
Lemma modify_same : forall s x n add s' b, modify_credits s x n add = (s', b) -> c_sig s' = c_sig s /\ c_log s' = c_log s /\ c_next s' = c_next s /\ c_send s' = c_send s /\ c_wait s' = c_wait s.
Proof. intros s x n add s' b H. unfold modify_credits in H. destruct (aget (c_lut s) x); [|injection H as <- <-; auto]. destruct add; [destruct (_ >? 65535)|destruct (n >? _)]; injection H as <- <-; auto. Qed.
Lemma sc_id_byte : forall b id, all_bytes b -> sc_id b = Ret id -> is_byte id.
Proof. intros b id B H. unfold sc_id in H. destruct b as [|x [|y b]]; try discriminate. cbn in H. injection H as <-. apply Forall_cons_iff in B. destruct B as [_ B]. apply Forall_cons_iff in B. tauto. Qed.
Lemma cmd_grows : forall w m s b s', all_bytes b -> handle_cmd w m s b = Ret s' -> grows okresp s s'.
Proof.
  intros w m s b s' B H. destruct (sc_code b) as [code|] eqn:C; [|unfold handle_cmd in H; rewrite C in H; discriminate].
  destruct (code_cases w m s b _ C) as [E|[E|[E|[[EC E]|[EC E]]]]]; rewrite E in H; clear E.
  - unfold handle_disconnect in H. destruct (sc_data b) as [d|]; [|discriminate]. cbn [gbind] in H. destruct (sig_unmarshal 6 d) as [[| | |dcid scid| | | | | | | |]|]; try (injection H as <-; apply grows_refl). destruct (sc_id b) as [id|] eqn:I; [|discriminate]. cbn [gbind] in H.
    destruct (dcid =? 4); cbn [negb] in H; [destruct (scid =? 4); cbn [negb] in H|]; injection H as <-; try apply grows_refl; (apply grows_resp; [eapply sc_id_byte; eassumption|cbn; auto]).
  - unfold handle_param_update in H. destruct m; cbn [negb] in H.
    + destruct (sc_data b) as [d|]; [|discriminate]. cbn [gbind] in H. destruct (sig_unmarshal 18 d) as [[| | | | |x1 x2 x3 x4| | | | | |]|]; try (injection H as <-; apply grows_refl). destruct (sc_id b) as [id|] eqn:I; [|discriminate]. cbn [gbind] in H. injection H as <-.
      eapply grows_trans; [|apply grows_resp; [eapply sc_id_byte; eassumption|cbn; auto]]. now apply grows_other.
    + destruct (sc_id b) as [id|] eqn:I; [|discriminate]. cbn [gbind] in H. injection H as <-. apply grows_resp; [eapply sc_id_byte; eassumption|cbn; auto].
  - injection H as <-. apply grows_refl.
  - unfold handle_credit in H. destruct (sc_data b) as [d|]; [|discriminate]. cbn [gbind] in H. destruct (sig_unmarshal 22 d) as [[| | | | | | | | |x n| |]|]; try (injection H as <-; apply grows_refl). injection H as <-.
    destruct (modify_credits s x n true) as [s1 b1] eqn:M. apply modify_same in M. cbn [fst]. now apply grows_other.
  - unfold handle_other in H. destruct (sc_id b) as [id|] eqn:I; [|discriminate]. cbn [gbind] in H. destruct (aget (c_pend s) id) as [k|]; [|injection H as <-; apply grows_resp; [eapply sc_id_byte; eassumption|cbn; auto]].
    destruct (nth_error (c_wait s) k) as [wt|]; injection H as <-; now apply grows_other.
Qed.
Lemma loop_grows : forall n w m s b s', all_bytes b -> sig_loop n w m s b = Ret s' -> grows okresp s s'.
Proof.
  induction n as [|n IH]; intros w m s b s' B H; cbn [sig_loop] in H; [injection H as <-; apply grows_refl|]. destruct b as [|x b]; [injection H as <-; apply grows_refl|].
  destruct (handle_cmd w m s (x :: b)) as [s1|] eqn:E; [|discriminate]. cbn [gbind] in H. destruct (sc_len (x :: b)) as [l|] eqn:L; [|discriminate]. cbn [gbind] in H. destruct (gfrom (x :: b) (4 + l)) as [r|] eqn:G; [|discriminate]. cbn [gbind] in H.
  apply cmd_grows in E; [|exact B]. eapply grows_trans; [exact E|]. eapply IH; [|exact H]. apply gfrom_inv in G. destruct G as [_ ->]. now apply Forall_skipn.
Qed.
Lemma signal_grows : forall w m s p s', all_bytes p -> handle_signal w m s p = Ret s' -> grows okresp s s'.
Proof.
  intros w m s p s' B H. unfold handle_signal in H. destruct (gslice p 0 2) as [h|]; [|discriminate]. cbn [gbind] in H. destruct (gle16 h) as [dl|]; [|discriminate]. cbn [gbind] in H. destruct (gfrom p 4) as [b|] eqn:G; [|discriminate]. cbn [gbind] in H.
  apply gfrom_inv in G. destruct G as [_ ->]. assert (B' : all_bytes (skipn 4 p)) by now apply Forall_skipn.
  destruct (dl >? 515).
  - destruct (sc_id (skipn 4 p)) as [id|] eqn:I; [|discriminate]. cbn [gbind] in H. injection H as <-. apply grows_resp; [eapply sc_id_byte; eassumption|cbn; auto].
  - destruct (sc_code (skipn 4 p)); [|discriminate]. cbn [gbind] in H. destruct (sc_id (skipn 4 p)); [|discriminate]. cbn [gbind] in H. eapply loop_grows; eassumption.
Qed.
(** the log after one step *)
Definition own (p : bytes) (id : Z) : Prop := exists m, p = sig_pdu (sig_code m) id (sig_marshal m) /\ (sig_code m = 20 \/ sig_code m = 22).
Definition logstep (w : writes) (s s' : cst) : Prop :=
  grows okresp s s' \/
  (c_sig s' = next_sig (c_sig s) /\ (w (c_log s) = false /\ c_log s' = c_log s \/ exists p, c_log s' = c_log s ++ [p] /\ own p (c_sig s'))) \/
  (c_sig s' = c_sig s /\ exists d total ch, In d (c_send s) /\ c_log s' = c_log s ++ [coc_frame (sd_cid d) total ch]).
Lemma step_log : forall w m s o s' r, typed_op o -> kstep w m s o = Ret (s', r) -> logstep w s s'.
Proof.
  intros w m s o s' r T H. destruct o; cbn [kstep] in H.
  - destruct (open_start w s psm) as [s1 x] eqn:E. assert (s' = s1) as -> by (destruct x; injection H as <- <-; reflexivity). clear H. unfold open_start, next_cid in E. destruct (_ || _); [injection E as <- <-; left; apply grows_refl|].
    right. left. unfold put_pdu in E. cbn [set_pend set_sig set_next c_log c_sig] in E. destruct (w (c_log s)) eqn:W; injection E as <- <-; cbn [set_pend set_sig set_next set_wait set_log c_log c_sig]; (split; [reflexivity|]).
    + right. eexists. split; [reflexivity|]. exists (SCocReq psm (c_next s) 64 64 2). split; [reflexivity|]. now left.
    + left. auto.
  - destruct (open_finish s k) as [[s1 c]|] eqn:E; [|discriminate]. cbn [gbind] in H. injection H as <- <-. left. apply grows_other; unfold open_finish in E; (destruct (nth_error (c_wait s) k) as [wt|]; [|injection E as <- <-; reflexivity]); (destruct (w_done wt); [injection E as <- <-; reflexivity|]);
    (destruct (w_rsp wt) as [b|]; [|injection E as <- <-; reflexivity]); (destruct (sc_code b) as [code|]; [|discriminate]); cbn [gbind] in E; (destruct (negb (code =? 21)); [injection E as <- <-; reflexivity|]); (destruct (sc_id b) as [id|]; [|discriminate]); cbn [gbind] in E; (destruct (negb (id =? c_sig s)); [injection E as <- <-; reflexivity|]);
    (destruct (sc_data b) as [d|]; [|discriminate]); cbn [gbind] in E; (destruct (sig_unmarshal 21 d) as [[| | | | | | | |dcid mtu mps credits result| | |]|]; try (injection E as <- <-; reflexivity)); (destruct (negb (result =? 0)); [injection E as <- <-; reflexivity|]); unfold add_channel in E; (match type of E with context [aget ?m dcid] => destruct (aget m dcid) end; injection E as <- <-; reflexivity).
  - destruct (gslice pdu 2 4) as [h|]; [|discriminate]. cbn [gbind] in H. destruct (gle16 h) as [cid|]; [|discriminate]. cbn [gbind] in H. destruct (cid =? 5).
    + destruct (handle_signal w m s pdu) as [s1|] eqn:E; [|discriminate]. cbn [gbind] in H. injection H as <- <-. left. eapply signal_grows; [exact T|exact E].
    + destruct (_ && _); [|injection H as <- <-; left; apply grows_refl]. destruct (gfrom pdu 4) as [b|]; [|discriminate]. cbn [gbind] in H. destruct (coc_receive w s cid b) as [[s1 ok]|] eqn:E; [|discriminate]. cbn [gbind] in H. injection H as <- <-. clear - E.
      unfold coc_receive in E. destruct (find_local (c_lut s) cid) as [i|]; [|injection E as <- <-; left; apply grows_refl].
      match type of E with gbind ?x _ = _ => destruct x as [[size buf]|]; [|discriminate] end. cbn [gbind] in E. match type of E with gbind ?x _ = _ => destruct x as [[s2 ok2]|] eqn:E2; [|discriminate] end. cbn [gbind] in E. injection E as <- <-.
      assert (PC : forall ch bb s2 o2, push_chan s ch bb = Ret (s2, o2) -> c_sig s2 = c_sig s /\ c_log s2 = c_log s).
      { clear. intros [n|] bb s2 o2 P; cbn [push_chan] in P; [|injection P as <- <-; auto]. destruct (nth_error (c_chans s) n) as [[q [|]]|]; [destruct (Nat.ltb _ _)|discriminate|]; injection P as <- <-; auto. }
      assert (S1 : c_sig s2 = c_sig s /\ c_log s2 = c_log s).
      { destruct (_ >=? _); [|injection E2 as <- <-; auto]. destruct (_ >? _); [now apply PC in E2|]. destruct (ci_chan i); [now apply PC in E2|injection E2 as <- <-; auto]. }
      destruct S1 as [S1 S2]. right. left. unfold signal_only, put_pdu. cbn [set_sig c_log c_sig]. rewrite S1, S2. destruct (w (c_log s)) eqn:W; cbn [fst set_log set_sig c_sig c_log]; (split; [reflexivity|]); [right|left; auto]. rewrite ?S2. eexists. split; [reflexivity|]. exists (SCredit cid 1). split; [reflexivity|]. now right.
  - left. destruct (coc_subscribe s local) as [s1 x] eqn:E. assert (s' = s1) as -> by (destruct x; injection H as <- <-; reflexivity). clear H. apply grows_other; unfold coc_subscribe in E; (destruct (find_local (c_lut s) local) as [i|]; [|injection E as <- <-; reflexivity]); destruct (ci_chan i); injection E as <- <-; reflexivity.
  - left. destruct (coc_unsubscribe s local) as [s1 x] eqn:E. injection H as <- <-. unfold coc_unsubscribe in E. destruct (find_local (c_lut s) local) as [i|]; [|injection E as <- <-; apply grows_refl]. injection E as <- <-.
    destruct (ci_chan i) as [n|]; cbn [close_chan]; [destruct (nth_error (c_chans s) n) as [[q o]|]|]; now apply grows_other.
  - left. destruct (close_channel s remote) as [s1 x] eqn:E. injection H as <- <-. unfold close_channel in E. destruct (aget (c_lut s) remote) as [i|]; [|injection E as <- <-; apply grows_refl]. injection E as <- <-.
    destruct (ci_chan i) as [n|]; cbn [close_chan]; [destruct (nth_error (c_chans s) n) as [[q o]|]|]; now apply grows_other.
  - left. destruct (nth_error (c_chans s) ch) as [[[|b q] [|]]|]; injection H as <- <-; now apply grows_other.
  - left. unfold send_start in H. destruct (aget (c_lut s) remote) as [i|]; [|injection H as <- <-; apply grows_refl]. destruct (_ <=? 2); injection H as <- <-; now apply grows_other.
  - left. unfold send_credit in H. destruct (nth_error (c_send s) k) as [d|]; [|injection H as <- <-; apply grows_refl]. destruct (sd_done d); [injection H as <- <-; apply grows_refl|]. destruct (sd_have d); [injection H as <- <-; apply grows_refl|]. destruct (sd_rest d) as [|x t]; [injection H as <- <-; now apply grows_other|].
    destruct (modify_credits s (sd_cid d) 1 false) as [s1 [|]] eqn:E; [injection H as <- <-; apply modify_same in E; now apply grows_other|]. destruct (Nat.ltb _ 9); injection H as <- <-; now apply grows_other.
  - unfold send_frame in H. destruct (nth_error (c_send s) k) as [d|] eqn:N; [|injection H as <- <-; left; apply grows_refl]. destruct (sd_have d) as [ch|]; [|injection H as <- <-; left; apply grows_refl]. unfold put_pdu in H. destruct (w (c_log s)); injection H as <- <-; [|left; now apply grows_other].
    right. right. split; [reflexivity|]. exists d, (sd_total d), ch. split; [eapply nth_in; exact N|reflexivity].
Qed.
(** well-formed signaling PDUs, unless the peer named the signaling channel as its data channel *)
Definition goodsig (p : bytes) : Prop := exists c, p = l2cap 5 (cmd_bytes c) /\ cmd_ok c /\ (x_code c = 20 \/ x_code c = 22 -> 1 <= x_id c <= 255).
Lemma own_good : forall p id, 1 <= id <= 255 -> own p id -> goodsig p.
Proof. intros p id R (m & -> & C). exists (mkSC (sig_code m) id (sig_marshal m)). split; [apply sig_pdu_spec|]. split; [apply sig_cmd_ok; unfold is_byte; lia|]. intros _. exact R. Qed.
Lemma resp_good : forall p, okresp p -> goodsig p.
Proof. intros p (c & E & O & C). exists c. split; [exact E|]. split; [exact O|]. lia. Qed.
Lemma hist_log : forall m es s, khist m es s -> (forall x, ~ announced (incoming es) 5 x) -> forall p, In p (c_log s) -> on_channel 5 p = true -> goodsig p.
Proof.
  intros m es s H. induction H as [|es s w o s' r H IH T K]; intros NA p I ON; [destruct I|].
  assert (NA' : forall x, ~ announced (incoming es) 5 x). { intros x A. apply (NA x). rewrite incoming_app. now apply announced_app. }
  destruct (step_log w m s o s' r T K) as [[_ (l & L & F)]|[(SG & [[_ L]|(q & L & O)])|(_ & d & total & ch & J & L)]]; rewrite L in I.
  - apply in_app_or in I. destruct I as [I|I]; [now apply IH|]. rewrite Forall_forall in F. now apply resp_good, F.
  - now apply IH.
  - apply in_app_or in I. destruct I as [I|[<-|[]]]; [now apply IH|]. apply own_good in O; [exact O|]. rewrite SG. apply next_sig_range.
  - apply in_app_or in I. destruct I as [I|[<-|[]]]; [now apply IH|]. exfalso. assert (N1 : 0 <> 5) by lia. destruct (hist_acct 0 m es s N1 H) as [(_ & _ & K3 & _) _]. destruct (K3 d J) as (R & A & _). rewrite frame_on in ON by assumption. apply Z.eqb_eq in ON. rewrite ON in A. now apply NA' in A.
Qed.
Lemma kgood_hist : forall m es s, kgood m es s -> khist m es s.
Proof. intros m es s H. induction H; [constructor|econstructor; eassumption]. Qed.
Lemma own_id_own : forall p id, own p id -> own_id p = [id].
Proof. intros p id (m & -> & [C|C]); unfold sig_pdu; rewrite C; reflexivity. Qed.
Lemma own_id_resp : forall p, okresp p -> own_id p = [].
Proof. intros p ([c i d] & -> & _ & [C|[C|C]]); cbn [x_code] in C; subst c; reflexivity. Qed.
Lemma own_id_frame : forall cid total ch, 0 <= cid < 65536 -> cid <> 5 -> own_id (coc_frame cid total ch) = [].
Proof.
  intros cid total ch R N. unfold coc_frame. cbn [le16 app own_id]. assert (D := de16_le16 cid R). set (a := u8 cid) in *. set (b := u8 (cid / 256)) in *. clearbody a b.
  destruct a as [|a|a]; try reflexivity. do 3 (destruct a as [a|a|]; try reflexivity). destruct b; try reflexivity. exfalso. apply N. rewrite <- D. reflexivity.
Qed.
Lemma ids_resp : forall l, Forall okresp l -> flat_map own_id l = [].
Proof. intros l F. induction F as [|p l P F IH]; [reflexivity|]. cbn [flat_map]. now rewrite (own_id_resp p P), IH. Qed.
Lemma next_sig_seq : forall n, next_sig (if Nat.eqb n 0 then 0 else 1 + (Z.of_nat n - 1) mod 255) = 1 + Z.of_nat n mod 255.
Proof. intro n. unfold next_sig, u8. destruct (Nat.eqb n 0) eqn:E; [apply Nat.eqb_eq in E; subst; reflexivity|]. apply Nat.eqb_neq in E. destruct (_ =? 0) eqn:Q; lia. Qed.
Lemma good_ids : forall m es s, kgood m es s -> (forall x, ~ announced (incoming es) 5 x) ->
  let n := length (flat_map own_id (c_log s)) in flat_map own_id (c_log s) = map (fun k => 1 + Z.of_nat k mod 255) (seq 0 n) /\ c_sig s = if Nat.eqb n 0 then 0 else 1 + (Z.of_nat n - 1) mod 255.
Proof.
  intros m es s H. induction H as [|es s o s' r H IH T K]; intros NA; [cbn; auto|].
  assert (NA' : forall x, ~ announced (incoming es) 5 x). { intros x A. apply (NA x). rewrite incoming_app. now apply announced_app. }
  specialize (IH NA'). cbv zeta in *. destruct IH as [I1 I2].
  destruct (step_log _ m s o s' r T K) as [[SG (l & L & F)]|[(SG & [[W L]|(q & L & O)])|(SG & d & total & ch & J & L)]].
  - rewrite L, flat_map_app, (ids_resp l F), app_nil_r, SG. auto.
  - discriminate W.
  - rewrite L, flat_map_app. cbn [flat_map]. rewrite app_nil_r, (own_id_own q (c_sig s') O). rewrite app_length. cbn [length]. set (n := length (flat_map own_id (c_log s))) in *. rewrite SG, I2, next_sig_seq. split.
    + rewrite I1. rewrite Nat.add_1_r, seq_S, map_app. reflexivity.
    + rewrite Nat.add_1_r. cbn [Nat.eqb]. f_equal. f_equal. lia.
  - rewrite L, flat_map_app. cbn [flat_map]. assert (N1 : 0 <> 5) by lia. destruct (hist_acct 0 m es s N1 (kgood_hist _ _ _ H)) as [(_ & _ & K3 & _) _]. destruct (K3 d J) as (R & A & _).
    rewrite own_id_frame; [|exact R|intro Q; rewrite Q in A; now apply NA' in A]. rewrite !app_nil_r, SG. auto.
Qed.
(** ---- channel identifiers ---- *)

Definition samew (s s' : cst) : Prop := c_next s' = c_next s /\ map w_local (c_wait s') = map w_local (c_wait s).
Lemma samew_quiet : forall s s', quiet s s' -> samew s s'.
Proof. intros s s' (E1 & _ & E3 & _). split; [exact E1|now rewrite E3]. Qed.
Lemma samew_trans : forall a b c, samew a b -> samew b c -> samew a c.
Proof. intros a b c [A1 A2] [B1 B2]. split; congruence. Qed.
Lemma samew_refl : forall s, samew s s. Proof. intro s. split; reflexivity. Qed.
Lemma cmd_wait : forall w m s b s', handle_cmd w m s b = Ret s' -> samew s s'.
Proof.
  intros w m s b s' H. destruct (sc_code b) as [code|] eqn:C; [|unfold handle_cmd in H; rewrite C in H; discriminate].
  destruct (code_cases w m s b _ C) as [E|[E|[E|[[EC E]|[EC E]]]]]; rewrite E in H; clear E.
  - unfold handle_disconnect in H. destruct (sc_data b) as [d|]; [|discriminate]. cbn [gbind] in H. destruct (sig_unmarshal 6 d) as [[| | |dcid scid| | | | | | | |]|]; try (injection H as <-; apply samew_refl). destruct (sc_id b) as [id|] eqn:I; [|discriminate]. cbn [gbind] in H.
    destruct (dcid =? 4); cbn [negb] in H; [destruct (scid =? 4); cbn [negb] in H|]; injection H as <-; try apply samew_refl; apply samew_quiet, quiet_response.
  - unfold handle_param_update in H. destruct m; cbn [negb] in H.
    + destruct (sc_data b) as [d|]; [|discriminate]. cbn [gbind] in H. destruct (sig_unmarshal 18 d) as [[| | | | |x1 x2 x3 x4| | | | | |]|]; try (injection H as <-; apply samew_refl). destruct (sc_id b) as [id|] eqn:I; [|discriminate]. cbn [gbind] in H. injection H as <-.
      eapply samew_trans; [|apply samew_quiet, quiet_response]. split; reflexivity.
    + destruct (sc_id b) as [id|] eqn:I; [|discriminate]. cbn [gbind] in H. injection H as <-. apply samew_quiet, quiet_response.
  - injection H as <-. apply samew_refl.
  - unfold handle_credit in H. destruct (sc_data b) as [d|]; [|discriminate]. cbn [gbind] in H. destruct (sig_unmarshal 22 d) as [[| | | | | | | | |x n| |]|]; try (injection H as <-; apply samew_refl). injection H as <-.
    destruct (modify_credits s x n true) as [s1 b1] eqn:M. apply modify_same in M. cbn [fst]. split; [tauto|]. destruct M as (_ & _ & _ & _ & ->). reflexivity.
  - unfold handle_other in H. destruct (sc_id b) as [id|] eqn:I; [|discriminate]. cbn [gbind] in H. destruct (aget (c_pend s) id) as [k|]; [|injection H as <-; apply samew_quiet, quiet_response].
    destruct (nth_error (c_wait s) k) as [wt|] eqn:N; injection H as <-; [|split; reflexivity]. split; [reflexivity|]. cbn [set_pend set_wait c_wait]. now rewrite (upd_same_map w_local (c_wait s) k wt).
Qed.
Lemma loop_wait : forall n w m s b s', sig_loop n w m s b = Ret s' -> samew s s'.
Proof.
  induction n as [|n IH]; intros w m s b s' H; cbn [sig_loop] in H; [injection H as <-; apply samew_refl|]. destruct b as [|x b]; [injection H as <-; apply samew_refl|].
  destruct (handle_cmd w m s (x :: b)) as [s1|] eqn:E; [|discriminate]. cbn [gbind] in H. destruct (sc_len (x :: b)) as [l|] eqn:L; [|discriminate]. cbn [gbind] in H. destruct (gfrom (x :: b) (4 + l)) as [r|] eqn:G; [|discriminate]. cbn [gbind] in H.
  apply cmd_wait in E. eapply samew_trans; [exact E|]. eapply IH; exact H.
Qed.
Definition is_open (o : kop) : bool := match o with KOpen _ => true | _ => false end.
Lemma step_wait : forall w m s o s' r, kstep w m s o = Ret (s', r) -> is_open o = false -> samew s s'.
Proof.
  intros w m s o s' r H NO. destruct o; try discriminate NO; cbn [kstep] in H.
  - destruct (open_finish s k) as [[s1 c]|] eqn:E; [|discriminate]. cbn [gbind] in H. injection H as <- <-. unfold open_finish in E. destruct (nth_error (c_wait s) k) as [wt|] eqn:N; [|injection E as <- <-; apply samew_refl]. destruct (w_done wt); [injection E as <- <-; apply samew_refl|].
    set (s2 := set_pend _ _) in E. assert (S2 : samew s s2). { split; [reflexivity|]. cbn [s2 set_pend set_wait c_wait]. now rewrite (upd_same_map w_local (c_wait s) k wt). }
    clearbody s2. destruct (w_rsp wt) as [b|]; [|injection E as <- <-; exact S2]. destruct (sc_code b) as [code|]; [|discriminate]. cbn [gbind] in E. destruct (negb (code =? 21)); [injection E as <- <-; exact S2|]. destruct (sc_id b) as [id|]; [|discriminate]. cbn [gbind] in E. destruct (negb (id =? c_sig s)); [injection E as <- <-; exact S2|].
    destruct (sc_data b) as [d|]; [|discriminate]. cbn [gbind] in E. destruct (sig_unmarshal 21 d) as [[| | | | | | | |dcid mtu mps credits result| | |]|]; try (injection E as <- <-; exact S2). destruct (negb (result =? 0)); [injection E as <- <-; exact S2|]. unfold add_channel in E. destruct (aget (c_lut s2) dcid); injection E as <- <-; exact S2.
  - destruct (gslice pdu 2 4) as [h|]; [|discriminate]. cbn [gbind] in H. destruct (gle16 h) as [cid|]; [|discriminate]. cbn [gbind] in H. destruct (cid =? 5).
    + destruct (handle_signal w m s pdu) as [s1|] eqn:E; [|discriminate]. cbn [gbind] in H. injection H as <- <-. unfold handle_signal in E. destruct (gslice pdu 0 2) as [h'|]; [|discriminate]. cbn [gbind] in E. destruct (gle16 h') as [dl|]; [|discriminate]. cbn [gbind] in E. destruct (gfrom pdu 4) as [b|] eqn:G; [|discriminate]. cbn [gbind] in E.
      destruct (dl >? 515); [destruct (sc_id b) as [id|] eqn:I; [|discriminate]; cbn [gbind] in E; injection E as <-; apply samew_quiet, quiet_response|]. destruct (sc_code b); [|discriminate]. cbn [gbind] in E. destruct (sc_id b); [|discriminate]. cbn [gbind] in E. eapply loop_wait; exact E.
    + destruct (_ && _); [|injection H as <- <-; apply samew_refl]. destruct (gfrom pdu 4) as [b|]; [|discriminate]. cbn [gbind] in H. destruct (coc_receive w s cid b) as [[s1 ok]|] eqn:E; [|discriminate]. cbn [gbind] in H. injection H as <- <-. apply receive_quiet in E. destruct E as (E1 & _ & E3 & _). split; [exact E1|now rewrite E3].
  - destruct (coc_subscribe s local) as [s1 x] eqn:E. assert (s' = s1) as -> by (destruct x; injection H as <- <-; reflexivity). clear H. unfold coc_subscribe in E; destruct (find_local (c_lut s) local) as [i|]; [|injection E as <- <-; apply samew_refl]; destruct (ci_chan i); injection E as <- <-; split; reflexivity.
  - destruct (coc_unsubscribe s local) as [s1 x] eqn:E. injection H as <- <-. unfold coc_unsubscribe in E. destruct (find_local (c_lut s) local) as [i|]; [|injection E as <- <-; apply samew_refl]. injection E as <- <-.
    destruct (ci_chan i) as [n|]; cbn [close_chan]; [destruct (nth_error (c_chans s) n) as [[q o]|]|]; split; reflexivity.
  - destruct (close_channel s remote) as [s1 x] eqn:E. injection H as <- <-. unfold close_channel in E. destruct (aget (c_lut s) remote) as [i|]; [|injection E as <- <-; apply samew_refl]. injection E as <- <-.
    destruct (ci_chan i) as [n|]; cbn [close_chan]; [destruct (nth_error (c_chans s) n) as [[q o]|]|]; split; reflexivity.
  - destruct (nth_error (c_chans s) ch) as [[[|b q] [|]]|]; injection H as <- <-; split; reflexivity.
  - unfold send_start in H. destruct (aget (c_lut s) remote) as [i|]; [|injection H as <- <-; apply samew_refl]. destruct (_ <=? 2); injection H as <- <-; split; reflexivity.
  - unfold send_credit in H. destruct (nth_error (c_send s) k) as [d|]; [|injection H as <- <-; apply samew_refl]. destruct (sd_done d); [injection H as <- <-; apply samew_refl|]. destruct (sd_have d); [injection H as <- <-; apply samew_refl|]. destruct (sd_rest d) as [|x t]; [injection H as <- <-; split; reflexivity|].
    destruct (modify_credits s (sd_cid d) 1 false) as [s1 [|]] eqn:E; [injection H as <- <-; apply modify_same in E; destruct E as (_ & _ & E1 & _ & E2); split; cbn [upd_sd set_send c_next c_wait]; [exact E1|now rewrite E2]|]. destruct (Nat.ltb _ 9); injection H as <- <-; split; reflexivity.
  - unfold send_frame in H. destruct (nth_error (c_send s) k) as [d|] eqn:N; [|injection H as <- <-; apply samew_refl]. destruct (sd_have d) as [ch|]; [|injection H as <- <-; apply samew_refl]. unfold put_pdu in H. destruct (w (c_log s)); injection H as <- <-; split; reflexivity.
Qed.
Lemma open_step : forall w m s psm s' r, kstep w m s (KOpen psm) = Ret (s', r) ->
  (c_next s = 0 /\ s' = s /\ r = KErr) \/ ~ (64 <= c_next s <= 65535) /\ s' = s /\ r = KErr \/
  (64 <= c_next s <= 65535 /\ c_next s' = u16 (c_next s + 1) /\
   ((w (c_log s) = false /\ r = KErr /\ c_wait s' = c_wait s /\ c_log s' = c_log s) \/
    (w (c_log s) = true /\ r = KWait (length (c_wait s)) /\ c_wait s' = c_wait s ++ [mkW (next_sig (c_sig s)) (c_next s) None false] /\
     c_log s' = c_log s ++ [sig_pdu 20 (next_sig (c_sig s)) (sig_marshal (SCocReq psm (c_next s) 64 64 2))]))).
Proof.
  intros w m s psm s' r H. cbn [kstep] in H. unfold open_start, next_cid in H. destruct (_ || _) eqn:E; [injection H as <- <-; right; left; split; [lia|auto]|]. right. right. split; [lia|].
  unfold put_pdu in H. cbn [set_pend set_sig set_next c_log c_sig c_wait] in H. destruct (w (c_log s)) eqn:W; injection H as <- <-; cbn [set_pend set_sig set_next set_wait set_log c_next c_log c_wait c_sig]; (split; [reflexivity|]); [right|left]; auto.
Qed.
Lemma source_sig : forall psm id cid, 0 <= cid < 65536 -> source_cid (sig_pdu 20 id (sig_marshal (SCocReq psm cid 64 64 2))) = cid.
Proof. intros psm id cid R. unfold source_cid. cbn [sig_pdu le16 app skipn sig_marshal sig_fields flat_map]. now apply de16_le16. Qed.
Lemma cids_hist : forall m es l s, kcids m es l s -> khist m es s.
Proof. intros m es l s H. induction H; [constructor|econstructor; eassumption]. Qed.
Lemma cids_wait : forall m es l s, kcids m es l s -> l = map w_local (c_wait s).
Proof.
  intros m es l s H. induction H as [|es l s w o s' r H IH T K]; [reflexivity|]. destruct (is_open o) eqn:O.
  - destruct o; try discriminate O. destruct (open_step _ _ _ _ _ _ K) as [(_ & -> & ->)|[(_ & -> & ->)|(R & _ & [(_ & -> & E & _)|(_ & -> & E & L)])]]; cbn [requested]; rewrite ?app_nil_r; try exact IH; [now rewrite E|].
    rewrite E, map_app, L, last_last, source_sig by lia. cbn [map w_local]. now rewrite IH.
  - destruct (step_wait _ _ _ _ _ _ K O) as [_ E]. rewrite E. assert (requested o r (c_log s') = []) as -> by (destruct o; try reflexivity; discriminate O). now rewrite app_nil_r.
Qed.
Lemma opens_next : forall m es s, khist m es s -> c_next s = if Z.of_nat (opens es) <? 65472 then 64 + Z.of_nat (opens es) else 0.
Proof.
  intros m es s H. induction H as [|es s w o s' r H IH T K]; [reflexivity|]. unfold opens in *. rewrite filter_app, app_length. cbn [filter fst]. destruct (is_open o) eqn:O.
  - destruct o; try discriminate O. cbn [length]. set (n := length _) in *. destruct (open_step _ _ _ _ _ _ K) as [(Z0 & -> & _)|[(Z0 & -> & _)|(R & E & _)]].
    + rewrite IH. destruct (Z.of_nat n <? 65472) eqn:Q; [lia|]. destruct (Z.of_nat (n + 1) <? 65472) eqn:Q2; lia.
    + rewrite IH. destruct (Z.of_nat n <? 65472) eqn:Q; [lia|]. destruct (Z.of_nat (n + 1) <? 65472) eqn:Q2; lia.
    + rewrite E. destruct (Z.of_nat n <? 65472) eqn:Q; [|lia]. unfold u16. destruct (Z.of_nat (n + 1) <? 65472) eqn:Q2; lia.
  - destruct (step_wait _ _ _ _ _ _ K O) as [E _]. rewrite E. assert ((match o with KOpen _ => true | _ => false end) = false) as -> by exact O. cbn [length]. now rewrite Nat.add_0_r.
Qed.
