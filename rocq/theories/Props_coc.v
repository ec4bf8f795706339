(** C34..C37, C52: L2CAP signaling and credit based channels. *)
Require Import Verif.Base Verif.M_attsrv Verif.M_gattcli Verif.M_coc Verif.S_coc Verif.P_gattcli Verif.P_gattcli3 Verif.P_coc Verif.P_coc2 Verif.P_coc3 Verif.P_coc4 Verif.P_coc5 Verif.P_coc6 Verif.P_coc7 Verif.P_coc8.

(** for the examples: run a list of steps, all writes succeeding *)
Fixpoint play (m : bool) (s : cst) (ops : list kop) : option (list (kop * kres) * cst) :=
  match ops with
  | [] => Some ([], s)
  | o :: t => match kstep (fun _ => true) m s o with Ret (s', r) => match play m s' t with Some (es, s'') => Some ((o, r) :: es, s'') | None => None end | Panic => None end
  end.
Lemma play_good : forall ops m es s es' s', kgood m es s -> Forall typed_op ops -> play m s ops = Some (es', s') -> kgood m (es ++ es') s'.
Proof.
  induction ops as [|o t IH]; intros m es s es' s' G T H; cbn [play] in H; [injection H as <- <-; now rewrite app_nil_r|]. destruct (kstep _ m s o) as [[s1 r]|] eqn:K; [|discriminate]. destruct (play m s1 t) as [[es2 s2]|] eqn:P; [|discriminate]. injection H as <- <-.
  apply Forall_cons_iff in T. destruct T as [T1 T2]. replace (es ++ (o, r) :: es2) with ((es ++ [(o, r)]) ++ es2) by (rewrite <- app_assoc; reflexivity). eapply IH; [|exact T2|exact P]. econstructor; eassumption.
Qed.
Definition coc_rsp (id dcid credits : Z) : bytes := l2cap 5 (cmd_bytes (mkSC 21 id (flat_map le16 [dcid; 100; 10; credits; 0]))).
Definition opening : list kop := [KOpen 128; KIncoming (coc_rsp 1 80 3); KFinish 0; KSubscribe 64].
Ltac tbytes := repeat (first [apply Forall_nil | apply Forall_cons; [unfold is_byte; cbn; lia|]]).
Example opening_typed : Forall typed_op opening.
Proof. repeat (apply Forall_cons; [first [exact I | cbn [typed_op]; vm_compute; repeat (first [apply Forall_nil | apply Forall_cons; [vm_compute; split; congruence|]])]|]). apply Forall_nil. Qed.
Example opening_works : exists es s, play true coc_new opening = Some (es, s) /\ map snd es = [KWait 0; KNone; KOpened 80; KChan 0] /\ aget (c_lut s) 80 = Some (mkCI 64 80 3 100 10 (Some 0%nat) None) /\ kgood true es s.
Proof.
  assert (P : exists es s, play true coc_new opening = Some (es, s) /\ map snd es = [KWait 0; KNone; KOpened 80; KChan 0] /\ aget (c_lut s) 80 = Some (mkCI 64 80 3 100 10 (Some 0%nat) None)).
  { do 2 eexists. split; [vm_compute; reflexivity|]. split; reflexivity. }
  destruct P as (es & s & P & A & B). exists es, s. split; [exact P|]. split; [exact A|]. split; [exact B|]. apply (play_good opening true [] coc_new es s); [constructor|exact opening_typed|exact P].
Qed.

(** ---- C34 ---- *)
(** Opening a channel either fails or sends one connection request with a new identifier. *)
Theorem C34_request : forall m es l s w psm s' r, kcids m es l s -> kstep w m s (KOpen psm) = Ret (s', r) ->
  (r = KErr /\ c_log s' = c_log s) \/
  exists id cid, r = KWait (length l) /\ 1 <= id <= 255 /\ 64 <= cid <= 65535 /\ ~ In cid l /\
    c_log s' = c_log s ++ [l2cap 5 (cmd_bytes (mkSC 20 id (le16 psm ++ le16 cid ++ le16 64 ++ le16 64 ++ le16 2)))].
Proof.
  intros m es l s w psm s' r K H. assert (E := cids_wait _ _ _ _ K). destruct (inv_hist _ _ _ (cids_hist _ _ _ _ K)) as [(A1 & A2 & A3 & _) _].
  destruct (open_step _ _ _ _ _ _ H) as [(_ & -> & ->)|[(_ & -> & ->)|(R & _ & [(_ & -> & _ & L)|(_ & -> & _ & L)])]]; try (left; auto; fail).
  right. exists (next_sig (c_sig s)), (c_next s). split; [rewrite E, map_length; reflexivity|]. split; [apply next_sig_range|]. split; [exact R|]. split.
  - rewrite E. intro I. apply in_map_iff in I. destruct I as (x & X & I). apply In_nth_error in I. destruct I as (j & J). specialize (A2 j x J). lia.
  - rewrite L. reflexivity.
Qed.
Print Assumptions C34_request.
(** In every history the identifiers requested are dynamic ones and never repeated. *)
Theorem C34_unique : forall m es l s, kcids m es l s -> NoDup l /\ Forall (fun cid => 64 <= cid <= 65535) l.
Proof.
  intros m es l s K. rewrite (cids_wait _ _ _ _ K). destruct (inv_hist _ _ _ (cids_hist _ _ _ _ K)) as [(A1 & A2 & A3 & _) _]. split; [exact A3|]. apply Forall_forall. intros x I. apply in_map_iff in I. destruct I as (y & <- & I). apply In_nth_error in I. destruct I as (j & J). specialize (A2 j y J). tauto.
Qed.
Print Assumptions C34_unique.
(** The channels open at any time have distinct identifiers on either side, each local one was requested. *)
Theorem C34_channels : forall m es l s, kcids m es l s -> NoDup (map fst (c_lut s)) /\ NoDup (map (fun x => ci_local (snd x)) (c_lut s)) /\ forall r i, In (r, i) (c_lut s) -> ci_remote i = r /\ In (ci_local i) l.
Proof.
  intros m es l s K. rewrite (cids_wait _ _ _ _ K). destruct (inv_hist _ _ _ (cids_hist _ _ _ _ K)) as [(_ & _ & _ & A4 & A5 & A6) _]. split; [exact A4|]. split; [exact A6|]. intros r i I. destruct (A5 r i I) as (R & _ & j & wt & J & _ & L). split; [exact R|]. rewrite <- L. apply in_map. eapply nth_error_In; exact J.
Qed.
Print Assumptions C34_channels.
(** After 65472 calls every further one fails and sends nothing; before that a call sends its request unless the write fails. *)
Theorem C34_exhausted : forall m es s w psm, khist m es s ->
  (Z.of_nat (opens es) >= 65472 -> kstep w m s (KOpen psm) = Ret (s, KErr)) /\
  (Z.of_nat (opens es) < 65472 -> w (c_log s) = true -> exists s' k, kstep w m s (KOpen psm) = Ret (s', KWait k)).
Proof.
  intros m es s w psm H. assert (N := opens_next _ _ _ H). split; intro L.
  - destruct (_ <? _) eqn:E in N; [lia|]. cbn [kstep]. unfold open_start, next_cid. rewrite N. reflexivity.
  - intro W. destruct (_ <? _) eqn:E in N; [|lia]. cbn [kstep]. unfold open_start, next_cid. destruct (_ || _) eqn:Q; [lia|]. unfold put_pdu. cbn [set_pend set_sig set_next c_log]. rewrite W. do 2 eexists. reflexivity.
Qed.
Print Assumptions C34_exhausted.
(** the peer cannot make two channels share its identifier *)
Theorem C34_remote_taken : forall m es s k s' r i, khist m es s -> kstep (fun _ => true) m s (KFinish k) = Ret (s', KOpened r) -> aget (c_lut s) r = Some i -> False.
Proof.
  intros m es s k s' r i H K A. cbn [kstep] in K. destruct (open_finish s k) as [[s1 c]|] eqn:E; [|discriminate]. cbn [gbind] in K. destruct c as [c|]; [|discriminate]. injection K as -> ->. unfold open_finish in E.
  destruct (nth_error (c_wait s) k) as [wt|]; [|discriminate]. destruct (w_done wt); [discriminate|]. destruct (w_rsp wt) as [b|]; [|discriminate]. destruct (sc_code b) as [code|]; [|discriminate]. cbn [gbind] in E. destruct (negb _); [discriminate|]. destruct (sc_id b) as [id|]; [|discriminate]. cbn [gbind] in E. destruct (negb _); [discriminate|].
  destruct (sc_data b) as [d|]; [|discriminate]. cbn [gbind] in E. destruct (sig_unmarshal 21 d) as [[| | | | | | | |dcid mtu mps credits result| | |]|]; try discriminate. destruct (negb _); [discriminate|]. unfold add_channel in E. cbn [set_pend set_wait c_lut] in E. destruct (aget (c_lut s) dcid) eqn:G; [discriminate|]. injection E as _ ->. congruence.
Qed.
Print Assumptions C34_remote_taken.
Example C34_example : exists es s, kcids true es [64; 65] s.
Proof.
  assert (S1 : exists s, kstep (fun _ => true) true coc_new (KOpen 128) = Ret (s, KWait 0)) by (eexists; vm_compute; reflexivity). destruct S1 as (s1 & S1).
  assert (H1 := kc_step true _ _ _ (fun _ => true) (KOpen 128) _ _ (kc_new true) I S1). vm_compute in S1. injection S1 as <-.
  assert (S2 : exists s, kstep (fun _ => true) true (mkC 65 [] 1 [(1, 0%nat)] [mkW 1 64 None false] [] [] [[14; 0; 5; 0; 20; 1; 10; 0; 128; 0; 64; 0; 64; 0; 64; 0; 2; 0]] []) (KOpen 5) = Ret (s, KWait 1)) by (eexists; vm_compute; reflexivity). destruct S2 as (s2 & S2).
  assert (H2 := kc_step true _ _ _ (fun _ => true) (KOpen 5) _ _ H1 I S2). vm_compute in S2. injection S2 as <-. vm_compute in H2. eexists. eexists. exact H2.
Qed.

(** ---- C35 ---- *)
(** However calls, incoming PDUs and failing writes interleave: the frames sent on a channel of the peer are at most the credits the peer granted for it. *)
Theorem C35_credits : forall m es s cid, khist m es s -> cid <> 5 -> frames_on cid (c_log s) <= sumZ (grants_in cid) (incoming es).
Proof.
  intros m es s cid H N. destruct (hist_acct cid m es s N H) as [K A]. assert (W : 0 <= sumZ (waiting cid) (c_wait s)) by (apply sumZ_nonneg; intros; eapply waiting_nonneg; eassumption).
  assert (F : 0 <= sumZ (inflight cid) (c_send s)) by (apply sumZ_nonneg; intros x _; unfold inflight; destruct (_ =? _); [destruct (sd_have x)|]; lia). assert (C := creds_nonneg cid _ _ K). unfold acct in A. lia.
Qed.
Print Assumptions C35_credits.
(** Every PDU written is on the signaling channel or a frame on a channel the peer opened, with at most the MPS it announced for it. *)
Theorem C35_frame_size : forall m es s p, khist m es s -> In p (c_log s) -> on_channel 5 p = true \/ exists cid mps, announced (incoming es) cid mps /\ on_channel cid p = true /\ Z.of_nat (length (payload_of p)) <= mps.
Proof.
  intros m es s p H I. assert (N1 : 0 <> 5) by lia. destruct (hist_acct 0 m es s N1 H) as [(_ & _ & _ & K4) _]. destruct (K4 p I) as [A|(cid & x & A & B & C)]; [now left|right]. exists cid, x. split; [exact A|]. split; [exact B|].
  unfold payload_of. rewrite skipn_length. destruct p as [|a [|b [|c [|d p]]]]; try discriminate B. cbn [length] in *. lia.
Qed.
Print Assumptions C35_frame_size.
(** The counter of an open channel: a grant adds exactly its value, or nothing when the sum exceeds 65535; nothing else changes. *)
Theorem C35_grant : forall m es s w id cid n i, khist m es s -> aget (c_lut s) cid = Some i -> is_byte id -> 0 <= n < 65536 ->
  exists s', kstep w m s (KIncoming (l2cap 5 (cmd_bytes (mkSC 22 id (le16 cid ++ le16 n))))) = Ret (s', KNone) /\ 0 <= ci_credits i <= 65535 /\
    (exists i', aget (c_lut s') cid = Some i' /\ ci_credits i' = if ci_credits i + n <=? 65535 then ci_credits i + n else ci_credits i) /\ (forall c, c <> cid -> aget (c_lut s') c = aget (c_lut s) c) /\
    c_log s' = c_log s /\ c_send s' = c_send s /\ c_chans s' = c_chans s.
Proof.
  intros m es s w id cid n i H G B R. assert (N1 : 0 <> 5) by lia. destruct (hist_acct 0 m es s N1 H) as [(K1 & _) _]. destruct (K1 _ _ (aget_in _ _ _ G)) as (RC & RR & _).
  assert (BC : is_byte 22) by (unfold is_byte; lia). destruct (fields_ok 22 id [cid; n] BC B ltac:(cbn; lia)) as [CO CL]. change (flat_map le16 [cid; n]) with (le16 cid ++ le16 n) in *.
  assert (E : kstep w m s (KIncoming (l2cap 5 (cmd_bytes (mkSC 22 id (le16 cid ++ le16 n))))) = Ret (fst (modify_credits s cid n true), KNone)).
  { rewrite one_cmd by assumption. destruct (data_of _ CO) as (D1 & D2 & D3). unfold handle_cmd. rewrite D1. cbn [gbind x_code]. unfold handle_credit. rewrite D3. cbn [gbind x_data].
    assert (U := sig_round (SCredit cid n) [] ltac:(unfold sig_typed; cbn [sig_fields]; apply Forall_cons; [lia|apply Forall_cons; [lia|apply Forall_nil]]) ltac:(discriminate)). rewrite app_nil_r in U.
    change (sig_marshal (SCredit cid n)) with (le16 cid ++ le16 n) in U. change (sig_code (SCredit cid n)) with 22 in U. rewrite U. reflexivity. }
  exists (fst (modify_credits s cid n true)). split; [exact E|]. split; [exact RR|]. unfold modify_credits. rewrite G. destruct (_ >? 65535) eqn:Q.
  - cbn [fst]. assert (ci_credits i + n <=? 65535 = false) as -> by lia. split; [exists i; auto|]. auto.
  - cbn [fst set_lut c_lut c_log c_send c_chans]. assert (ci_credits i + n <=? 65535 = true) as -> by lia. split; [|split; [|auto]].
    + eexists. split; [rewrite aget_aset, Z.eqb_refl; reflexivity|]. cbn. unfold u16. lia.
    + intros c NC. rewrite aget_aset. now rewrite (proj2 (Z.eqb_neq _ _) NC).
Qed.
Print Assumptions C35_grant.
(** A frame received on an open channel gives the peer one credit back, no matter what becomes of the frame. *)
Theorem C35_returned : forall m es s cid data i, khist m es s -> 64 <= cid <= 65535 -> find_local (c_lut s) cid = Some i -> (2 <= length data)%nat -> Z.of_nat (length data) < 65536 -> exists s' r id,
  kstep (fun _ => true) m s (KIncoming (l2cap cid data)) = Ret (s', r) /\ 1 <= id <= 255 /\ c_log s' = c_log s ++ [l2cap 5 (cmd_bytes (mkSC 22 id (le16 cid ++ le16 1)))].
Proof.
  intros m es s cid data i H R F L L2. destruct (receive_shape (fun _ => true) s cid data i (inv_hist _ _ _ H) F L) as (s1 & ok & RC & SH).
  assert (S1 : c_sig s1 = c_sig s /\ c_log s1 = c_log s) by (destruct SH as [->|(n & q & _ & _ & _ & -> & _)]; auto). destruct S1 as [S1 S2].
  exists (signal_only (fun _ => true) s1 (SCredit cid 1)), (ok_err ok), (next_sig (c_sig s)). split; [|split; [apply next_sig_range|]].
  - unfold l2cap. cbn [le16 app kstep gslice Nat.leb length andb Nat.sub firstn skipn gbind gle16]. rewrite de16_le16 by lia. assert (cid =? 5 = false) as -> by lia. assert ((64 <=? cid) && (cid <=? 65535) = true) as -> by lia.
    rewrite gfrom_ok by (cbn [length]; lia). cbn [skipn gbind]. rewrite RC. reflexivity.
  - unfold signal_only, put_pdu. cbn [fst set_sig set_log c_log c_sig]. rewrite S1, S2. reflexivity.
Qed.
Print Assumptions C35_returned.
(** Example: two frames on 3 credits, MPS 10. *)
Definition sending : list kop := opening ++ [KSend 80 [1; 2; 3; 4; 5; 6; 7; 8; 9]; KCredit 0; KFrame 0; KCredit 0; KFrame 0; KCredit 0].
Example C35_example : exists es s, play true coc_new sending = Some (es, s) /\ frames_on 80 (c_log s) = 2 /\ sumZ (grants_in 80) (incoming es) = 3 /\ last (map snd es) KErr = KOk.
Proof. do 2 eexists. split; [vm_compute; reflexivity|]. split; [reflexivity|]. split; reflexivity. Qed.
(** Where the full statement fails: a frame that has its credit goes out on the next channel with the same identifier, which has none. *)
Theorem C93_reopened_refuted : exists es1 s1 es2 s2, play true coc_new (opening ++ [KSend 80 [1]; KCredit 0; KClose 80; KOpen 128; KIncoming (coc_rsp 2 80 0); KFinish 1]) = Some (es1, s1) /\
  last (map snd es1) KErr = KOpened 80 /\ option_map ci_credits (aget (c_lut s1) 80) = Some 0 /\ play true s1 [KFrame 0] = Some (es2, s2) /\ c_log s2 = c_log s1 ++ [l2cap 80 [1; 0; 1]].
Proof. do 4 eexists. split; [vm_compute; reflexivity|]. split; [reflexivity|]. split; [reflexivity|]. split; vm_compute; reflexivity. Qed.
Print Assumptions C93_reopened_refuted.

(** ---- C36 ---- *)
(** A Send that is alone and has the credits succeeds and writes the SDU in pieces of MPS-2 bytes in order; the pieces together are the SDU. *)
Theorem C36_send_partial : forall m es s cid data i, khist m es s -> aget (c_lut s) cid = Some i -> 2 < ci_mps i -> let ps := pieces (length data) (Z.to_nat (ci_mps i - 2)) data in
  Z.of_nat (length ps) <= ci_credits i -> exists k run s', kruns (fun _ => true) m s ((KSend cid data, KWait k) :: run ++ [(KCredit k, KOk)]) s' /\ Forall (fun e => fst e = KCredit k \/ fst e = KFrame k) run /\
    c_log s' = c_log s ++ map (coc_frame cid (Z.of_nat (length data))) ps /\ concat ps = data /\ exists i', aget (c_lut s') cid = Some i' /\ ci_credits i' = ci_credits i - Z.of_nat (length ps).
Proof.
  intros m es s cid data i H G M ps C. destruct (inv_hist _ _ _ H) as [(_ & _ & _ & _ & A5 & _) _]. destruct (A5 _ _ (aget_in _ _ _ G)) as (RM & _). assert (N1 : 0 <> 5) by lia. destruct (hist_acct 0 m es s N1 H) as [(K1 & _) _]. destruct (K1 _ _ (aget_in _ _ _ G)) as (RC & RR & _).
  set (s1 := set_send (c_send s ++ [mkSd cid (ci_mps i) (Z.of_nat (length data)) data None 0 false]) s).
  assert (ST : kstep (fun _ => true) m s (KSend cid data) = Ret (s1, KWait (length (c_send s)))). { cbn [kstep]. unfold send_start. rewrite G. assert (ci_mps i <=? 2 = false) as -> by lia. reflexivity. }
  assert (N : nth_error (c_send s1) (length (c_send s)) = Some (mkSd cid (ci_mps i) (Z.of_nat (length data)) data None 0 false)). { cbn [s1 set_send c_send]. rewrite nth_error_app2 by lia. now rewrite Nat.sub_diag. }
  destruct (send_run (length data) m s1 (length (c_send s)) cid (ci_mps i) (Z.of_nat (length data)) data 0%nat i N G RM M (le_n _) ltac:(fold ps; lia)) as (run & s' & R & F & LG & _ & X).
  exists (length (c_send s)), run, s'. split; [eapply kr_cons; [exact ST|exact R]|]. split; [exact F|]. split; [exact LG|]. split; [apply pieces_concat; lia|exact X].
Qed.
Print Assumptions C36_send_partial.
(** An SDU that fits into one frame: the frame written conforms, and a conforming receiver gets the SDU. *)
Theorem C36_single_partial : forall cid data mps, 0 <= cid < 65536 -> 2 < mps -> (1 <= length data)%nat -> Z.of_nat (length data) <= mps - 2 -> mps < 65536 ->
  pieces (length data) (Z.to_nat (mps - 2)) data = [data] /\ coc_frame cid (Z.of_nat (length data)) data = l2cap cid (le16 (Z.of_nat (length data)) ++ data) /\ reassemble [payload_of (coc_frame cid (Z.of_nat (length data)) data)] = Some data.
Proof.
  intros cid data mps R M L1 L2 M2. split; [|split].
  - destruct data as [|x d]; [cbn in L1; lia|]. cbn [length]. rewrite pieces_cons by discriminate. rewrite skipn_all2 by (cbn [length] in *; lia). rewrite pieces_nil. rewrite firstn_all2 by (cbn [length] in *; lia). reflexivity.
  - unfold coc_frame, l2cap. rewrite app_length. cbn [le16 length]. replace (u16 (2 + Z.of_nat (length data))) with (Z.of_nat (2 + length data)) by (unfold u16; lia). replace (u16 (Z.of_nat (length data))) with (Z.of_nat (length data)) by (unfold u16; lia). reflexivity.
  - unfold coc_frame, payload_of. cbn [le16 app skipn reassemble concat]. rewrite app_nil_r. replace (u16 (Z.of_nat (length data))) with (Z.of_nat (length data)) by (unfold u16; lia). rewrite de16_le16 by lia. now rewrite Z.eqb_refl.
Qed.
Print Assumptions C36_single_partial.
(** A one-frame SDU on an open channel reaches its subscriber unchanged, behind what is queued. *)
Theorem C36_receive_partial : forall m es s cid data i n q, khist m es s -> 64 <= cid <= 65535 -> find_local (c_lut s) cid = Some i -> ci_chan i = Some n -> nth_error (c_chans s) n = Some (q, true) -> (length q < 8)%nat ->
  Z.of_nat (length data) <= 65533 -> exists s', kstep (fun _ => true) m s (KIncoming (l2cap cid (le16 (Z.of_nat (length data)) ++ data))) = Ret (s', KOk) /\ c_chans s' = upd (c_chans s) n (q ++ [data], true).
Proof.
  intros m es s cid data i n q H R F CH Q LQ LD. destruct (local_key s cid i (inv_hist _ _ _ H) F) as (_ & _ & X).
  assert (E : coc_receive (fun _ => true) s cid (le16 (Z.of_nat (length data)) ++ data) = Ret (signal_only (fun _ => true) (set_chans (upd (c_chans s) n (q ++ [data], true)) s) (SCredit cid 1), true)).
  { unfold coc_receive. rewrite F, X. cbn [le16 app gle16 gbind]. rewrite gfrom_ok by (cbn [length]; lia). cbn [skipn gbind]. rewrite de16_le16 by lia. assert (Z.of_nat (length data) >=? Z.of_nat (length data) = true) as -> by lia. assert (Z.of_nat (length data) >? Z.of_nat (length data) = false) as -> by lia.
    rewrite CH. cbn [push_chan]. rewrite Q. rewrite (proj2 (Nat.ltb_lt _ _) LQ). reflexivity. }
  exists (signal_only (fun _ => true) (set_chans (upd (c_chans s) n (q ++ [data], true)) s) (SCredit cid 1)). split; [|reflexivity].
  unfold l2cap. cbn [le16 app kstep gslice Nat.leb length andb Nat.sub firstn skipn gbind gle16]. rewrite de16_le16 by lia. assert (cid =? 5 = false) as -> by lia. assert ((64 <=? cid) && (cid <=? 65535) = true) as -> by lia.
  rewrite gfrom_ok by (cbn [length]; lia). cbn [skipn gbind]. cbn [le16 app] in E. rewrite E. reflexivity.
Qed.
Print Assumptions C36_receive_partial.
(** and is taken out in order *)
Theorem C36_take : forall m s n b q o, nth_error (c_chans s) n = Some (b :: q, o) -> exists s', kstep (fun _ => true) m s (KTake n) = Ret (s', KData b) /\ c_chans s' = upd (c_chans s) n (q, o).
Proof. intros m s n b q o H. cbn [kstep]. rewrite H. eexists. split; reflexivity. Qed.
Print Assumptions C36_take.
(** A subscriber whose channel is closed, or that is unsubscribed, takes what was received before and is then told the end. *)
Lemma play_cons : forall m s o t, play m s (o :: t) = match kstep (fun _ => true) m s o with Ret (s', r) => match play m s' t with Some (es, s'') => Some ((o, r) :: es, s'') | None => None end | Panic => None end.
Proof. reflexivity. Qed.
Lemma takes : forall m n q s, nth_error (c_chans s) n = Some (q, false) -> exists es s', play m s (repeat (KTake n) (S (length q))) = Some (es, s') /\ map snd es = map KData q ++ [KClosed].
Proof.
  intros m n. induction q as [|b q IH]; intros s N.
  - cbn [length repeat play kstep]. rewrite N. do 2 eexists. split; reflexivity.
  - destruct (IH (set_chans (upd (c_chans s) n (q, false)) s)) as (es & s' & P & R). { cbn [c_chans set_chans]. apply nth_upd_same. apply nth_error_Some. congruence. }
    change (repeat (KTake n) (S (length (b :: q)))) with (KTake n :: repeat (KTake n) (S (length q))). rewrite play_cons. cbn [kstep]. rewrite N, P. do 2 eexists. split; [reflexivity|]. cbn [map snd app]. now rewrite R.
Qed.
Theorem C36_subscriber_told : forall m s i n q o, ci_chan i = Some n -> nth_error (c_chans s) n = Some (q, o) ->
  (forall r, aget (c_lut s) r = Some i -> exists es s', play m s (KClose r :: repeat (KTake n) (S (length q))) = Some (es, s') /\ map snd es = KOk :: map KData q ++ [KClosed]) /\
  (forall l, find_local (c_lut s) l = Some i -> exists es s', play m s (KUnsubscribe l :: repeat (KTake n) (S (length q))) = Some (es, s') /\ map snd es = KOk :: map KData q ++ [KClosed]).
Proof.
  intros m s i n q o CH N. assert (LT : (n < length (c_chans s))%nat) by (apply nth_error_Some; congruence). split.
  - intros r G. rewrite play_cons. cbn [kstep]. unfold close_channel. rewrite G. cbn [ok_err]. unfold close_chan. rewrite CH, N. edestruct (takes m n q) as (es & s' & P & R); [|rewrite P; do 2 eexists; split; [reflexivity|cbn [map snd]; now rewrite R]].
    cbn [c_chans set_chans set_lut]. now apply nth_upd_same.
  - intros l G. rewrite play_cons. cbn [kstep]. unfold coc_unsubscribe. rewrite G. cbn [ok_err]. unfold close_chan. rewrite CH, N. edestruct (takes m n q) as (es & s' & P & R); [|rewrite P; do 2 eexists; split; [reflexivity|cbn [map snd]; now rewrite R]].
    cbn [c_chans set_chans set_lut]. now apply nth_upd_same.
Qed.
Print Assumptions C36_subscriber_told.
(** A call that names a channel that is not open fails and changes nothing. *)
Theorem C36_unknown_channel : forall w m s l, find_local (c_lut s) l = None -> kstep w m s (KUnsubscribe l) = Ret (s, KErr) /\ kstep w m s (KSubscribe l) = Ret (s, KErr).
Proof. intros w m s l H. cbn [kstep]. unfold coc_unsubscribe, coc_subscribe. rewrite H. split; reflexivity. Qed.
Print Assumptions C36_unknown_channel.
Theorem C36_not_open : forall w m s r d, aget (c_lut s) r = None -> kstep w m s (KClose r) = Ret (s, KErr) /\ kstep w m s (KSend r d) = Ret (s, KErr).
Proof. intros w m s r d H. cbn [kstep]. unfold close_channel, send_start. rewrite H. split; reflexivity. Qed.
Print Assumptions C36_not_open.
(** Close succeeds on an open channel, once. *)
Theorem C36_close_once : forall w m s r i, aget (c_lut s) r = Some i -> exists s', kstep w m s (KClose r) = Ret (s', KOk) /\ kstep w m s' (KClose r) = Ret (s', KErr).
Proof.
  intros w m s r i G. cbn [kstep]. unfold close_channel at 1. rewrite G. eexists. split; [reflexivity|]. cbn [kstep]. unfold close_channel.
  assert (N : aget (c_lut (set_lut (adel (c_lut s) r) (close_chan s (ci_chan i)))) r = None); [|rewrite N; reflexivity]. cbn [c_lut set_lut].
  rewrite aget_adel, Z.eqb_refl. reflexivity.
Qed.
Print Assumptions C36_close_once.
(** An empty channel that is not closed makes the reader wait. *)
Theorem C36_take_empty : forall w m s n, nth_error (c_chans s) n = Some ([], true) -> kstep w m s (KTake n) = Ret (s, KNone).
Proof. intros w m s n N. cbn [kstep]. now rewrite N. Qed.
Print Assumptions C36_take_empty.
Example C36_told_example : exists es s, play true coc_new (opening ++ [KTake 0; KIncoming (l2cap 64 [3; 0; 7; 8; 9]); KClose 80; KTake 0; KTake 0]) = Some (es, s) /\ skipn 4 (map snd es) = [KNone; KOk; KOk; KData [7; 8; 9]; KClosed].
Proof. do 2 eexists. split; vm_compute; reflexivity. Qed.
Example C36_example : exists es s, play true coc_new (opening ++ [KIncoming (l2cap 64 [3; 0; 7; 8; 9]); KIncoming (l2cap 64 [1; 0; 5]); KTake 0; KTake 0]) = Some (es, s) /\ skipn 4 (map snd es) = [KOk; KOk; KData [7; 8; 9]; KData [5]].
Proof. do 2 eexists. split; vm_compute; reflexivity. Qed.
(** Where the full statement fails.
    The SDU length is put into every frame, so no SDU of more than one frame reaches a conforming receiver. *)
Theorem C36_segmented_refuted : forall cid data mps, 2 < mps -> mps - 2 < Z.of_nat (length data) <= 65535 ->
  let ps := pieces (length data) (Z.to_nat (mps - 2)) data in reassemble (map payload_of (map (coc_frame cid (Z.of_nat (length data))) ps)) = None.
Proof.
  intros cid data mps M L ps. assert (C : concat ps = data) by (apply pieces_concat; lia). assert (L2 : (2 <= length ps)%nat).
  { subst ps. destruct data as [|x d]; [cbn in L; lia|]. cbn [length]. rewrite pieces_cons by discriminate. cbn [length] in *. assert (LS : (1 <= length (skipn (Z.to_nat (mps - 2)) (x :: d)))%nat) by (rewrite skipn_length; cbn [length]; lia).
    destruct (skipn (Z.to_nat (mps - 2)) (x :: d)) as [|y e] eqn:E; [cbn in LS; lia|]. destruct (length d) as [|f] eqn:LD; [|cbn [pieces length]; lia]. assert (length (skipn (Z.to_nat (mps - 2)) (x :: d)) = 1 - Z.to_nat (mps - 2))%nat by (rewrite skipn_length; cbn [length]; lia). rewrite E in H. cbn [length] in H. lia. }
  clearbody ps. destruct ps as [|p0 [|p1 r]]; try (cbn in L2; lia). cbn [map]. unfold coc_frame at 1, payload_of at 1. cbn [le16 app skipn reassemble]. rewrite de16_le16 by (unfold u16; lia).
  assert (u16 (Z.of_nat (length data)) = Z.of_nat (length data)) as -> by (unfold u16; lia).
  assert (LC : forall r0, (length (concat (map payload_of (map (coc_frame cid (Z.of_nat (length data))) r0))) = length (concat r0) + 2 * length r0)%nat).
  { induction r0 as [|p r0 IH]; [reflexivity|]. cbn [map concat length]. rewrite !app_length, IH. unfold coc_frame at 1, payload_of at 1. cbn [le16 app skipn length]. lia. }
  specialize (LC (p1 :: r)). cbn [map] in LC. rewrite app_length, LC. assert (LT : length data = (length p0 + length (concat (p1 :: r)))%nat) by (rewrite <- C; cbn [concat]; rewrite !app_length; lia). destruct (_ =? _) eqn:E; [cbn [length] in E; lia|reflexivity].
Qed.
(** Receiving: the frames of an SDU in two frames are each answered with success and nothing is delivered. *)
Theorem C36_receive_two_refuted : exists es s, play true coc_new (opening ++ [KIncoming (l2cap 64 [4; 0; 1; 2]); KIncoming (l2cap 64 [3; 4]); KTake 0]) = Some (es, s) /\ skipn 4 (map snd es) = [KOk; KOk; KNone].
Proof. do 2 eexists. split; vm_compute; reflexivity. Qed.
(** An SDU larger than the peer's MTU (100) is sent; of one longer than 65535 bytes the length sent is wrong; an empty one is not sent at all. *)
Theorem C36_mtu_refuted : exists es s, play true coc_new (opening ++ [KSend 80 (repeat 0 101)]) = Some (es, s) /\ last (map snd es) KErr = KWait 0 /\ option_map ci_mtu (aget (c_lut s) 80) = Some 100.
Proof. do 2 eexists. split; [vm_compute; reflexivity|]. split; reflexivity. Qed.
Theorem C36_length_refuted : forall cid ch, payload_of (coc_frame cid 65537 ch) = [1; 0] ++ ch.
Proof. reflexivity. Qed.
Theorem C36_empty_refuted : exists es s, play true coc_new (opening ++ [KSend 80 []; KCredit 0]) = Some (es, s) /\ last (map snd es) KErr = KOk /\ frames_on 80 (c_log s) = 0.
Proof. do 2 eexists. split; [vm_compute; reflexivity|]. split; reflexivity. Qed.
(** Two Sends at a time mix their frames. *)
Theorem C36_interleaved_refuted : exists es s, play true coc_new (opening ++ [KSend 80 [1; 1; 1; 1; 1; 1; 1; 1; 1]; KSend 80 [2]; KCredit 0; KFrame 0; KCredit 1; KFrame 1; KCredit 0; KFrame 0]) = Some (es, s) /\
  skipn 1 (c_log s) = [l2cap 80 [9; 0; 1; 1; 1; 1; 1; 1; 1; 1]; l2cap 80 [1; 0; 2]; l2cap 80 [9; 0; 1]].
Proof. do 2 eexists. split; vm_compute; reflexivity. Qed.
(** A frame of less than two bytes on an open channel crashes the process. *)
Theorem C36_short_refuted : forall m es s w cid data i, khist m es s -> 64 <= cid <= 65535 -> find_local (c_lut s) cid = Some i -> (length data < 2)%nat -> kstep w m s (KIncoming (l2cap cid data)) = Panic.
Proof.
  intros m es s w cid data i H R F L. unfold l2cap. cbn [le16 app kstep gslice Nat.leb length andb Nat.sub firstn skipn gbind gle16]. rewrite de16_le16 by lia. assert (cid =? 5 = false) as -> by lia. assert ((64 <=? cid) && (cid <=? 65535) = true) as -> by lia.
  rewrite gfrom_ok by (cbn [length]; lia). cbn [skipn gbind]. rewrite (receive_short w s cid data i (inv_hist _ _ _ H) F L). reflexivity.
Qed.
Print Assumptions C36_segmented_refuted.
Print Assumptions C36_receive_two_refuted.
Print Assumptions C36_mtu_refuted.
Print Assumptions C36_length_refuted.
Print Assumptions C36_empty_refuted.
Print Assumptions C36_interleaved_refuted.
Print Assumptions C36_short_refuted.

(** ---- C37 ---- *)
(** Decoding the encoding gives the structure back, whatever follows it; Command Reject excepted. *)
Theorem C37_roundtrip : forall x rest l, sig_fields x = Some l -> Forall (fun f => 0 <= f < 65536) l -> sig_marshal x = flat_map le16 l /\ sig_unmarshal (sig_code x) (sig_marshal x ++ rest) = Some x.
Proof. intros x rest l E F. split; [unfold sig_marshal; now rewrite E|]. apply sig_round; [unfold sig_typed; now rewrite E|congruence]. Qed.
Print Assumptions C37_roundtrip.
(** Whatever happens, everything written on the signaling channel is one well-formed command; what this side starts has an identifier from 1 to 255.
    (A peer that names 5 as its channel identifier gets data frames on the signaling channel.) *)
Theorem C37_pdus : forall m es s p, khist m es s -> (forall mps, ~ announced (incoming es) 5 mps) -> In p (c_log s) -> on_channel 5 p = true ->
  exists c, p = l2cap 5 (cmd_bytes c) /\ cmd_ok c /\ (x_code c = 20 \/ x_code c = 22 -> 1 <= x_id c <= 255).
Proof. intros m es s p H N I ON. exact (hist_log m es s H N p I ON). Qed.
Print Assumptions C37_pdus.
(** When no write fails the identifiers of the requests run 1, 2, ..., 255, 1, 2, ...; so successive ones differ. *)
Theorem C37_ids : forall m es s, kgood m es s -> (forall mps, ~ announced (incoming es) 5 mps) ->
  flat_map own_id (c_log s) = map (fun k => 1 + Z.of_nat k mod 255) (seq 0 (length (flat_map own_id (c_log s)))).
Proof. intros m es s H N. exact (proj1 (good_ids m es s H N)). Qed.
Print Assumptions C37_ids.
Example C37_example : exists es s, play true coc_new (opening ++ [KIncoming (l2cap 64 [1; 0; 5]); KOpen 7]) = Some (es, s) /\ flat_map own_id (c_log s) = [1; 2; 3] /\ forall mps, ~ announced (incoming es) 5 mps.
Proof.
  do 2 eexists. split; [vm_compute; reflexivity|]. split; [reflexivity|]. intros mps (c & (l1 & l2 & b & I & J) & M). cbn [incoming flat_map app fst In] in I.
  destruct I as [I|[I|[]]]; [|discriminate I]. injection I as <- <- <-. vm_compute in J. destruct J as [<-|[]]. discriminate M.
Qed.
(** Where the full statement fails: a Command Reject is sent without its reason and data. *)
Theorem C94_reject_refuted : forall reason data id, sig_pdu 1 id (sig_marshal (SReject reason data)) = l2cap 5 (cmd_bytes (mkSC 1 id [])) /\ sig_unmarshal 1 (le16 reason ++ data) = None.
Proof. intros. split; reflexivity. Qed.
Print Assumptions C94_reject_refuted.

(** ---- C52 ---- *)
(** A well-formed packet within the signaling MTU is handled command by command: the process goes on, and each command is answered by at most
    one PDU, which carries its identifier, in order. *)
Theorem C52_packet : forall w m s cs, cs <> [] -> Forall cmd_ok cs -> Z.of_nat (length (flat_map cmd_bytes cs)) <= 515 ->
  exists s' rs, kstep w m s (KIncoming (l2cap 5 (flat_map cmd_bytes cs))) = Ret (s', KNone) /\ c_log s' = c_log s ++ concat rs /\
    Forall2 (fun c a => a = [] \/ exists r, a = [l2cap 5 (cmd_bytes r)] /\ cmd_ok r /\ x_id r = x_id c /\ (x_code r = 1 \/ x_code r = 7 \/ x_code r = 19)) cs rs.
Proof.
  intros w m s cs NE F L. set (b := flat_map cmd_bytes cs) in *. destruct (loop_total cs (length b) w m s F (len_cmds cs)) as (s' & rs & H & F2 & LG). exists s', rs. split; [|split; [exact LG|exact F2]].
  unfold l2cap. cbn [le16 app kstep gslice Nat.leb length andb Nat.sub firstn skipn gbind gle16]. rewrite (de16_le16 5) by lia. cbn [Z.eqb Pos.eqb]. unfold handle_signal. cbn [gslice Nat.leb length andb Nat.sub firstn skipn gbind gle16]. rewrite de16_le16 by lia.
  rewrite gfrom_ok by (cbn [length]; lia). cbn [skipn gbind]. assert (Z.of_nat (length b) >? 515 = false) as -> by lia. destruct cs as [|c cs]; [congruence|]. apply Forall_cons_iff in F. destruct F as [C _]. assert (E : exists t, b = x_code c :: x_id c :: t) by (unfold b; eexists; reflexivity). destruct E as (t & E).
  rewrite E at 1. cbn [sc_code gidx nth_error gbind]. rewrite E at 1. cbn [sc_id gidx nth_error gbind]. fold b in H. rewrite H. reflexivity.
Qed.
Print Assumptions C52_packet.
(** A connection parameter update request: a central asks the controller for exactly these values and accepts, a peripheral rejects. *)
Theorem C52_param_update : forall m s id a b c d, is_byte id -> Forall (fun f => 0 <= f < 65536) [a; b; c; d] -> exists s', kstep (fun _ => true) m s (KIncoming (l2cap 5 (cmd_bytes (mkSC 18 id (flat_map le16 [a; b; c; d]))))) = Ret (s', KNone) /\
  (m = true -> c_hci s' = c_hci s ++ [[a; b; c; d; 0; 0]] /\ c_log s' = c_log s ++ [l2cap 5 (cmd_bytes (mkSC 19 id [0; 0]))]) /\
  (m = false -> c_hci s' = c_hci s /\ exists data, c_log s' = c_log s ++ [l2cap 5 (cmd_bytes (mkSC 1 id data))]) /\
  c_lut s' = c_lut s /\ c_send s' = c_send s /\ c_chans s' = c_chans s /\ c_wait s' = c_wait s.
Proof.
  intros m s id a b c d B F. assert (BC : is_byte 18) by (unfold is_byte; lia). destruct (fields_ok 18 id [a; b; c; d] BC B ltac:(cbn; lia)) as [CO CL]. destruct (data_of _ CO) as (D1 & D2 & D3). rewrite one_cmd by assumption.
  unfold handle_cmd. rewrite D1. cbn [gbind x_code]. unfold handle_param_update. rewrite D2, D3. cbn [gbind x_data x_id].
  assert (U := sig_round (SParReq a b c d) [] F ltac:(discriminate)). rewrite app_nil_r in U. change (sig_marshal (SParReq a b c d)) with (flat_map le16 [a; b; c; d]) in U. change (sig_code (SParReq a b c d)) with 18 in U. rewrite U.
  destruct m; cbn [negb gbind]; eexists; (split; [reflexivity|]).
  - split; [intros _; split; reflexivity|]. split; [discriminate|]. repeat (split; [reflexivity|]). reflexivity.
  - split; [discriminate|]. split; [intros _; split; [reflexivity|exists []; reflexivity]|]. repeat (split; [reflexivity|]). reflexivity.
Qed.
Print Assumptions C52_param_update.
(** A packet longer than the signaling MTU, 515: none of its commands has an effect, one reject with the identifier of the first is sent. *)
Theorem C52_too_long : forall m s c cs, Forall cmd_ok (c :: cs) -> 515 < Z.of_nat (length (flat_map cmd_bytes (c :: cs))) < 65536 ->
  exists data, kstep (fun _ => true) m s (KIncoming (l2cap 5 (flat_map cmd_bytes (c :: cs)))) = Ret (set_log (c_log s ++ [l2cap 5 (cmd_bytes (mkSC 1 (x_id c) data))]) s, KNone).
Proof.
  intros m s c cs F L. exists []. set (q := flat_map cmd_bytes (c :: cs)) in *. assert (Q : exists r, q = x_code c :: x_id c :: r) by (unfold q; cbn [flat_map cmd_bytes app]; eauto). destruct Q as [r Q].
  unfold l2cap. cbn [le16 app kstep gslice Nat.leb length andb Nat.sub firstn skipn gbind gle16]. rewrite (de16_le16 5) by lia. cbn [Z.eqb Pos.eqb].
  unfold handle_signal. cbn [gslice Nat.leb length andb Nat.sub firstn skipn gbind gle16]. rewrite de16_le16 by lia. rewrite gfrom_ok by (cbn [length]; lia). cbn [skipn gbind].
  assert (Z.of_nat (length q) >? 515 = true) as -> by lia. rewrite Q. reflexivity.
Qed.
Print Assumptions C52_too_long.
(** A disconnection request: for the pair 4, 4 (the fixed ATT channel) it is answered by a response with the same two identifiers, for another destination it is rejected,
    for another source it is discarded; no channel is closed. *)
Theorem C52_disconnect : forall m s id d c, is_byte id -> 0 <= d < 65536 -> 0 <= c < 65536 -> exists log data,
  kstep (fun _ => true) m s (KIncoming (l2cap 5 (cmd_bytes (mkSC 6 id (le16 d ++ le16 c))))) = Ret (set_log log s, KNone) /\
  (d <> 4 -> log = c_log s ++ [l2cap 5 (cmd_bytes (mkSC 1 id data))]) /\
  (d = 4 -> c <> 4 -> log = c_log s) /\
  (d = 4 -> c = 4 -> log = c_log s ++ [l2cap 5 (cmd_bytes (mkSC 7 id (le16 d ++ le16 c)))]).
Proof.
  intros m s id d c B D C. assert (BC : is_byte 6) by (unfold is_byte; lia). assert (F : Forall (fun f => 0 <= f < 65536) [d; c]) by (apply Forall_cons; [lia|apply Forall_cons; [lia|apply Forall_nil]]).
  destruct (fields_ok 6 id [d; c] BC B ltac:(cbn; lia)) as [CO CL]. change (flat_map le16 [d; c]) with (le16 d ++ le16 c) in *. destruct (data_of _ CO) as (D1 & D2 & D3). rewrite one_cmd by assumption.
  unfold handle_cmd. rewrite D1. cbn [gbind x_code]. unfold handle_disconnect. rewrite D2, D3. cbn [gbind x_data x_id].
  assert (U := sig_round (SDisReq d c) [] F ltac:(discriminate)). rewrite app_nil_r in U. change (sig_marshal (SDisReq d c)) with (le16 d ++ le16 c) in U. change (sig_code (SDisReq d c)) with 6 in U. rewrite U.
  destruct (Z.eqb_spec d 4) as [D4|D4]; cbn [negb].
  - destruct (Z.eqb_spec c 4) as [C4|C4]; cbn [negb gbind].
    + subst d c. eexists. exists []. split; [reflexivity|]. split; [intro Q; now elim Q|]. split; [intros _ Q; now elim Q|]. intros _ _. reflexivity.
    + exists (c_log s), []. split; [destruct s; reflexivity|]. split; [intro Q; now elim Q|]. split; [reflexivity|]. intros _ Q. now elim C4.
  - cbn [gbind]. eexists. exists []. split; [reflexivity|]. split; [intros _; reflexivity|]. split; intro Q; now elim D4.
Qed.
Print Assumptions C52_disconnect.
(** A command of any other kind, with an identifier no call of Open is waiting for, is rejected with its identifier; nothing else changes. *)
Theorem C52_unknown : forall m es s c, khist m es s -> cmd_ok c -> Z.of_nat (length (cmd_bytes c)) <= 515 -> ~ In (x_code c) [6; 18; 20; 22] ->
  (forall wt, In wt (c_wait s) -> w_id wt = x_id c -> w_done wt = true) ->
  exists data, kstep (fun _ => true) m s (KIncoming (l2cap 5 (cmd_bytes c))) = Ret (set_log (c_log s ++ [l2cap 5 (cmd_bytes (mkSC 1 (x_id c) data))]) s, KNone).
Proof.
  intros m es s c H C L NI NW. assert (NP : aget (c_pend s) (x_id c) = None).
  { destruct (aget (c_pend s) (x_id c)) as [k|] eqn:G; [|reflexivity]. exfalso. destruct (invP_hist _ _ _ H _ _ G) as (wt & N & Q & D). apply nth_error_In in N. rewrite (NW wt N Q) in D. discriminate. }
  destruct (data_of c C) as (D1 & D2 & D3). rewrite one_cmd by assumption.
  assert (HC : handle_cmd (fun _ => true) m s (cmd_bytes c) = handle_other (fun _ => true) s (cmd_bytes c)).
  { unfold handle_cmd. rewrite D1. cbn [gbind]. destruct (x_code c) as [|p|p]; try reflexivity. do 5 (destruct p as [p|p|]; try reflexivity; try (exfalso; apply NI; cbn; tauto)). }
  rewrite HC. unfold handle_other. rewrite D2. cbn [gbind]. rewrite NP. cbn [gbind]. exists []. reflexivity.
Qed.
(** A command of any other kind is delivered only to a call of Open that sent this very identifier and still waits for an answer; nobody else's
    answer changes. *)
Theorem C52_delivered : forall w m es s c s' r j wt', khist m es s -> cmd_ok c -> Z.of_nat (length (cmd_bytes c)) <= 515 -> ~ In (x_code c) [6; 18; 20; 22] ->
  kstep w m s (KIncoming (l2cap 5 (cmd_bytes c))) = Ret (s', r) -> nth_error (c_wait s') j = Some wt' ->
  exists wt, nth_error (c_wait s) j = Some wt /\ (wt' = wt \/ (w_id wt = x_id c /\ w_done wt = false /\ wt' = mkW (w_id wt) (w_local wt) (Some (cmd_bytes c)) false)).
Proof.
  intros w m es s c s' r j wt' H C L NI K N. destruct (data_of c C) as (D1 & D2 & D3). rewrite one_cmd in K by assumption.
  assert (HC : handle_cmd w m s (cmd_bytes c) = handle_other w s (cmd_bytes c)).
  { unfold handle_cmd. rewrite D1. cbn [gbind]. destruct (x_code c) as [|p|p]; try reflexivity. do 5 (destruct p as [p|p|]; try reflexivity; try (exfalso; apply NI; cbn; tauto)). }
  rewrite HC in K. unfold handle_other in K. rewrite D2 in K. cbn [gbind] in K. destruct (aget (c_pend s) (x_id c)) as [k|] eqn:G.
  - destruct (invP_hist _ _ _ H _ _ G) as (wt & NW & Q & D). rewrite NW in K. injection K as <- <-. cbn [set_pend set_wait c_wait] in N. rewrite nth_error_upd in N. destruct (Nat.eqb k j) eqn:KJ; [|exists wt'; auto].
    apply Nat.eqb_eq in KJ. subst j. destruct (Nat.ltb _ _); [|congruence]. injection N as <-. exists wt. split; [exact NW|]. right. rewrite D. auto.
  - injection K as <- <-. destruct (samep_response w s (x_id c) (SReject 0 [])) as [_ E]. rewrite E in N. exists wt'. auto.
Qed.
Print Assumptions C52_delivered.
Print Assumptions C52_unknown.
(** Where the full statement fails.
    Any packet (within the MTU) that is not a sequence of complete commands crashes the process. *)
Theorem C104_crash_refuted : forall w m s b, all_bytes b -> Z.of_nat (length b) <= 515 -> ~ complete b -> kstep w m s (KIncoming (l2cap 5 b)) = Panic.
Proof.
  intros w m s b B L N. unfold l2cap. cbn [le16 app kstep gslice Nat.leb length andb Nat.sub firstn skipn gbind gle16]. rewrite (de16_le16 5) by lia. cbn [Z.eqb Pos.eqb]. unfold handle_signal. cbn [gslice Nat.leb length andb Nat.sub firstn skipn gbind gle16]. rewrite de16_le16 by lia.
  rewrite gfrom_ok by (cbn [length]; lia). cbn [skipn gbind]. assert (Z.of_nat (length b) >? 515 = false) as -> by lia. destruct (sc_code b) as [code|] eqn:SC; [|reflexivity]. cbn [gbind]. destruct (sc_id b) as [id|]; [|reflexivity]. cbn [gbind].
  destruct (sig_loop (length b) w m s b) as [s'|] eqn:E; [|reflexivity]. exfalso. destruct (loop_complete _ _ _ _ _ _ B (le_n _) E) as (cs & F & EB). apply N. exists cs. split; [|auto]. intros ->. subst b. discriminate SC.
Qed.
(** A request to open a channel is never answered. *)
Theorem C104_connection_request_refuted : forall m s id d, is_byte id -> all_bytes d -> Z.of_nat (length d) <= 500 -> kstep (fun _ => true) m s (KIncoming (l2cap 5 (cmd_bytes (mkSC 20 id d)))) = Ret (s, KNone).
Proof.
  intros m s id d B BD L. assert (C : cmd_ok (mkSC 20 id d)) by (split; [unfold is_byte; cbn; lia|]; split; [exact B|]; split; [exact BD|cbn [x_data]; lia]).
  rewrite one_cmd; [|exact C|unfold cmd_bytes; cbn [x_data x_code x_id app le16 length]; lia]. destruct (data_of _ C) as (D1 & _). unfold handle_cmd. rewrite D1. reflexivity.
Qed.
(** The answer to a connection request of this side is refused when a credit was returned in the meantime. *)
Theorem C104_open_overtaken_refuted : exists es s, play true coc_new (opening ++ [KOpen 9; KIncoming (l2cap 64 [1; 0; 5]); KIncoming (coc_rsp 2 81 1); KFinish 1]) = Some (es, s) /\ last (map snd es) KOk = KErr.
Proof. do 2 eexists. split; vm_compute; reflexivity. Qed.
(** A request of the peer that happens to have the identifier of a waiting call is taken for its answer: not answered, and the call fails. *)
Theorem C104_mistaken_refuted : exists es s, play true coc_new [KOpen 9; KIncoming (l2cap 5 (cmd_bytes (mkSC 10 1 [2; 0]))); KIncoming (coc_rsp 1 80 1); KFinish 0] = Some (es, s) /\ last (map snd es) KOk = KErr /\ length (c_log s) = 2%nat.
Proof. do 2 eexists. split; [vm_compute; reflexivity|]. split; reflexivity. Qed.
Print Assumptions C104_crash_refuted.
Print Assumptions C104_connection_request_refuted.
Print Assumptions C104_open_overtaken_refuted.
Print Assumptions C104_mistaken_refuted.
(** the hypotheses of C52_unknown after a failed Open *)
Example C52_example2 : exists s, khist true [(KOpen 9, KErr)] s /\ c_wait s = [].
Proof.
  destruct (kstep (fun _ => false) true coc_new (KOpen 9)) as [[s r]|] eqn:E; [|discriminate]. assert (r = KErr /\ c_wait s = []) as [-> W] by (vm_compute in E; injection E as <- <-; split; reflexivity).
  exists s. split; [exact (kh_step true [] coc_new _ (KOpen 9) s KErr (kh_new true) I E)|exact W].
Qed.
Example C52_example : cmd_ok (mkSC 10 1 [2; 0]) /\ ~ complete [1; 2; 3].
Proof.
  split; [split; [unfold is_byte; cbn; lia|]; split; [unfold is_byte; cbn; lia|]; split; [tbytes|cbn; lia]|]. intros ([|c cs] & N & F & E); [congruence|]. cbn [flat_map] in E. apply (f_equal (@length Z)) in E. rewrite app_length in E. unfold cmd_bytes in E. cbn [app le16 length] in E. lia.
Qed.
