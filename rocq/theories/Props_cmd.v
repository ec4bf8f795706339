(** Property C38: HCI command encoding. *)
Require Import Verif.Base Verif.M_cmd Verif.S_cmd Verif.P_cmd.

(** The commands whose opcode or shape differs from the Core Specification (see the refuted statements below). *)
Definition wrong_commands : list string :=
  ["WriteDefaultLinkPolicySettings"; "WriteAuthenticatedPayloadTimeout"; "HostNumberOfCompletedPackets"]%string.

(** Every other command the API offers, whatever its field values: the bytes written to the socket are the specification's
    packet for the command of that name, carrying those values. *)
Theorem C38_command_packets : forall d fv, In d cmd_table -> ~ In (cd_name d) wrong_commands -> struct_value (cd_fields d) fv ->
  exists s, In s spec_commands /\ sc_name s = cd_name d /\
            cmd_bytes d fv = Some (Ret (spec_packet s (fun n => as_int (fv n)))).
Proof.
  intros d fv Hd Hn Hv.
  assert (T : forallb (fun d => (existsb (String.eqb (cd_name d)) wrong_commands || existsb (cmd_ok d) spec_commands)%bool) cmd_table = true)
    by (vm_compute; reflexivity).
  rewrite forallb_forall in T. specialize (T d Hd). apply orb_true_iff in T. destruct T as [T|T].
  - apply existsb_exists in T. destruct T as (x & Hx & E). apply String.eqb_eq in E. subst x. contradiction.
  - apply existsb_exists in T. destruct T as (s & Hs & E). exists s. split; [exact Hs|]. split; [|now apply cmd_ok_sound].
    unfold cmd_ok in E. rewrite !andb_true_iff in E. symmetry. apply String.eqb_eq. tauto.
Qed.
Print Assumptions C38_command_packets.

(** The specification names a command at most once, so the packet above is the only candidate; and no two commands share an opcode. *)
Theorem C38_spec_commands_distinct : NoDup (map sc_name spec_commands) /\ NoDup (map (fun s => (sc_ogf s, sc_ocf s)) spec_commands).
Proof.
  assert (D : forall A (f : A -> A -> bool), (forall a b, f a b = true <-> a = b) -> forall l,
     (fix nd l := match l with [] => true | x :: r => (negb (existsb (f x) r) && nd r)%bool end) l = true -> NoDup l).
  { intros A f Hf. induction l as [|x l IH]; intro H; constructor; apply andb_true_iff in H; destruct H as [H1 H2]; [|now apply IH].
    intro Hx. apply negb_true_iff in H1. assert (E : existsb (f x) l = true) by (apply existsb_exists; exists x; split; [exact Hx|now apply Hf]). congruence. }
  split.
  - apply (D _ String.eqb String.eqb_eq). vm_compute. reflexivity.
  - apply (D _ (fun a b => (Z.eqb (fst a) (fst b) && Z.eqb (snd a) (snd b))%bool)); [|vm_compute; reflexivity].
    intros [a1 a2] [b1 b2]. cbn. rewrite andb_true_iff, !Z.eqb_eq. split; [intros [-> ->]; reflexivity|intro E; injection E; auto].
Qed.
Print Assumptions C38_spec_commands_distinct.

(** The packet determines the command's opcode and all its field values. *)
Theorem C38_packet_decodes : forall s s' v w, In s spec_commands -> In s' spec_commands -> fits (sc_params s) v -> fits (sc_params s') w ->
  spec_packet s v = spec_packet s' w -> s = s' /\ Forall (fun p => v (fst p) = w (fst p)) (sc_params s).
Proof.
  intros s s' v w Hs Hs' Hv Hw E. 
  assert (E1 := f_equal (fun l => nth 1 l 0) E). assert (E2 := f_equal (fun l => nth 2 l 0) E).
  assert (E4 := f_equal (skipn 4) E). unfold spec_packet in E1, E2, E4. cbn [nth app skipn] in E1, E2, E4.
  assert (R : Forall (fun s => 0 <= sc_ogf s < 64 /\ 0 <= sc_ocf s < 1024) spec_commands).
  { apply Forall_forall. intros x Hx. cbv beta.
    assert (T : forallb (fun s => ((0 <=? sc_ogf s) && (sc_ogf s <? 64) && (0 <=? sc_ocf s) && (sc_ocf s <? 1024))%bool) spec_commands = true) by (vm_compute; reflexivity).
    rewrite forallb_forall in T. specialize (T x Hx). cbv beta in T. rewrite !andb_true_iff in T. rewrite !Z.leb_le, !Z.ltb_lt in T. lia. }
  rewrite Forall_forall in R. assert (R1 := R s Hs). assert (R2 := R s' Hs'). cbv beta in R1, R2. clear - E1 E2 E4 R1 R2 Hs Hs' Hv Hw.
  assert (Eo : (sc_ogf s, sc_ocf s) = (sc_ogf s', sc_ocf s')) by (f_equal; lia).
  assert (s = s').
  { destruct (In_nth_error _ _ Hs) as [i Hi]. destruct (In_nth_error _ _ Hs') as [j Hj].
    assert (N := proj2 C38_spec_commands_distinct). rewrite NoDup_nth_error in N.
    assert (i = j).
    { apply N; [rewrite map_length; apply nth_error_Some; congruence|]. rewrite !nth_error_map, Hi, Hj. cbn. congruence. }
    subst j. congruence. }
  subst s'. split; [reflexivity|]. now apply flat_le_inj.
Qed.
Print Assumptions C38_packet_decodes.

(** The three commands that are wrong.  Write Default Link Policy Settings goes out with the opcode of Write Link Policy
    Settings (which takes a connection handle and the settings). *)
Theorem C95_write_default_link_policy_opcode_refuted : exists d s, In d cmd_table /\ In s spec_commands /\
  cd_name d = "WriteDefaultLinkPolicySettings"%string /\ sc_name s = cd_name d /\
  forall fv, struct_value (cd_fields d) fv -> cmd_bytes d fv <> Some (Ret (spec_packet s (fun n => as_int (fv n)))).
Proof.
  exists (nth 2 cmd_table (mkCmd "" 0 0 [] false)), (nth 2 spec_commands (mkSCmd "" 0 0 [])).
  split; [apply nth_In; vm_compute; lia|]. split; [apply nth_In; vm_compute; lia|]. split; [reflexivity|]. split; [reflexivity|].
  intros fv Hv. cbn [nth cmd_table] in *. cbn [cd_fields] in Hv. unfold cmd_bytes; cbn [cd_marshals cd_op cd_len cd_fields].
  rewrite (enc_struct_spec _ [("DefaultLinkPolicySettings", Num 2)]%string fv) by (reflexivity || exact Hv).
  unfold send_bytes. vm_compute. discriminate.
Qed.
Print Assumptions C95_write_default_link_policy_opcode_refuted.

Theorem C95_write_authenticated_payload_timeout_opcode_refuted : exists d s, In d cmd_table /\ In s spec_commands /\
  cd_name d = "WriteAuthenticatedPayloadTimeout"%string /\ sc_name s = cd_name d /\
  forall fv, struct_value (cd_fields d) fv -> cmd_bytes d fv <> Some (Ret (spec_packet s (fun n => as_int (fv n)))).
Proof.
  exists (nth 13 cmd_table (mkCmd "" 0 0 [] false)), (nth 12 spec_commands (mkSCmd "" 0 0 [])).
  split; [apply nth_In; vm_compute; lia|]. split; [apply nth_In; vm_compute; lia|]. split; [reflexivity|]. split; [reflexivity|].
  intros fv Hv. cbn [nth cmd_table] in *. cbn [cd_fields] in Hv. unfold cmd_bytes; cbn [cd_marshals cd_op cd_len cd_fields].
  rewrite (enc_struct_spec _ [("ConnectionHandle", Num 2); ("AuthenticatedPayloadTimeout", Num 2)]%string fv) by (reflexivity || exact Hv).
  unfold send_bytes. vm_compute. discriminate.
Qed.
Print Assumptions C95_write_authenticated_payload_timeout_opcode_refuted.

(** Host Number Of Completed Packets cannot be given to Send at all, and if it could, sending it would panic. *)
Theorem C95_host_number_of_completed_packets_refuted : exists d, In d cmd_table /\ cd_name d = "HostNumberOfCompletedPackets"%string /\
  forall fv, cmd_bytes d fv = None /\ send_bytes (cd_op d) (cd_len d) (enc_struct (cd_fields d) fv) = Panic.
Proof.
  exists (nth 9 cmd_table (mkCmd "" 0 0 [] false)).
  split; [apply nth_In; vm_compute; lia|]. split; [reflexivity|]. intro fv. split; reflexivity.
Qed.
Print Assumptions C95_host_number_of_completed_packets_refuted.

(** Return parameters, except for three structs that do not describe the specification's return parameters and one that
    reads a signed number as unsigned: whatever values the controller returns (with status 0, and possibly more bytes), Send
    succeeds and the struct holds exactly those values under their names. *)
Definition wrong_returns : list string :=
  ["LESetAdvertisingDataRP"; "ReadTransmitPowerLevelRP"; "ReadLocalSupportedCommandsRP"; "LEReadAdvertisingChannelTxPowerRP"]%string.
Theorem C38_return_parameters : forall d v rest, In d rp_table -> ~ In (rd_name d) wrong_returns ->
  exists s, In s spec_returns /\ sr_name s = rd_name d /\
    (fits (sr_params s) v -> v "Status"%string = 0 ->
     exists l, send_result (spec_body (sr_params s) v ++ rest) (Some d) = SOk l /\
               map fst l = map fst (sr_params s) /\ Forall (fun p => as_int (snd p) = v (fst p)) l).
Proof.
  intros d v rest Hd Hn.
  assert (T : forallb (fun d => (existsb (String.eqb (rd_name d)) wrong_returns || existsb (fun s =>
     (rp_ok d s && match sr_params s with (n, Num 1) :: _ => String.eqb n "Status" | _ => false end)%bool) spec_returns)%bool) rp_table = true)
    by (vm_compute; reflexivity).
  rewrite forallb_forall in T. specialize (T d Hd). apply orb_true_iff in T. destruct T as [T|T].
  - apply existsb_exists in T. destruct T as (x & Hx & E). apply String.eqb_eq in E. subst x. contradiction.
  - apply existsb_exists in T. destruct T as (s & Hs & E). apply andb_true_iff in E. destruct E as [E Es].
    unfold rp_ok in E. apply andb_true_iff in E. destruct E as [E1 E2]. apply String.eqb_eq in E1.
    exists s. split; [exact Hs|]. split; [now rewrite E1|]. intros Hf H0.
    destruct (unmarshal_spec _ _ v rest E2 Hf) as (l & El & Hnm & Hl). exists l. split; [|split; assumption].
    unfold send_result. rewrite El.
    destruct (sr_params s) as [|[n [[|[|w]]|w]] ps]; try discriminate. apply String.eqb_eq in Es. subst n.
    cbn [spec_body flat_map fst snd width le_bytes app]. rewrite H0. reflexivity.
Qed.
Print Assumptions C38_return_parameters.

(** A non-zero status octet is reported as that error, whatever follows. *)
Theorem C38_failure_status_reported : forall st rest r, st <> 0 -> send_result (st :: rest) r = SErrCommand st.
Proof. intros st rest r H. unfold send_result. apply Z.eqb_neq in H. now rewrite H. Qed.
Print Assumptions C38_failure_status_reported.

(** Too few return parameters are reported as an error, for every struct. *)
Theorem C38_short_returns_rejected : forall d b, (length b < list_sum (map (fun f => fsize (snd f)) (rd_fields d)))%nat ->
  (match b with s :: _ => s = 0 | [] => True end) -> send_result b (Some d) = SErrDecode.
Proof.
  intros d b H Hs. unfold send_result. rewrite (unmarshal_short _ _ H). destruct b as [|s b]; [reflexivity|]. now rewrite Hs.
Qed.
Print Assumptions C38_short_returns_rejected.

(** LE Set Advertising Data succeeds at the controller (status 0) but a caller that passes the return parameter struct gets an error. *)
Theorem C95_set_advertising_data_reply_refuted : exists d s, In d rp_table /\ In s spec_returns /\ rd_name d = "LESetAdvertisingDataRP"%string /\
  sr_name s = rd_name d /\ forall v, v "Status"%string = 0 -> send_result (spec_body (sr_params s) v) (Some d) = SErrDecode.
Proof.
  exists (nth 23 rp_table (mkRP "" [])), (nth 23 spec_returns (mkSRP "" [])).
  split; [apply nth_In; vm_compute; lia|]. split; [apply nth_In; vm_compute; lia|]. split; [reflexivity|]. split; [reflexivity|].
  intros v Hv. cbn [nth spec_returns sr_params spec_body flat_map fst snd width le_bytes app]. rewrite Hv. reflexivity.
Qed.
Print Assumptions C95_set_advertising_data_reply_refuted.
(** Read Transmit Power Level never delivers the power level, Read Local Supported Commands only 8 of the 64 octets. *)
Theorem C95_missing_return_parameters_refuted : forall v rest,
  (exists d s, In d rp_table /\ In s spec_returns /\ rd_name d = "ReadTransmitPowerLevelRP"%string /\ sr_name s = rd_name d /\
     In "TransmitPowerLevel"%string (map fst (sr_params s)) /\
     forall l, send_result (spec_body (sr_params s) v ++ rest) (Some d) = SOk l -> ~ In "TransmitPowerLevel"%string (map fst l)) /\
  (exists d s, In d rp_table /\ In s spec_returns /\ rd_name d = "ReadLocalSupportedCommandsRP"%string /\ sr_name s = rd_name d /\
     In ("Supporteds"%string, Num 64) (sr_params s) /\
     forall l x, send_result (spec_body (sr_params s) v ++ rest) (Some d) = SOk l -> lookup l "Supporteds" = Some x -> as_int x = v "Supporteds"%string mod 2 ^ 64).
Proof.
  intros v rest. split.
  - exists (nth 5 rp_table (mkRP "" [])), (nth 5 spec_returns (mkSRP "" [])).
    split; [apply nth_In; vm_compute; lia|]. split; [apply nth_In; vm_compute; lia|]. split; [reflexivity|]. split; [reflexivity|].
    split; [cbn; auto|]. intros l H. cbn in H. destruct (_ =? 0) in H; [|discriminate]. injection H as <-. cbn. intuition discriminate.
  - exists (nth 12 rp_table (mkRP "" [])), (nth 12 spec_returns (mkSRP "" [])).
    split; [apply nth_In; vm_compute; lia|]. split; [apply nth_In; vm_compute; lia|]. split; [reflexivity|]. split; [reflexivity|].
    split; [cbn; auto|]. intros l x H Hx.
    unfold send_result in H. cbn [spec_body nth spec_returns sr_params flat_map fst snd width app] in H.
    change 64%nat with (8 + 56)%nat in H.
    assert (S : forall a b z, le_bytes (a + b) z = le_bytes a z ++ le_bytes b (z / 256 ^ Z.of_nat a)).
    { clear. induction a as [|a IH]; intros b z; [cbn; now rewrite Z.div_1_r|]. cbn [Nat.add le_bytes app]. rewrite IH.
      do 2 f_equal. f_equal. rewrite Nat2Z.inj_succ, Z.pow_succ_r, Z.div_div by lia. reflexivity. }
    rewrite S in H. cbn [le_bytes app] in H. destruct (_ =? 0) in H; [|discriminate].
    cbn [nth rp_table rd_fields unmarshal fsize length Nat.leb skipn firstn] in H. injection H as <-.
    cbn in Hx. injection Hx as <-. cbn [as_int]. change 8%nat with (0 + 8)%nat.
    set (z := v "Supporteds"%string).
    change (le_val [u8 z; u8 (z / 256); u8 (z / 256 / 256); u8 (z / 256 / 256 / 256); u8 (z / 256 / 256 / 256 / 256); u8 (z / 256 / 256 / 256 / 256 / 256); u8 (z / 256 / 256 / 256 / 256 / 256 / 256); u8 (z / 256 / 256 / 256 / 256 / 256 / 256 / 256)] = z mod 2 ^ 64).
    change (le_val (le_bytes 8 z) = z mod 2 ^ 64).
    assert (G : forall m x, le_bytes m x = le_bytes m (x mod 256 ^ Z.of_nat m)).
    { clear. induction m as [|m IHm]; intro x; [reflexivity|]. cbn [le_bytes].
      rewrite Nat2Z.inj_succ, Z.pow_succ_r by lia. rewrite Z.rem_mul_r by lia. unfold u8. f_equal.
      - rewrite Z.mul_comm, Z.mod_add by lia. now rewrite Z.mod_mod by lia.
      - rewrite IHm. f_equal. rewrite Z.mul_comm, Z.div_add by lia.
        rewrite (Z.div_small (x mod 256)) by lia. now rewrite Z.add_0_l. }
    rewrite G. apply le_val_le_bytes. apply Z.mod_pos_bound. reflexivity.
Qed.
Print Assumptions C95_missing_return_parameters_refuted.

(** Vendor specific commands: up to 60 bytes of parameters of the announced length are sent as is. *)
Theorem C38_vendor_packets : forall ocf e, 0 <= ocf < 1024 -> (length e <= 60)%nat ->
  vendor_bytes ocf (Z.of_nat (length e)) (Some e) =
    Some (Ret ([1; ocf mod 256; 4 * 63 + ocf / 256; Z.of_nat (length e)] ++ e)).
Proof.
  intros ocf e Ho Hl. unfold vendor_bytes. rewrite (proj2 (Z.ltb_ge _ _)) by lia. f_equal.
  assert (E : Z.lor (63 * 1024) ocf = 63 * 1024 + ocf).
  { rewrite <- Z.lxor_lor, <- Z.add_nocarry_lxor; [reflexivity| |]; apply Z.bits_inj'; intros n Hn; rewrite Z.land_spec, Z.bits_0;
    (destruct (Z.lt_ge_cases n 10) as [C|C];
     [change (63 * 1024) with (63 * 2 ^ 10); rewrite Z.mul_pow2_bits_low by lia; reflexivity
     |destruct (Z.eq_dec ocf 0) as [->|Hz]; [rewrite Z.bits_0; apply andb_false_r|];
      rewrite (Z.bits_above_log2 ocf n) by (try lia; enough (Z.log2 ocf < 10) by lia; apply Z.log2_lt_pow2; lia); apply andb_false_r]). }
  rewrite E, send_bytes_ok by lia.
  replace ((63 * 1024 + ocf) mod 256) with (ocf mod 256) by lia.
  replace ((63 * 1024 + ocf) / 256) with (4 * 63 + ocf / 256) by lia. reflexivity.
Qed.
Print Assumptions C38_vendor_packets.
(** Longer vendor commands are accepted by the length check (up to 252) but crash the process; a payload longer than
    announced is silently replaced by zeros; one that cannot be encoded is a fatal error. *)
Theorem C96_long_vendor_commands_refuted : forall op len e, 60 < len <= 252 -> vendor_bytes op len (Some e) = Some Panic.
Proof.
  intros op len e H. unfold vendor_bytes, send_bytes, marshal. rewrite (proj2 (Z.ltb_ge 252 len)), (proj2 (Z.ltb_ge len 0)) by lia.
  rewrite repeat_length, Z2Nat.id by lia. rewrite Z.ltb_irrefl. f_equal.
  unfold gslice, cmd_buf_size. cbn [Nat.leb andb]. 
  match goal with |- (if Nat.leb ?a ?b then _ else _) = _ => destruct (Nat.leb a b) eqn:C; [|reflexivity] end.
  apply Nat.leb_le in C. exfalso. revert C. cbn [app length]. unfold gcopy. rewrite app_length, firstn_length, skipn_length, repeat_length.
  match goal with |- context [length (if ?c then _ else _)] => set (m := if c then _ else _) end.
  assert (L : length m = Z.to_nat len).
  { unfold m. destruct (Nat.leb _ _) eqn:C2; [apply Nat.leb_le in C2; rewrite app_length, skipn_length, repeat_length; lia|apply repeat_length]. }
  lia.
Qed.
Print Assumptions C96_long_vendor_commands_refuted.
Theorem C96_oversized_vendor_payload_refuted : forall op len e, 0 <= len <= 60 -> (Z.to_nat len < length e)%nat ->
  vendor_bytes op len (Some e) = vendor_bytes op len (Some (repeat 0 (Z.to_nat len))).
Proof.
  intros op len e H Hl. unfold vendor_bytes, send_bytes, marshal. rewrite !repeat_length.
  rewrite (proj2 (Nat.leb_gt (length e) _)) by lia. rewrite Nat.leb_refl, skipn_all2, app_nil_r by (rewrite repeat_length; lia). reflexivity.
Qed.
Print Assumptions C96_oversized_vendor_payload_refuted.
Theorem C96_unencodable_vendor_payload_refuted : forall op len, 0 <= len <= 252 -> vendor_bytes op len None = Some Panic.
Proof.
  intros op len H. unfold vendor_bytes, send_bytes, marshal. rewrite (proj2 (Z.ltb_ge 252 len)), (proj2 (Z.ltb_ge len 0)) by lia.
  rewrite repeat_length, Z2Nat.id by lia. now rewrite Z.ltb_irrefl.
Qed.
Print Assumptions C96_unencodable_vendor_payload_refuted.

(** The hypotheses are met: LE Create Connection with its twelve fields; a connection handle reply with a negative RSSI. *)
Example C38_example_create_connection :
  let fv := fun n : string => if String.eqb n "PeerAddress" then GBytes [1;2;3;4;5;6] else GInt 4 in
  exists d, In d cmd_table /\ cd_name d = "LECreateConnection"%string /\ struct_value (cd_fields d) fv /\
  cmd_bytes d fv = Some (Ret ([1; 13; 32; 25; 4;0; 4;0; 4; 4; 1;2;3;4;5;6; 4; 4;0; 4;0; 4;0; 4;0; 4;0; 4;0])).
Proof.
  exists (nth 31 cmd_table (mkCmd "" 0 0 [] false)). split; [apply nth_In; vm_compute; lia|]. split; [reflexivity|]. split; [|vm_compute; reflexivity].
  unfold struct_value. cbn [nth cmd_table cd_fields].
  rewrite !Forall_cons_iff. cbn [fst snd String.eqb Ascii.eqb Bool.eqb has_type]. cbn. unfold all_bytes. rewrite !Forall_cons_iff. unfold is_byte.
  repeat (split; [lia|]); repeat (split; [split; [reflexivity|repeat (split; [lia|]); constructor]|]); repeat (split; [lia|]); constructor.
Qed.
Example C38_example_rssi : exists d, In d rp_table /\ rd_name d = "ReadRSSIRP"%string /\
  send_result [0; 64; 0; 196] (Some d) = SOk [("Status", GInt 0); ("ConnectionHandle", GInt 64); ("RSSI", GInt (-60))]%string.
Proof. exists (nth 16 rp_table (mkRP "" [])). split; [apply nth_In; vm_compute; lia|]. split; reflexivity. Qed.
