(** Properties C03, C04, C05, C06, C40: advertising packets. *)
Require Import Verif.Base Verif.M_uuid Verif.S_uuid Verif.M_adv Verif.S_adv Verif.S_adv_api Verif.P_adv3 Verif.P_adv2 Verif.P_adv.

(** C03: what one append does, for every field and every packet of legal size:
    success appends exactly the encoded records and stays within 31 bytes; failure for lack of room happens exactly
    when it would not fit; the packet is then unchanged for all fields but service data. *)
Theorem C03_append_contract : forall d p, (length p <= 31)%nat ->
  (run d p = (p ++ enc (desc_recs d), None) /\ (length p + length (enc (desc_recs d)) <= 31)%nat) \/
  ((31 < length p + length (enc (desc_recs d)))%nat /\ exists p', run d p = (p', Some ENotFit) /\ (length p' <= 31)%nat /\
       ((forall i b, d <> DSvc16 i b) -> p' = p)) \/
  (~ desc_ok d /\ run d p = (p, Some EInvalid)).
Proof. exact field_spec. Qed.
Print Assumptions C03_append_contract.

Theorem C03_raw_contract : forall b p,
  f_raw b p = if Nat.leb (length p + length b) 31 then (p ++ b, None) else (p, Some ENotFit).
Proof. exact raw_spec. Qed.
Print Assumptions C03_raw_contract.

Theorem C03_never_longer_than_31 : forall ds p, (length p <= 31)%nat -> (length (app_all ds p) <= 31)%nat.
Proof. exact app_all_bound. Qed.
Print Assumptions C03_never_longer_than_31.

(** The documented "leaves the packet intact" fails for ServiceData16: the UUID list record stays behind. *)
Theorem C64_service_data_atomic_refuted : exists id b p p', (length p <= 31)%nat /\
  run (DSvc16 id b) p = (p', Some ENotFit) /\ p' <> p.
Proof. exists 6159, (repeat 0 26), [], [3;3;15;24]. repeat split; [simpl; lia|discriminate]. Qed.
Print Assumptions C64_service_data_atomic_refuted.

Example C03_ex : run (DComplete [65;66]) [2;1;6] = ([2;1;6;3;9;65;66], None). Proof. reflexivity. Qed.
Example C03_ex2 : run (DComplete (repeat 65 27)) [2;1;6] = ([2;1;6], Some ENotFit). Proof. reflexivity. Qed.

(** C04: exactly the inputs that crash the decoder. *)
Theorem C04_panic_exactly : forall pdu, all_bytes pdu ->
  (Parse pdu = Panic <->
   exists rs d rest, pdu = enc rs ++ enc_rec (255, [d]) ++ rest /\ Forall legal_payload rs /\ nonempty_mfg rs <> []).
Proof. exact Parse_panic_iff. Qed.
Print Assumptions C04_panic_exactly.

Theorem C04_no_panic_refuted : exists pdu, all_bytes pdu /\ (length pdu <= 31)%nat /\ Parse pdu = Panic.
Proof. exists [3;255;1;2;2;255;7]. repeat split; [repeat constructor; unfold is_byte; lia|simpl; lia]. Qed.
Print Assumptions C04_no_panic_refuted.

(** Partial: no crash when no one-byte manufacturer record follows another manufacturer record. *)
Theorem C04_no_panic_partial : forall pdu, all_bytes pdu -> pdu <> [] ->
  (forall rs d rest, pdu = enc rs ++ enc_rec (255, [d]) ++ rest -> nonempty_mfg rs = []) ->
  exists m e, Parse pdu = Ret (m, e).
Proof. exact C04_partial_l. Qed.
Print Assumptions C04_no_panic_partial.
Example C04_ex : exists m, Parse [3;255;1;2;3;255;1;2] = Ret (m, None). Proof. eexists. reflexivity. Qed.

(** C05: well-formed packets decode to exactly their fields. *)
Theorem C05_parse_records : forall rs tail, enc rs ++ tail <> [] -> Forall legal_payload rs -> mfg_ok rs -> tail_end tail ->
  exists m, Parse (enc rs ++ tail) = Ret (m, None) /\ decoded rs m.
Proof. exact C05_parse_l. Qed.
Print Assumptions C05_parse_records.

Theorem C05_build_then_decode : forall ds p, Forall desc_ok ds -> ds <> [] -> new_packet (map run ds) = Some p ->
  exists m, Parse p = Ret (m, None) /\ decoded (flat_map desc_recs ds) m.
Proof. exact build_decode_l. Qed.
Print Assumptions C05_build_then_decode.

Theorem C05_build_exact : forall ds, Forall desc_ok ds ->
  new_packet (map run ds) =
  if Nat.leb (length (enc (flat_map desc_recs ds))) 31 then Some (enc (flat_map desc_recs ds)) else None.
Proof. exact new_packet_iff. Qed.
Print Assumptions C05_build_exact.

(** every input on which the decoder returns at all is explained by its legal record prefix *)
Theorem C05_every_input : forall pdu, all_bytes pdu -> pdu <> [] -> Parse pdu <> Panic ->
  exists rs tail m e, pdu = enc rs ++ tail /\ Forall legal_payload rs /\ Parse pdu = Ret (m, e) /\ decoded rs m /\
    (e = None -> tail_end tail) /\ (e <> None -> tail_malformed tail).
Proof. exact C05_total_l. Qed.
Print Assumptions C05_every_input.

(** 32-bit service data is decoded into the map but never listed by the ServiceData accessor *)
Theorem C65_service_data32_refuted : exists pdu m d, Parse pdu = Ret (m, None) /\
  mget m KServiceData <> None /\ d <> [] /\ pdu = enc [(32, [1;2;3;4] ++ d)] /\ pk_service_data m = Ret [].
Proof. exists [6;32;1;2;3;4;9]. eexists. exists [9]. repeat split; discriminate. Qed.
Print Assumptions C65_service_data32_refuted.

Example C05_ex : new_packet (map run [DFlags 6; DAll [13;24]; DComplete [66]]) = Some [2;1;6;3;3;13;24;2;9;66].
Proof. reflexivity. Qed.
Example C05_ex2 : exists m, Parse [2;1;6;3;3;13;24;2;9;66] = Ret (m, None) /\ pk_uuids m = [[13;24]] /\ pk_local_name m = [66] /\ pk_flags m = Ret (Some 6).
Proof. eexists. split; [reflexivity|]. repeat split. Qed.

(** C06: a malformed remainder gives an error and leaves the earlier fields exact; one stray byte is ignored (tail_end). *)
Theorem C06_malformed_tail : forall rs tail, Forall legal_payload rs -> mfg_ok rs -> tail_malformed tail ->
  exists m e, Parse (enc rs ++ tail) = Ret (m, Some e) /\ decoded rs m.
Proof. exact C06_l. Qed.
Print Assumptions C06_malformed_tail.

Theorem C06_raw_packet : forall rs tail parts, concat parts = enc rs ++ tail -> Forall legal_payload rs -> mfg_ok rs ->
  (tail_end tail -> exists m, NewRawPacket parts = Ret (Some (concat parts, m)) /\ decoded rs m /\ mget m KErr = None) /\
  (tail_malformed tail -> has_field rs ->
     exists m, NewRawPacket parts = Ret (Some (concat parts, m)) /\ decoded rs m /\ mget m KErr = Some VStr) /\
  (tail_malformed tail -> ~ has_field rs -> NewRawPacket parts = Ret None).
Proof. exact raw_packet_l2. Qed.
Print Assumptions C06_raw_packet.
Example C06_ex : exists m e, Parse [2;1;6;9;9;66] = Ret (m, Some e) /\ pk_flags m = Ret (Some 6).
Proof. eexists. eexists. split; reflexivity. Qed.
Example C06_ex_tail : tail_malformed [9;9;66]. Proof. apply tm_over; simpl; lia. Qed.

(** C40: AdvertiseNameAndServices. Exact content of both payloads. *)
Theorem C40_payload_exact : forall name us ad sr, advertise_payload name us = (ad, sr) ->
  exists us1 us2 base,
    us = us1 ++ us2 /\
    (let c := Nat.leb (5 + uuids_len us) 31 in base = enc ((1,[6]) :: uuid_recs c us1)) /\
    (length base <= 31)%nat /\
    (forall u r, us2 = u :: r -> (31 < length base + length u + 2)%nat) /\
    (if Nat.leb (length base + length name + 2) 31 then ad = base ++ enc [(9, name)] /\ sr = []
     else ad = base /\ sr = if Nat.leb (length name) 29 then enc [(9, name)] else []) /\
    (length ad <= 31)%nat /\ (length sr <= 31)%nat.
Proof. exact advertise_payload_spec. Qed.
Print Assumptions C40_payload_exact.

Theorem C40_commands_sent : forall send name us ad sr, advertise_payload name us = (ad, sr) ->
  (forall c, send c = true) ->
  advertise_name_and_services send name us =
   ([SetAdvData (Z.of_nat (length ad)) ad; SetScanResp (Z.of_nat (length sr)) sr; SetAdvParams; AdvEnable], true).
Proof. exact advertise_cmds. Qed.
Print Assumptions C40_commands_sent.

(** What is sent and what is answered when commands fail: the sequence stops at the first command that fails, and the failure is reported
    when it is one of the last two (failures of the first two are reported as success, C98). *)
Theorem C40_commands_fail : forall send name us ad sr, advertise_payload name us = (ad, sr) ->
  let c1 := SetAdvData (Z.of_nat (length ad)) ad in let c2 := SetScanResp (Z.of_nat (length sr)) sr in
  (send c1 = false -> advertise_name_and_services send name us = ([c1], true)) /\
  (send c1 = true -> send c2 = false -> advertise_name_and_services send name us = ([c1; c2], true)) /\
  (send c1 = true -> send c2 = true -> send SetAdvParams = false -> advertise_name_and_services send name us = ([c1; c2; SetAdvParams], false)) /\
  (send c1 = true -> send c2 = true -> send SetAdvParams = true -> advertise_name_and_services send name us = ([c1; c2; SetAdvParams; AdvEnable], send AdvEnable)).
Proof.
  intros send name us ad sr E c1 c2. destruct (advertise_payload_spec _ _ _ _ E) as (us1 & us2 & base & _ & _ & _ & _ & _ & L1 & L2).
  unfold advertise_name_and_services. rewrite E. unfold advertise_with, set_advertisement, advertise. unfold u8. rewrite !Z.mod_small by lia. fold c1 c2.
  assert (Nat.ltb MaxEIR (length ad) = false) as -> by (apply Nat.ltb_ge; exact L1). assert (Nat.ltb MaxEIR (length sr) = false) as -> by (apply Nat.ltb_ge; exact L2). cbn [orb].
  split; [|split; [|split]].
  - intros ->. reflexivity.
  - intros -> ->. reflexivity.
  - intros -> -> ->. reflexivity.
  - intros -> -> ->. reflexivity.
Qed.
Print Assumptions C40_commands_fail.
(** The list is tagged "complete" although a requested UUID is left out (8 16-bit UUIDs). *)
Theorem C98_complete_tag_refuted : exists us ad sr rs, advertise_payload [] us = (ad, sr) /\
  ad = enc rs /\ Forall (fun r => fst r = 1 \/ fst r = 3 \/ fst r = 9) rs /\
  (exists u, In u us /\ ~ In u (map snd rs)).
Proof.
  exists [[1;0];[2;0];[3;0];[4;0];[5;0];[6;0];[7;0];[8;0]], (fst (advertise_payload [] [[1;0];[2;0];[3;0];[4;0];[5;0];[6;0];[7;0];[8;0]])),
    (snd (advertise_payload [] [[1;0];[2;0];[3;0];[4;0];[5;0];[6;0];[7;0];[8;0]])),
    [(1,[6]);(3,[1;0]);(3,[2;0]);(3,[3;0]);(3,[4;0]);(3,[5;0]);(3,[6;0]);(3,[7;0])].
  split; [reflexivity|]. split; [reflexivity|]. split; [repeat (apply Forall_cons; [cbn; lia|]); apply Forall_nil|].
  exists [8;0]. split; [cbn; tauto|]. cbn. intuition discriminate.
Qed.
Print Assumptions C98_complete_tag_refuted.

(** A failure to program the advertising data is reported to the caller as success. *)
Theorem C98_error_reported_refuted : exists send name us,
  snd (advertise_name_and_services send name us) = true /\
  ~ In AdvEnable (fst (advertise_name_and_services send name us)).
Proof. exists (fun _ => false), [65], []. split; [reflexivity|]. cbn. intuition discriminate. Qed.
Print Assumptions C98_error_reported_refuted.

Example C40_ex : advertise_payload [65;66] [[13;24]] = ([2;1;6;3;3;13;24;3;9;65;66], []). Proof. reflexivity. Qed.
