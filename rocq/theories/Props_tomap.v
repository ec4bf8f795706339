(** C173: the map of an advertisement. *)
Require Import Verif.Base Verif.M_uuid Verif.S_uuid Verif.P_uuid Verif.M_adv Verif.S_adv Verif.M_advrep Verif.S_advrep Verif.P_advrep Verif.P_advrep2 Verif.M_tomap Verif.S_tomap Verif.P_tomap.

(** ToMap of every advertisement a scan hands to the user succeeds, with the entries of the report (and of the records of its data and of the
    attached scan response's data), and an error entry exactly when those data do not end as they should *)
Theorem C173_delivered : forall rs st outs n a,
  Forall (fun r => report_ok r /\ all_bytes (r_addr r) /\ all_bytes (r_data r) /\ r_type r <= 4) rs ->
  run_reports (scan_start 128) (map (fun r => enc_reports [r]) rs) = Ret (st, outs) -> nth_error outs n = Some (Some a) ->
  exists h os x ads tail m, scan_run accepts 127 [] rs = Ret (h, os) /\ nth_error os n = Some (Some x) /\
    entry_data x = enc ads ++ tail /\ Forall legal_payload ads /\
    to_map a = Ret (Some m) /\ (forall k, right_entry (fst x) ads m k) /\
    ((tail_end tail /\ m (TAdv KErr) = None) \/ (tail_malformed tail /\ m (TAdv KErr) = Some (UAdv VStr))).
Proof.
  intros rs st outs n a H E N. assert (HF : Forall (fun r => rep_good r /\ r_type r <= 4) rs) by (eapply Forall_impl; [|exact H]; cbv beta; intros r (A & B & _ & C); split; [split|]; auto).
  assert (R := run_refines 128 rs (scan_start 128) [] ltac:(lia) (rel_start 128 ltac:(lia)) HF). change (128 - 1)%nat with 127%nat in R.
  destruct (scan_run accepts 127 [] rs) as [[h os]|] eqn:SR; [|rewrite R in E; discriminate]. destruct R as (st' & oas & E' & _ & O). rewrite E in E'. injection E' as <- <-.
  assert (X : exists x, nth_error os n = Some (Some x) /\ repr x a).
  { clear SR E H HF. revert n N. induction O as [|o oa os oas Q O IH]; intros n N; [destruct n; discriminate|]. destruct n as [|n]; [|exact (IH n N)]. cbn [nth_error] in N |- *. injection N as ->. destruct o as [x|]; cbn [out_repr] in Q; [exists x; auto|contradiction]. }
  destruct X as (x & NX & RX). assert (M := scan_made accepts 127 (fun r => report_ok r /\ all_bytes (r_addr r) /\ all_bytes (r_data r) /\ r_type r <= 4) rs [] h os H (Forall_nil _) SR).
  rewrite Forall_forall in M. destruct (M _ (nth_error_In _ _ NX) x eq_refl) as [(A1 & A2 & A3 & _) A4].
  assert (DB : all_bytes (entry_data x)) by (unfold entry_data; apply Forall_app; split; [exact A3|]; destruct (snd x) as [s|]; [destruct (A4 s eq_refl) as (_ & _ & Q & _); exact Q|constructor]).
  destruct (to_map_ok x a A1 A2 DB RX) as (ads & tail & m & D & L & T & K & C). exists h, os, x, ads, tail, m. auto 10.
Qed.
Print Assumptions C173_delivered.
(** an advertisement whose scan response has been attached; its name comes from the latter, the transmit power is -5 *)
Definition tm_adv : report := mkRep 0 1 [1;2;3;4;5;0xA6] [2;1;6;2;10;251] 200.
Definition tm_rsp : report := mkRep 4 1 [1;2;3;4;5;0xA6] [3;9;65;66;5;22;0x0D;0x18;7] 201.
Definition tm_outs : list (option advert) := match run_reports (scan_start 128) (map (fun r => enc_reports [r]) [tm_adv; tm_rsp]) with Ret (_, o) => o | Panic => [] end.
Example C173_example : exists st a m, run_reports (scan_start 128) (map (fun r => enc_reports [r]) [tm_adv; tm_rsp]) = Ret (st, tm_outs) /\ nth_error tm_outs 1 = Some (Some a) /\ to_map a = Ret (Some m) /\
  m TMac = Some (UText [97;54;48;53;48;52;48;51;48;50;48;49]) /\ m (TAdv KName) = Some (UText [65;66]) /\ m TRssi = Some (UNum (-56)) /\ m (TAdv KTxpwr) = Some (UNum 251) /\ m (TAdv KErr) = Some (UAdv VStr).
Proof. eexists _, _, _. split; [vm_compute; reflexivity|]. split; [vm_compute; reflexivity|]. split; [vm_compute; reflexivity|]. repeat split. Qed.

(** ** C174 (ideal): refuted *)
(** the map and the accessors disagree: a signal strength of 0 is -128 in the map, a transmit power of -5 is 251 *)
Definition tm_zero : report := mkRep 0 1 [1;2;3;4;5;0xA6] [2;10;251] 0.
Theorem C174_map_as_accessors_refuted : exists a m, new_advertisement (enc_reports [tm_zero]) 0 = Ret (Some a) /\ to_map a = Ret (Some m) /\
  ad_rssi a = Ret (Some 0) /\ m TRssi = Some (UNum (-128)) /\ ad_tx_power_level a = Ret (-5) /\ m (TAdv KTxpwr) = Some (UNum 251).
Proof. eexists _, _. split; [vm_compute; reflexivity|]. split; [vm_compute; reflexivity|]. repeat split. Qed.
Print Assumptions C174_map_as_accessors_refuted.
