(** Properties C07 (LE advertising report decoding) and C08 (scan responses). *)
Require Import Verif.Base Verif.S_adv Verif.S_adv_api Verif.M_uuid Verif.M_adv Verif.M_advrep Verif.S_advrep Verif.P_advrep Verif.P_advrep2.

(** C07: for every event built from any number of reports, every accessor returns the field of the report asked for. *)
Theorem C07_layout : forall rs i r, Forall report_ok rs -> nth_error rs i = Some r ->
  num_reports (enc_reports rs) = Ret (Some (Z.of_nat (length rs))) /\
  event_type (enc_reports rs) i = Ret (Some (r_type r)) /\
  address_type (enc_reports rs) i = Ret (Some (r_addrtype r)) /\
  address (enc_reports rs) i = Ret (Some (r_addr r)) /\
  length_data (enc_reports rs) i = Ret (Some (Z.of_nat (length (r_data r)))) /\
  rep_data (enc_reports rs) i = Ret (Some (r_data r)) /\
  rep_rssi (enc_reports rs) i = Ret (Some (signed8 (r_rssi r))).
Proof.
  intros rs i r H E. repeat split.
  - exact (lay_type rs H i r E). - exact (lay_addrtype rs H i r E). - exact (lay_addr rs H i r E).
  - exact (lay_len rs H i r E). - exact (lay_data rs H i r E). - exact (lay_rssi rs H i r E).
Qed.
Print Assumptions C07_layout.

(** No event payload, however short or inconsistent, makes an accessor read outside it. *)
Theorem C07_accessors_never_panic : forall e i,
  num_reports e <> Panic /\ event_type e i <> Panic /\ address_type e i <> Panic /\ address e i <> Panic /\
  length_data e i <> Panic /\ rep_data e i <> Panic /\ rep_rssi e i <> Panic /\
  cc_num_pkts e <> Panic /\ cc_opcode e <> Panic /\ cc_params e <> Panic /\
  ncp_handles e <> Panic /\ ncp_handle e i <> Panic /\ ncp_count e i <> Panic.
Proof. exact accessors_never_panic. Qed.
Print Assumptions C07_accessors_never_panic.

(** The fields of a Command Complete and of a Number Of Completed Packets event (Vol 4 Part E 7.7.14, 7.7.19) are read from where they are. *)
Theorem C07_other_events : forall n o p, is_byte n -> 0 <= o < 65536 -> p <> [] ->
  let e := n :: le16 o ++ p in cc_num_pkts e = Ret (Some n) /\ cc_opcode e = Ret (Some o) /\ cc_params e = Ret (Some p).
Proof.
  intros n o p N O P e. subst e. unfold le16. cbn [app]. split; [reflexivity|]. split.
  - unfold cc_opcode, get_u16, get_bytes. cbn [length Nat.leb Nat.ltb Nat.add]. unfold gslice. cbn [length Nat.leb Nat.add Nat.sub andb skipn firstn gbind obind gle16]. now rewrite de16_le16.
  - unfold cc_params, get_bytes_from. destruct p as [|x p]; [congruence|]. reflexivity.
Qed.
Print Assumptions C07_other_events.
Lemma skipn_plus : forall {A} n m (l : list A), skipn (n + m) l = skipn n (skipn m l).
Proof. induction m as [|m IH]; intros l; [now rewrite Nat.add_0_r|]. rewrite Nat.add_succ_r. destruct l as [|x l]; [now rewrite !skipn_nil|]. cbn [skipn]. apply IH. Qed.
Theorem C07_completed_packets : forall l i h c, nth_error l i = Some (h, c) -> Forall (fun x => 0 <= fst x < 65536 /\ 0 <= snd x < 65536) l ->
  let e := Z.of_nat (length l) :: flat_map (fun x => le16 (fst x) ++ le16 (snd x)) l in ncp_handles e = Ret (Some (Z.of_nat (length l))) /\ ncp_handle e i = Ret (Some h) /\ ncp_count e i = Ret (Some c).
Proof.
  intros l i h c N F e. split; [reflexivity|].
  assert (SK : exists r, skipn (i * 4) (flat_map (fun x => le16 (fst x) ++ le16 (snd x)) l) = le16 h ++ le16 c ++ r /\ (i * 4 + 4 <= length (flat_map (fun x => le16 (fst x) ++ le16 (snd x)) l))%nat).
  { clear e F. revert i N. induction l as [|x l IH]; intros [|i] N; try discriminate; cbn [nth_error] in N.
    - injection N as ->. eexists. split; [reflexivity|]. cbn [flat_map fst snd]. unfold le16. cbn [app length]. lia.
    - destruct (IH i N) as (r & SK & L). exists r. split; [exact SK|]. cbn [flat_map]. unfold le16 at 1 2. cbn [app length]. lia. }
  destruct SK as (r & SK & L). assert (H : 0 <= h < 65536 /\ 0 <= c < 65536) by (apply nth_error_In in N; rewrite Forall_forall in F; exact (F _ N)).
  subst e. set (z := flat_map _ l) in *. clearbody z. unfold ncp_handle, ncp_count, get_u16, get_bytes. cbn [length].
  assert (Nat.leb (S (length z)) (1 + i * 4) = false) as -> by (apply Nat.leb_gt; lia). assert (Nat.ltb (S (length z)) (1 + i * 4 + 2) = false) as -> by (apply Nat.ltb_ge; lia).
  assert (Nat.leb (S (length z)) (1 + i * 4 + 2) = false) as -> by (apply Nat.leb_gt; lia). assert (Nat.ltb (S (length z)) (1 + i * 4 + 2 + 2) = false) as -> by (apply Nat.ltb_ge; lia).
  unfold gslice. cbn [length]. assert (Nat.leb (1 + i * 4) (1 + i * 4 + 2) && Nat.leb (1 + i * 4 + 2) (S (length z)) = true)%bool as -> by (apply andb_true_iff; split; apply Nat.leb_le; lia).
  assert (Nat.leb (1 + i * 4 + 2) (1 + i * 4 + 2 + 2) && Nat.leb (1 + i * 4 + 2 + 2) (S (length z)) = true)%bool as -> by (apply andb_true_iff; split; apply Nat.leb_le; lia).
  replace (1 + i * 4 + 2 - (1 + i * 4))%nat with 2%nat by lia. replace (1 + i * 4 + 2 + 2 - (1 + i * 4 + 2))%nat with 2%nat by lia.
  change (skipn (1 + i * 4) (Z.of_nat (length l) :: z)) with (skipn (i * 4) z). replace (1 + i * 4 + 2)%nat with (S (2 + i * 4)) by lia. cbn [skipn].
  assert (S2 : skipn (2 + i * 4) z = le16 c ++ r) by (rewrite skipn_plus, SK; reflexivity). rewrite SK, S2. unfold le16. cbn [app firstn gbind obind gle16]. now rewrite !de16_le16.
Qed.
Print Assumptions C07_completed_packets.
Example C07_completed_example : nth_error [(64, 2); (65, 1)] 1 = Some (65, 1). Proof. reflexivity. Qed.
(** The address text of a report determines its six address bytes (most significant first). *)
Theorem C07_address_text : forall a r pb pm sr, report_ok r -> all_bytes (r_addr r) ->
  a = mkAd (enc_reports [r]) 0 sr pb pm ->
  exists t, ad_addr a = Ret (Some (t, r_addrtype r =? 1)) /\ addr_bytes t = rev (r_addr r).
Proof.
  intros a r pb pm sr H Hb ->. assert (H1 : Forall report_ok [r]) by (constructor; [exact H|constructor]).
  unfold ad_addr. cbn [ad_e ad_i]. rewrite (lay_addr _ H1 0 r eq_refl). cbn [obind].
  rewrite (lay_addrtype _ H1 0 r eq_refl). cbn [obind]. eexists. split; [reflexivity|].
  apply hw_string_bytes. apply P_uuid.all_bytes_rev. exact Hb.
Qed.
Print Assumptions C07_address_text.

(** Connectable exactly for the connectable undirected and directed types. *)
Theorem C07_connectable : forall a r pb pm sr, report_ok r -> a = mkAd (enc_reports [r]) 0 sr pb pm ->
  exists b, Connectable a = Ret b /\ (b = true <-> r_type r = 0 \/ r_type r = 1).
Proof.
  intros a r pb pm sr H ->. assert (H1 : Forall report_ok [r]) by (constructor; [exact H|constructor]).
  unfold Connectable, ad_connectable. cbn [ad_e ad_i]. rewrite (lay_type _ H1 0 r eq_refl). cbn [obind gbind].
  eexists. split; [reflexivity|]. lia.
Qed.
Print Assumptions C07_connectable.

Definition ex_rep : report := mkRep 0 1 [1;2;3;4;5;6] [2;1;6;2;10;251] 200.
Definition ex_sr : report := mkRep 4 1 [1;2;3;4;5;6] [3;9;65;66] 201.
Example C07_ex : rep_rssi (enc_reports [ex_rep; ex_sr]) 1 = Ret (Some (-55)). Proof. reflexivity. Qed.
Example C07_ex_ok : Forall report_ok [ex_rep; ex_sr].
Proof. repeat constructor; cbn; unfold is_byte; lia. Qed.

(** SrData returns the advertising data again instead of the attached scan response. *)
Theorem C66_sr_data_refuted : exists a0 sr a, new_advertisement (enc_reports [ex_rep]) 0 = Ret (Some a0) /\
  new_advertisement (enc_reports [ex_sr]) 0 = Ret (Some sr) /\ set_scan_response a0 sr = Ret (Some a) /\
  ad_scan_response a = Ret (Some (r_data ex_sr)) /\ ad_sr_data a <> Ret (Some (r_data ex_sr)).
Proof.
  destruct (new_advertisement (enc_reports [ex_rep]) 0) as [[a0|]|] eqn:E1; try (vm_compute in E1; discriminate).
  destruct (new_advertisement (enc_reports [ex_sr]) 0) as [[sr|]|] eqn:E2; try (vm_compute in E2; discriminate).
  destruct (set_scan_response a0 sr) as [[a|]|] eqn:E3;
    vm_compute in E1, E2; injection E1 as <-; injection E2 as <-; vm_compute in E3; try discriminate.
  injection E3 as <-. eexists _, _, _. repeat split. vm_compute. discriminate.
Qed.
Print Assumptions C66_sr_data_refuted.

(** TxPowerLevel is signed, the txPower entry of ToMap is not: the two disagree for negative powers. *)
Theorem C66_tx_power_consistent_refuted : exists a, new_advertisement (enc_reports [ex_rep]) 0 = Ret (Some a) /\
  ad_tx_power_level a = Ret (-5) /\ tomap_tx_power a = Ret (Some 251).
Proof. eexists. repeat split; vm_compute; reflexivity. Qed.
Print Assumptions C66_tx_power_consistent_refuted.

(** The power level is the signed value of the Tx Power Level field, 0 when there is none. *)
Theorem C07_tx_power : forall a rs, decoded rs (ad_pm a) -> ad_tx_power_level a = Ret (match exp_bytes is_txpwr rs with b :: _ => int8 b | [] => 0 end).
Proof. intros a rs D. unfold ad_tx_power_level. destruct D as (_ & _ & _ & _ & _ & -> & _). cbn [gbind]. destruct (exp_bytes is_txpwr rs); reflexivity. Qed.
Print Assumptions C07_tx_power.
Example C07_tx_power_example : exists a m, new_advertisement (enc_reports [ex_rep]) 0 = Ret (Some a) /\ ad_tx_power_level a = Ret (-5) /\ Parse [2; 1; 6] = Ret (m, None) /\ ad_tx_power_level (mkAd [] 0 None [] m) = Ret 0.
Proof. eexists. eexists. repeat split; vm_compute; reflexivity. Qed.

(** C08: over any sequence of single-report events of the five legacy types, what the scan hands to the user is exactly
    what the unbounded-history specification [scan_run] says, with a look-back window of 127 advertisements. *)
Theorem C08_scan_refines : forall rs, Forall (fun r => report_ok r /\ all_bytes (r_addr r) /\ r_type r <= 4) rs ->
  match scan_run accepts 127 [] rs with
  | Panic => run_reports (scan_start 128) (map (fun r => enc_reports [r]) rs) = Panic
  | Ret (h, os) => exists st outs, run_reports (scan_start 128) (map (fun r => enc_reports [r]) rs) = Ret (st, outs) /\
      Forall2 out_repr os outs
  end.
Proof.
  intros rs H. assert (HF : Forall (fun r => rep_good r /\ r_type r <= 4) rs).
  { eapply Forall_impl; [|exact H]. cbn. intros r (A & B & C). split; [split|]; auto. }
  assert (R := run_refines 128 rs (scan_start 128) [] ltac:(lia) (rel_start 128 ltac:(lia)) HF).
  change (128 - 1)%nat with 127%nat in R.
  destruct (scan_run accepts 127 [] rs) as [[h os]|]; [|exact R].
  destruct R as (st & oas & E & _ & O). eauto.
Qed.
Print Assumptions C08_scan_refines.

(** Whatever the history, a scan response is only shown with an advertisement from the same address bytes. *)
Theorem C08_same_address : forall acc w rs h os, Forall (fun r => 0 <= r_type r <= 4) rs ->
  scan_run acc w [] rs = Ret (h, os) ->
  forall r s, In (Some (r, Some s)) os -> r_addr s = r_addr r /\ r_type s = 4 /\ (r_type r = 0 \/ r_type r = 2).
Proof.
  intros acc w rs h os H E r s Hin.
  assert (F := scan_run_same_addr acc w rs [] h os (Forall_nil _) (Forall_nil _) H E).
  rewrite Forall_forall in F. exact (F _ Hin).
Qed.
Print Assumptions C08_same_address.

(** and it is the newest such advertisement within the window; with none in the window nothing is attached *)
Theorem C08_newest : forall k h s,
  match newest_from k h s with
  | Some j => (j < k)%nat /\ exists x, nth_error h j = Some x /\ r_addr (fst x) = r_addr s /\
              forall i y, (i < j)%nat -> nth_error h i = Some y -> r_addr (fst y) <> r_addr s
  | None => forall j x, (j < k)%nat -> nth_error h j = Some x -> r_addr (fst x) <> r_addr s
  end.
Proof.
  intros k h s. destruct (newest_from k h s) eqn:E; [exact (newest_from_sound k h s n E)|exact (newest_from_complete k h s E)].
Qed.
Print Assumptions C08_newest.

(** Events that do not hold exactly one complete report change nothing and reach no handler. *)
Theorem C08_malformed_ignored : forall st e, (forall i, nth_error e 1 <> Some 1 \/ rep_data e i = Ret None) ->
  handle_adv_report st e = Ret (st, None).
Proof. exact bad_event. Qed.
Print Assumptions C08_malformed_ignored.

(** The address type is ignored: a random-address scan response is attached to a public-address advertisement. *)
Definition ex_pub : report := mkRep 0 0 [1;2;3;4;5;6] [2;1;6] 200.
Theorem C67_address_type_refuted : exists st a, run_reports (scan_start 128) [enc_reports [ex_pub]; enc_reports [ex_sr]] = Ret (st, a)
  /\ r_addrtype ex_pub <> r_addrtype ex_sr /\ exists x y, a = [x; Some y] /\ ad_scan_response y = Ret (Some (r_data ex_sr)).
Proof. eexists _, _. split; [vm_compute; reflexivity|]. split; [discriminate|]. eexists _, _. split; reflexivity. Qed.
Print Assumptions C67_address_type_refuted.

Example C08_ex : exists h, scan_run accepts 127 [] [ex_rep; ex_pub; ex_sr] = Ret (h, [Some (ex_rep, None); Some (ex_pub, None); Some (ex_pub, Some ex_sr)]).
Proof. eexists. vm_compute. reflexivity. Qed.
