(** C175: from one device to another. *)
Require Import Verif.Base Verif.M_adv Verif.S_adv Verif.M_advrep Verif.S_advrep Verif.M_gap Verif.S_gap Verif.M_air Verif.S_air Verif.P_air Verif.Props_gap.

(** reports of a controller in legacy format, with six address bytes *)
Definition legacy (r : report) : Prop := report_ok r /\ all_bytes (r_addr r) /\ r_type r <= 4.
(** a connectable or scannable advertisement (to which a scan response may follow) *)
Definition may_answer (r : report) : Prop := r_type r = 0 \/ r_type r = 2.

(** Whatever was received before and is received after: the advertisement handed to the scanner's user for a report of the advertised data shows what the
    call put on the air, as far as the advertising packet goes *)
Theorem C175_packet : forall c ad sr hs r rest st outs, asked c ad sr -> uuids_ok c -> (forall a s p, c <> ARaw a s p) ->
  Forall legacy (hs ++ r :: rest) -> 0 <= r_type r < 4 -> r_data r = ad ->
  run_reports (scan_start 128) (map (fun r => enc_reports [r]) (hs ++ r :: rest)) = Ret (st, outs) ->
  exists a x, nth_error outs (length hs) = Some (Some a) /\ on_air c false = Some x /\ shows a x.
Proof.
  intros c ad sr hs r rest st outs A U NR F T D E. destruct (asked_recs c ad sr A U NR) as (ra & rb & x1 & x2 & EA & ES & L1 & L12 & L2 & M1 & M2 & M12 & NE & O1 & O2 & G1 & G2 & SV).
  rewrite EA in D. destruct (air_adv ra hs r rest st outs F L1 M1 NE T D E) as (a & N & P). exists a, x1. split; [exact N|]. split; [exact O1|]. apply (gives_shows a ra); [exact P|exact G1|]. apply SV. now left.
Qed.
Print Assumptions C175_packet.

(** and when the scan response comes, with fewer than 127 advertisements in between (those of the same device being the same), the advertisement
    handed over shows everything *)
Theorem C175_response : forall c ad sr hs r mids s st outs, asked c ad sr -> uuids_ok c -> (forall a s p, c <> ARaw a s p) ->
  Forall legacy (hs ++ r :: mids ++ [s]) -> may_answer r -> r_data r = ad -> r_type s = 4 -> r_addr s = r_addr r -> r_data s = sr ->
  (forall m, In m mids -> may_answer m -> r_addr m = r_addr r -> r_data m = ad) -> (length (filter (fun m => (r_type m =? 0)%Z || (r_type m =? 2)%Z) mids) < 127)%nat ->
  run_reports (scan_start 128) (map (fun r => enc_reports [r]) (hs ++ r :: mids ++ [s])) = Ret (st, outs) ->
  exists a x, nth_error outs (length hs + S (length mids)) = Some (Some a) /\ on_air c true = Some x /\ shows a x.
Proof.
  intros c ad sr hs r mids s st outs A U NR F T D TS AS DS FM CNT E. destruct (asked_recs c ad sr A U NR) as (ra & rb & x1 & x2 & EA & ES & L1 & L12 & L2 & M1 & M2 & M12 & NE & O1 & O2 & G1 & G2 & SV).
  rewrite EA in D. rewrite ES in DS.
  assert (TA : is_adv r = true) by (unfold is_adv; destruct T as [-> | ->]; reflexivity).
  assert (FM' : Forall (fun m => is_adv m = true -> r_addr m = r_addr r -> r_data m = enc ra) mids).
  { apply Forall_forall. intros m I Q K. rewrite <- EA. apply (FM m I); [|exact K]. unfold is_adv in Q. unfold may_answer. lia. }
  destruct (air_run ra rb hs r mids s st outs F L1 L12 L2 M1 M2 M12 NE TA D TS AS DS FM' CNT E) as (a1 & a2 & N1 & N2 & P1 & P2).
  exists a2, x2. split; [exact N2|]. split; [exact O2|]. apply (gives_shows a2 (ra ++ rb)); [exact P2|exact G2|]. apply SV. now right.
Qed.
Print Assumptions C175_response.

(** Device to device: after a successful advertising call of a device that was not advertising, the reports carry its controller's data *)
Theorem C175_device_to_device : forall step i opts l h k c h' k' hs r mids s st outs, conforming step -> willing step -> ident_ok i -> after step i opts l h k -> call_ok c -> c_adv k = false ->
  uuids_ok c -> (forall a s p, c <> ARaw a s p) -> run_acall step h k c = Ret (h', k', true) ->
  Forall legacy (hs ++ r :: mids ++ [s]) -> may_answer r -> r_data r = c_ad k' -> r_type s = 4 -> r_addr s = r_addr r -> r_data s = c_sr k' ->
  (forall m, In m mids -> may_answer m -> r_addr m = r_addr r -> r_data m = c_ad k') -> (length (filter (fun m => (r_type m =? 0)%Z || (r_type m =? 2)%Z) mids) < 127)%nat ->
  run_reports (scan_start 128) (map (fun r => enc_reports [r]) (hs ++ r :: mids ++ [s])) = Ret (st, outs) ->
  exists a1 x1 a2 x2, nth_error outs (length hs) = Some (Some a1) /\ on_air c false = Some x1 /\ shows a1 x1 /\
    nth_error outs (length hs + S (length mids)) = Some (Some a2) /\ on_air c true = Some x2 /\ shows a2 x2.
Proof.
  intros step i opts l h k c h' k' hs r mids s st outs C W IO AF CO Q U NR R F T D TS AS DS FM CNT E.
  destruct (C110_advertises step i opts l h k c C W IO AF CO Q) as (h2 & k2 & ok & R2 & RF & OK). rewrite R in R2. injection R2 as <- <- <-.
  assert (NRF : ~ refused c) by (intro X; destruct (RF X); discriminate). destruct (OK NRF) as (_ & A & _).
  destruct (C175_packet c _ _ hs r (mids ++ [s]) st outs A U NR F ltac:(destruct T as [-> | ->]; lia) D E) as (a1 & x1 & N1 & O1 & S1).
  destruct (C175_response c _ _ hs r mids s st outs A U NR F T D TS AS DS FM CNT E) as (a2 & x2 & N2 & O2 & S2).
  exists a1, x1, a2, x2. auto 10.
Qed.
Print Assumptions C175_device_to_device.

(** Everything given is shown when it fits: all the UUIDs when they take at most 28 bytes with two bytes more each, the name when it has at most 29 bytes *)
Theorem C175_all_shown : forall name us, (size_of us <= 28)%nat -> (length name <= 29)%nat -> on_air (ANames name us) true = Some (mkSh name us [] []).
Proof.
  intros name us H L. unfold on_air. assert (that_fit 28 us = us) as ->.
  { rewrite <- (app_nil_r us) at 1. apply that_fit_is; [exact H|intros u r Q; discriminate]. }
  assert (Nat.leb (length name) 29 = true) as -> by (apply Nat.leb_le; exact L). rewrite orb_true_r. reflexivity.
Qed.
Print Assumptions C175_all_shown.

(** a name that does not fit beside two 128-bit UUIDs (of which one fits); another device advertises in between *)
Definition air_u : bytes := [1;2;3;4;5;6;7;8;9;10;11;12;13;14;15;16].
Definition air_name : bytes := [65;66;67;68;69;70;71;72;73].
Definition air_call : acall := AAdv air_name [air_u; air_u] (Some [7;8]).
Definition air_ad : bytes := fst (advertise_adv_payload air_name [air_u; air_u] (Some [7;8])).
Definition air_sr : bytes := snd (advertise_adv_payload air_name [air_u; air_u] (Some [7;8])).
Definition air_hist : list report := [mkRep 0 1 [1;2;3;4;5;6] air_ad 200; mkRep 3 0 [1;1;1;1;1;1] [2;1;6] 190; mkRep 0 0 [1;1;1;1;1;1] [2;1;6] 190; mkRep 4 1 [1;2;3;4;5;6] air_sr 201].
Definition air_outs : list (option advert) := match run_reports (scan_start 128) (map (fun r => enc_reports [r]) air_hist) with Ret (_, o) => o | Panic => [] end.
Example C175_example : asked air_call air_ad air_sr /\ uuids_ok air_call /\ Forall legacy air_hist /\
  (exists st, run_reports (scan_start 128) (map (fun r => enc_reports [r]) air_hist) = Ret (st, air_outs)) /\
  on_air air_call false = Some (mkSh [] [air_u] [57;5;7;8] []) /\ on_air air_call true = Some (mkSh air_name [air_u] [57;5;7;8] []).
Proof.
  split; [apply P_gap.adv_asked; reflexivity|]. split; [constructor; [right; right; reflexivity|constructor; [right; right; reflexivity|constructor]]|].
  split; [|split; [eexists; vm_compute; reflexivity|split; reflexivity]].
  repeat (constructor; [unfold legacy, report_ok, is_byte, all_bytes; cbn; repeat (split; [try lia|]); try lia; repeat (constructor; [unfold is_byte; lia|]); constructor|]). constructor.
Qed.
