(** Proofs about M_gap: packets, sends, payloads. *)
Require Import Verif.Base Verif.M_uuid Verif.M_adv Verif.S_adv Verif.M_cmd Verif.P_cmd Verif.P_adv3 Verif.M_gap Verif.S_gap.

Lemma packet_of : forall n fv d e, find_cmd n = Some d -> cd_marshals d = true -> enc_struct (cd_fields d) fv = Some e -> cd_len d = Z.of_nat (length e) ->
  (length e <= 60)%nat -> 0 <= cd_op d < 65536 -> packet n fv = Ret ([1; cd_op d mod 256; cd_op d / 256; cd_len d] ++ e).
Proof. intros n fv d e F M E L B O. unfold packet. rewrite F. unfold cmd_bytes. rewrite M, E, L. now apply send_bytes_ok. Qed.

Definition noslice (fs : list (string * ftype)) : Prop := Forall (fun f => snd f <> FSlice) fs.
Lemma enc_body : forall fs fv, noslice fs -> struct_value fs fv -> enc_struct fs fv = Some (body fs fv) /\ length (body fs fv) = list_sum (map (fun f => fsize (snd f)) fs).
Proof.
  induction fs as [|[n t] fs IH]; intros fv N V; [split; reflexivity|]. apply Forall_cons_iff in N. destruct N as [N1 N]. apply Forall_cons_iff in V. destruct V as [V1 V]. cbn [fst snd] in *.
  destruct (IH fv N V) as [E L]. cbn [enc_struct body flat_map map list_sum fold_right fst snd]. unfold body in *. rewrite E.
  assert (X : enc_field t (fv n) = Some (int_of fv n (fsize t)) /\ length (int_of fv n (fsize t)) = fsize t).
  { unfold int_of. destruct t as [w|w|w|]; destruct (fv n) as [z|b]; cbn [has_type] in V1; try contradiction; try congruence; cbn [enc_field fsize]; split; try reflexivity; try apply le_bytes_length. apply V1. }
  destruct X as [X1 X2]. rewrite X1. split; [reflexivity|]. rewrite app_length, L, X2. reflexivity.
Qed.
Lemma packet_struct : forall n fv d, find_cmd n = Some d -> cd_marshals d = true -> noslice (cd_fields d) -> struct_value (cd_fields d) fv ->
  cd_len d = Z.of_nat (list_sum (map (fun f => fsize (snd f)) (cd_fields d))) -> cd_len d <= 60 -> 0 <= cd_op d < 65536 ->
  packet n fv = Ret ([1; cd_op d mod 256; cd_op d / 256; cd_len d] ++ body (cd_fields d) fv).
Proof.
  intros n fv d F M N V L B O. destruct (enc_body _ _ N V) as [E LB]. apply packet_of; [exact F|exact M|exact E|rewrite LB; exact L|rewrite LB; lia|exact O].
Qed.
Ltac noslices := repeat (apply Forall_cons; [cbn; discriminate|]); apply Forall_nil.
Ltac pk := match goal with |- packet ?n ?fv = _ => let d := eval vm_compute in (find_cmd n) in match d with Some ?d =>
  rewrite (packet_struct n fv d); [reflexivity|vm_compute; reflexivity|reflexivity|noslices| |reflexivity|cbn; lia|cbn; lia] end end.
Lemma pk_advp : forall p, struct_value adv_fields p -> packet "LESetAdvertisingParameters" p = Ret ([1; 6; 32; 15] ++ body adv_fields p).
Proof. intros p H. pk. exact H. Qed.
Lemma pk_scanp : forall p, struct_value scan_fields p -> packet "LESetScanParameters" p = Ret ([1; 11; 32; 7] ++ body scan_fields p).
Proof. intros p H. pk. exact H. Qed.
Lemma pk_create : forall p, struct_value conn_fields p -> packet "LECreateConnection" p = Ret ([1; 13; 32; 25] ++ body conn_fields p).
Proof. intros p H. pk. exact H. Qed.
Lemma pk_ad : forall l a, length a = 31%nat -> packet "LESetAdvertisingData" (ad_struct (l, a)) = Ret ([1; 8; 32; 32; u8 l] ++ a).
Proof.
  intros l a L. match goal with |- packet ?n ?fv = _ => let d := eval vm_compute in (find_cmd n) in match d with Some ?d => rewrite (packet_of n fv d ([u8 l] ++ a)) end end;
  [reflexivity|vm_compute; reflexivity|reflexivity|cbn; now rewrite app_nil_r|rewrite app_length, L; reflexivity|rewrite app_length, L; cbn; lia|cbn; lia].
Qed.
Lemma pk_sr : forall l a, length a = 31%nat -> packet "LESetScanResponseData" (sr_struct (l, a)) = Ret ([1; 9; 32; 32; u8 l] ++ a).
Proof.
  intros l a L. match goal with |- packet ?n ?fv = _ => let d := eval vm_compute in (find_cmd n) in match d with Some ?d => rewrite (packet_of n fv d ([u8 l] ++ a)) end end;
  [reflexivity|vm_compute; reflexivity|reflexivity|cbn; now rewrite app_nil_r|rewrite app_length, L; reflexivity|rewrite app_length, L; cbn; lia|cbn; lia].
Qed.
Lemma pk_enable : forall e, packet "LESetAdvertiseEnable" (enable_struct e) = Ret [1; 10; 32; 1; u8 e].
Proof. intro e. match goal with |- packet ?n ?fv = _ => let d := eval vm_compute in (find_cmd n) in match d with Some ?d => rewrite (packet_of n fv d [u8 e]) end end; reflexivity || (cbn; lia). Qed.
Lemma pk_scan : forall h, packet "LESetScanEnable" (scan_struct h) = Ret [1; 12; 32; 2; u8 (h_scan h); u8 (h_dup h)].
Proof. intro h. match goal with |- packet ?n ?fv = _ => let d := eval vm_compute in (find_cmd n) in match d with Some ?d => rewrite (packet_of n fv d [u8 (h_scan h); u8 (h_dup h)]) end end; reflexivity || (cbn; lia). Qed.

(** sends *)
Lemma send_conf : forall step k n fv p, conforming step -> packet n fv = Ret p -> exists k' e, send step k n fv = Ret (k', e) /\
  ((e = None /\ k' = effect k p /\ disallowed k p = false) \/ (e <> None /\ (k' = k \/ k' = effect k p))).
Proof.
  intros step k n fv p C P. unfold send. rewrite P. cbn [gbind]. destruct (step k p) as [k' r] eqn:S. pose proof (C _ _ _ _ S) as H. eexists. eexists. split; [reflexivity|].
  destruct r as [[|st rest]|]; [destruct H| |right; split; [discriminate|exact H]]. cbn [send_result]. destruct (st =? 0); [left|right].
  - destruct H as (-> & D & _). now split.
  - split; [discriminate|now left].
Qed.
Lemma send_will : forall step k n fv p, willing step -> packet n fv = Ret p -> disallowed k p = false -> send step k n fv = Ret (effect k p, None).
Proof. intros step k n fv p W P D. unfold send. rewrite P. cbn [gbind]. rewrite (W k p D). reflexivity. Qed.

(** payloads *)
Lemma uuids_total : forall us, uuids_len us = total_len us.
Proof. induction us as [|u us IH]; [reflexivity|]. cbn [uuids_len fold_right]. unfold uuids_len in IH. rewrite IH. reflexivity. Qed.
Lemma names_asked : forall name us ad sr, advertise_payload name us = (ad, sr) -> names_payload name us ad sr /\ (length ad <= 31)%nat /\ (length sr <= 31)%nat.
Proof.
  intros name us ad sr H. destruct (advertise_payload_spec _ _ _ _ H) as (us1 & us2 & base & A & B & C & D & E & F & G). split; [|now split]. exists us1, us2, base.
  rewrite uuids_total in B. split; [exact A|]. split; [exact B|]. split; [exact C|]. split; [exact D|exact E].
Qed.
Lemma mfg_rec : forall md, [u8 1337; u8 (1337 / 256)] ++ md = two 1337 ++ md.
Proof. reflexivity. Qed.
Lemma enc_one : forall t d, (length d <= 254)%nat -> enc [(t, d)] = [u8 (Z.of_nat (length d) + 1)] ++ [t] ++ d.
Proof. intros t d L. unfold enc, enc_rec, u8. cbn [flat_map fst snd app]. rewrite app_nil_r. f_equal. rewrite Z.mod_small by lia. reflexivity. Qed.
Lemma enc_one_len : forall t d, length (enc [(t, d)]) = (length d + 2)%nat.
Proof. intros t d. unfold enc, enc_rec. cbn [flat_map fst snd app]. rewrite app_nil_r. cbn [length]. lia. Qed.
Lemma append_fit : forall t d p, (length p <= 31)%nat -> pk_append t d p = if Nat.leb (length p + length (enc [(t, d)])) 31 then (p ++ enc [(t, d)], None) else (p, Some ENotFit).
Proof.
  intros t d p L. unfold pk_append, MaxEIR. rewrite enc_one_len. destruct (Nat.ltb_spec 31 (length p + 1 + 1 + length d)); destruct (Nat.leb_spec (length p + (length d + 2)) 31); try lia; [reflexivity|].
  rewrite enc_one by lia. reflexivity.
Qed.
Lemma adv_asked : forall name us mfg ad sr, advertise_adv_payload name us mfg = (ad, sr) -> asked (AAdv name us mfg) ad sr.
Proof.
  intros name us mfg ad sr H. unfold advertise_adv_payload in H. destruct (advertise_payload name us) as [ad0 sr0] eqn:E. destruct (names_asked _ _ _ _ E) as (N & L1 & L2). unfold asked.
  destruct mfg as [md|]; cbn [place_mfg] in H; [|injection H as <- <-; repeat split; assumption].
  cbn [fst snd] in H. unfold f_mfg in H. rewrite mfg_rec in H. rewrite !(append_fit 255) in H by assumption. 
  destruct (Nat.leb (length ad0 + length (enc [(255, two 1337 ++ md)])) 31) eqn:F1.
  - injection H as <- <-. split; [rewrite app_length; apply Nat.leb_le in F1; exact F1|]. split; [exact L2|]. exists ad0, sr0. split; [exact N|]. unfold with_mfg. rewrite F1. now split.
  - assert (Q : (ad0, if Nat.leb (length sr0 + length (enc [(255, two 1337 ++ md)])) 31 then sr0 ++ enc [(255, two 1337 ++ md)] else sr0) = (ad, sr)).
    { rewrite <- H. destruct (Nat.leb (length sr0 + _) 31); reflexivity. }
    injection Q as <- Q. split; [exact L1|]. split; [rewrite <- Q; destruct (Nat.leb (length sr0 + _) 31) eqn:F2; [rewrite app_length; apply Nat.leb_le in F2; exact F2|exact L2]|].
    exists ad0, sr0. split; [exact N|]. unfold with_mfg. rewrite F1. split; [reflexivity|]. now rewrite <- Q.
Qed.
(** what field calls put together *)
Lemma field_new : forall f d, desc_ok d -> run d = f -> new_packet [f] = if Nat.leb (length (enc (desc_recs d))) 31 then Some (enc (desc_recs d)) else None.
Proof. intros f d O <-. pose proof (new_packet_iff [d]) as H. cbn [map flat_map] in H. rewrite app_nil_r in H. apply H. apply Forall_cons; [exact O|apply Forall_nil]. Qed.
Definition plan (c : acall) : option (bytes * bytes) :=
  match c with
  | ANames name us => Some (advertise_payload name us)
  | AAdv name us mfg => Some (advertise_adv_payload name us mfg)
  | AMfg id md => option_map (fun a => (a, [])) (new_packet [f_mfg id md])
  | ASvc16 id b => option_map (fun a => (a, [])) (new_packet [f_service_data16 id b])
  | AIBeaconData md => option_map (fun a => (a, [])) (new_packet [f_ibeacon_data md])
  | AIBeacon u major minor pwr => option_map (fun a => (a, [])) (new_packet [f_ibeacon u major minor pwr])
  | ARaw ad sr _ => if Nat.ltb 31 (length ad) || Nat.ltb 31 (length sr) then None else Some (ad, sr)
  end.
Lemma plan_asked : forall c, match plan c with Some (ad, sr) => asked c ad sr /\ ~ refused c | None => refused c end.
Proof.
  assert (FN : forall d c f, desc_ok d -> run d = f -> (forall ad, asked c ad [] <-> (length ad <= 31)%nat /\ ad = enc (desc_recs d)) -> (refused c <-> ~ fits (desc_recs d)) ->
      match option_map (fun a => (a, [])) (new_packet [f]) with Some (ad, sr) => asked c ad sr /\ ~ refused c | None => refused c end).
  { intros d c f O R A RF. rewrite (field_new f d O R). destruct (Nat.leb (length (enc (desc_recs d))) 31) eqn:E; cbn [option_map].
    - apply Nat.leb_le in E. split; [apply A; split; [exact E|reflexivity]|]. intro X. apply RF in X. apply X. exact E.
    - apply Nat.leb_nle in E. apply RF. exact E. }
  intros [name us|name us mfg|id md|id b|md|u major minor pwr|ad sr p]; cbn [plan].
  - destruct (advertise_payload name us) as [ad sr] eqn:E. destruct (names_asked _ _ _ _ E) as (N & L1 & L2). split; [|intros []]. split; [exact L1|]. split; [exact L2|exact N].
  - destruct (advertise_adv_payload name us mfg) as [ad sr] eqn:E. split; [|intros []]. exact (adv_asked _ _ _ _ _ E).
  - apply (FN (DMfg id md)); [exact I|reflexivity| |reflexivity]. intro ad. unfold asked. split; [intros (A & _ & B & _); now split|intros (A & B); repeat split; [exact A|cbn; lia|exact B]].
  - apply (FN (DSvc16 id b)); [exact I|reflexivity| |reflexivity]. intro ad. unfold asked. split; [intros (A & _ & B & _); now split|intros (A & B); repeat split; [exact A|cbn; lia|exact B]].
  - apply (FN (DIBeaconData md)); [exact I|reflexivity| |reflexivity]. intro ad. unfold asked. split; [intros (A & _ & B & _); now split|intros (A & B); repeat split; [exact A|cbn; lia|exact B]].
  - destruct (Nat.eq_dec (length u) 16) as [L|L].
    + apply (FN (DIBeacon u major minor pwr)); [exact L|reflexivity| |].
      * intro ad. unfold asked. split; [intros (A & _ & _ & B & _); now split|intros (A & B); repeat split; [exact A|cbn; lia|exact L|exact B]].
      * cbn [refused]. split; [intro X; now elim X|intro X; exfalso; apply X; unfold fits; cbn [desc_recs]; rewrite enc_one_len; rewrite !app_length, rev_length, L; cbn; lia].
    + unfold new_packet, new_packet_loop, f_ibeacon. rewrite (proj2 (Nat.eqb_neq _ _) L). cbn [negb option_map]. exact L.
  - destruct (Nat.ltb_spec 31 (length ad)); cbn [orb refused]; [now left|]. destruct (Nat.ltb_spec 31 (length sr)); [now right|]. split; [|lia]. unfold asked. repeat split; lia.
Qed.
Lemma run_plan : forall K (step : controller K) h k c, run_acall step h k c = match plan c with
  | None => Ret (match c with ARaw _ _ p => with_advp h p | _ => h end, k, false)
  | Some (ad, sr) => match c with ARaw _ _ p => let! (h, k, ok) := M_gap.set_advertisement step (with_advp h p) k ad sr in if ok then M_gap.advertise step h k else Ret (h, k, false)
                                | _ => M_gap.advertise_with step h k ad sr end end.
Proof.
  intros K step h k [name us|name us mfg|id md|id b|md|u major minor pwr|ad sr p]; cbn [run_acall plan].
  - destruct (advertise_payload name us) as [ad sr]. reflexivity.
  - destruct (advertise_adv_payload name us mfg) as [ad sr]. reflexivity.
  - unfold field_call. destruct (new_packet [f_mfg id md]); reflexivity.
  - unfold field_call. destruct (new_packet [f_service_data16 id b]); reflexivity.
  - unfold field_call. destruct (new_packet [f_ibeacon_data md]); reflexivity.
  - unfold field_call. destruct (new_packet [f_ibeacon u major minor pwr]); reflexivity.
  - unfold M_gap.set_advertisement, MaxEIR. destruct (Nat.ltb 31 (length ad) || Nat.ltb 31 (length sr)) eqn:E; [|rewrite E]; reflexivity.
Qed.
