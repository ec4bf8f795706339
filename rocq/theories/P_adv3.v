Require Import Verif.Base Verif.M_uuid Verif.S_uuid Verif.P_uuid Verif.M_adv Verif.S_adv Verif.P_adv Verif.P_adv2.

(** interpretation of a field description by the model's field functions *)
Definition run (d : fdesc) : field :=
  match d with
  | DFlags f => f_flags f
  | DShort n => f_short_name n
  | DComplete n => f_complete_name n
  | DMfg id b => f_mfg id b
  | DAll u => f_all_uuid u
  | DSome u => f_some_uuid u
  | DSvc16 id b => f_service_data16 id b
  | DIBeaconData md => f_ibeacon_data md
  | DIBeacon u a b c => f_ibeacon u a b c
  end.

Lemma pk_append_spec : forall t b p,
  (length p + length (enc [(t,b)]) <= 31)%nat /\ pk_append t b p = (p ++ enc [(t,b)], None) \/
  (31 < length p + length (enc [(t,b)]))%nat /\ pk_append t b p = (p, Some ENotFit).
Proof.
  intros t b p. unfold pk_append, MaxEIR. cbn [enc flat_map]. rewrite app_nil_r, enc_rec_length. cbn [snd].
  destruct (Nat.ltb 31 (length p + 1 + 1 + length b)) eqn:E.
  - right. split; [lia|reflexivity].
  - left. split; [lia|]. unfold enc_rec. cbn [fst snd app]. do 2 f_equal. rewrite u8_id; [reflexivity|].
    unfold is_byte. lia.
Qed.

Lemma single_spec : forall d p, (forall i b, d <> DSvc16 i b) -> (forall u a b c, d = DIBeacon u a b c -> length u = 16%nat) ->
  (length p + length (enc (desc_recs d)) <= 31)%nat /\ run d p = (p ++ enc (desc_recs d), None) \/
  (31 < length p + length (enc (desc_recs d)))%nat /\ run d p = (p, Some ENotFit).
Proof.
  intros d p H HI. destruct d; cbn [run desc_recs]; try apply pk_append_spec.
  - unfold f_all_uuid, uuid_type. destruct (Nat.eqb (length u) 2); [apply pk_append_spec|].
    destruct (Nat.eqb (length u) 4); apply pk_append_spec.
  - unfold f_some_uuid, uuid_type. destruct (Nat.eqb (length u) 2); [apply pk_append_spec|].
    destruct (Nat.eqb (length u) 4); apply pk_append_spec.
  - exfalso. eapply H. reflexivity.
  - unfold f_ibeacon. rewrite (HI _ _ _ _ eq_refl). cbn [Nat.eqb negb].
    apply (pk_append_spec 255 ([76;0;2;21] ++ rev u ++ two_be major ++ two_be minor ++ [pwr mod 256])).
Qed.

(** the whole append contract *)
Lemma field_spec : forall d p, (length p <= 31)%nat ->
  (run d p = (p ++ enc (desc_recs d), None) /\ (length p + length (enc (desc_recs d)) <= 31)%nat) \/
  ((31 < length p + length (enc (desc_recs d)))%nat /\ exists p', run d p = (p', Some ENotFit) /\ (length p' <= 31)%nat /\
       ((forall i b, d <> DSvc16 i b) -> p' = p)) \/
  (~ desc_ok d /\ run d p = (p, Some EInvalid)).
Proof.
  intros d p Hp.
  destruct d as [f|n|n|id b|u|u|id b|md|u ma mi pw];
    try match goal with |- context [run (DSvc16 _ _)] => fail 1 | |- context [run (DIBeacon _ _ _ _)] => fail 1 | |- context [run ?d] =>
      destruct (single_spec d p) as [[H1 H2]|[H1 H2]]; [intros; discriminate|intros; discriminate|left; tauto|right; left; split; [assumption|]; exists p; auto] end.
  - cbn [run desc_recs]. unfold f_service_data16. change (two id) with (uuid16 id).
    change (enc [(3, uuid16 id); (22, uuid16 id ++ b)]) with (enc_rec (3, uuid16 id) ++ enc [(22, uuid16 id ++ b)]).
    destruct (pk_append_spec 3 (uuid16 id) p) as [[H1 H2]|[H1 H2]]; rewrite H2.
    + change (enc [(3, uuid16 id)]) with (enc_rec (3, uuid16 id) ++ []) in *. rewrite app_nil_r in *.
      destruct (pk_append_spec 22 (uuid16 id ++ b) (p ++ enc_rec (3, uuid16 id))) as [[H3 H4]|[H3 H4]]; rewrite H4; rewrite !app_length in *.
      * left. split; [now rewrite app_assoc|]. lia.
      * right. left. split; [lia|]. exists (p ++ enc_rec (3, uuid16 id)). split; [reflexivity|].
        split; [rewrite app_length; lia|]. intro H. exfalso. eapply H. reflexivity.
    + change (enc [(3, uuid16 id)]) with (enc_rec (3, uuid16 id) ++ []) in *. rewrite app_nil_r in *.
      right. left. rewrite app_length. split; [lia|]. exists p. auto.
  - destruct (Nat.eq_dec (length u) 16) as [HU|HU].
    + destruct (single_spec (DIBeacon u ma mi pw) p) as [[H1 H2]|[H1 H2]]; [intros; discriminate| |left; tauto|right; left; split; [assumption|]; exists p; auto].
      intros u' a b c E. inversion E; subst. assumption.
    + right. right. split; [exact HU|]. cbn [run]. unfold f_ibeacon.
      destruct (Nat.eqb_spec (length u) 16); [contradiction|reflexivity].
Qed.

Lemma raw_spec : forall b p,
  f_raw b p = if Nat.leb (length p + length b) 31 then (p ++ b, None) else (p, Some ENotFit).
Proof.
  intros b p. unfold f_raw, MaxEIR.
  destruct (Nat.ltb 31 (length p + length b)) eqn:E; destruct (Nat.leb (length p + length b) 31) eqn:E2; try reflexivity; lia.
Qed.

Lemma new_packet_spec : forall ds p q, (length q <= 31)%nat -> new_packet_loop (map run ds) q = Some p ->
  p = q ++ enc (flat_map desc_recs ds) /\ (length p <= 31)%nat.
Proof.
  induction ds as [|d ds IH]; intros p q Hq H; cbn [map new_packet_loop flat_map] in *.
  - inversion H; subst. cbn. rewrite app_nil_r. auto.
  - destruct (field_spec d q Hq) as [[H1 H2]|[[H1 (p' & H2 & _)]|[H1 H2]]]; rewrite ?H1, ?H2 in H; try discriminate.
    apply IH in H; [|rewrite app_length; lia]. destruct H as [-> HL]. split; [|assumption].
    rewrite enc_app. now rewrite app_assoc.
Qed.

Lemma new_packet_complete : forall ds q, (length (q ++ enc (flat_map desc_recs ds)) <= 31)%nat -> Forall desc_ok ds ->
  new_packet_loop (map run ds) q = Some (q ++ enc (flat_map desc_recs ds)).
Proof.
  induction ds as [|d ds IH]; intros q Hq H; cbn [map new_packet_loop flat_map] in *.
  - now rewrite app_nil_r.
  - inversion H as [|? ? Hd Hds]; subst. rewrite enc_app, !app_length in Hq.
    destruct (field_spec d q ltac:(lia)) as [[H1 H2]|[[H1 (p' & H2 & _)]|[H1 H2]]]; [|lia|contradiction].
    rewrite H1. rewrite IH; [now rewrite enc_app, app_assoc| |assumption]. rewrite !app_length. lia.
Qed.

Lemma uuid_type_services : forall c u, length u = 2%nat \/ length u = 4%nat \/ length u = 16%nat ->
  services_size (uuid_type c u) = Some (length u).
Proof. intros c u [H|[H|H]]; unfold uuid_type; rewrite H; destruct c; reflexivity. Qed.

Lemma desc_legal : forall d, desc_ok d -> Forall legal_payload (desc_recs d).
Proof.
  assert (G : forall t b, services_size t = None -> solicited_size t = None -> svcdata_size t = None -> legal_payload (t,b)).
  { intros t b H1 H2 H3. right. rewrite H1, H2, H3. repeat split; intros; discriminate. }
  assert (U : forall c u, length u = 2%nat \/ length u = 4%nat \/ length u = 16%nat -> legal_payload (uuid_type c u, u)).
  { intros c u H. right. rewrite (uuid_type_services c u H).
    repeat split; intros n Hn.
    - inversion Hn; subst. destruct H as [H|[H|H]]; rewrite H; reflexivity.
    - unfold uuid_type in Hn. destruct H as [H|[H|H]]; rewrite H in Hn; destruct c; discriminate.
    - unfold uuid_type in Hn. destruct H as [H|[H|H]]; rewrite H in Hn; destruct c; discriminate. }
  intros d H. destruct d; cbn [desc_recs desc_ok] in *; repeat (apply Forall_cons || apply Forall_nil); try (apply G; reflexivity); try (now apply U).
  - right. repeat split; intros n Hn; inversion Hn; subst; reflexivity.
  - right. repeat split; intros n Hn; inversion Hn; subst. simpl. lia.
Qed.

Lemma nonempty_mfg_desc : forall ds, Forall (fun d => 2 <= length d)%nat (nonempty_mfg (flat_map desc_recs ds)).
Proof.
  induction ds as [|d ds IH]; [constructor|]. cbn [flat_map]. rewrite nonempty_mfg_app. apply Forall_app. split; [|assumption].
  assert (UT : forall c u, is_mfg (uuid_type c u) = false).
  { intros c u. unfold uuid_type, is_mfg. destruct c, (Nat.eqb (length u) 2), (Nat.eqb (length u) 4); reflexivity. }
  destruct d; cbn -[uuid_type]; rewrite ?UT; first [apply Forall_nil | apply Forall_cons; [simpl; lia|apply Forall_nil]].
Qed.

Lemma desc_mfg_ok : forall ds, mfg_ok (flat_map desc_recs ds).
Proof.
  intros ds d l E. assert (H := nonempty_mfg_desc ds). rewrite E in H. now inversion H.
Qed.

Lemma build_parse : forall ds p, Forall desc_ok ds -> ds <> [] -> new_packet (map run ds) = Some p ->
  Parse p = Ret (expmap (flat_map desc_recs ds), None).
Proof.
  intros ds p H Hne Hp. unfold new_packet in Hp. apply new_packet_spec in Hp; [|simpl; lia]. destruct Hp as [-> _].
  cbn [app]. rewrite <- (app_nil_r (enc _)). apply Parse_ok.
  - destruct ds as [|d ds]; [congruence|]. cbn [flat_map]. rewrite enc_app, app_nil_r.
    destruct d; cbn; discriminate.
  - apply Forall_flat_map. rewrite Forall_forall in *. intros d Hd. apply desc_legal. now apply H.
  - apply desc_mfg_ok.
  - constructor.
Qed.

(** ---------- AdvertiseNameAndServices ---------- *)
Definition uuid_recs (c : bool) (us : list bytes) : list rec := map (fun u => (uuid_type c u, u)) us.

Lemma f_all_eq : forall u p, f_all_uuid u p = run (DAll u) p. Proof. reflexivity. Qed.
Lemma append_uuids_spec : forall c us ad, (length ad <= 31)%nat ->
  exists us1 us2, us = us1 ++ us2 /\
    append_uuids (if c : bool then f_all_uuid else f_some_uuid) us ad = ad ++ enc (uuid_recs c us1) /\
    (length (ad ++ enc (uuid_recs c us1)) <= 31)%nat /\
    (forall u r, us2 = u :: r -> (31 < length (ad ++ enc (uuid_recs c us1)) + length u + 2)%nat).
Proof.
  intros c us. induction us as [|u us IH]; intros ad Had.
  - exists [], []. cbn. rewrite app_nil_r. repeat split; auto. intros; discriminate.
  - cbn [append_uuids].
    assert (S : (length ad + length (enc [(uuid_type c u, u)]) <= 31)%nat /\ (if c then f_all_uuid else f_some_uuid) u ad = (ad ++ enc [(uuid_type c u, u)], None) \/
       (31 < length ad + length (enc [(uuid_type c u, u)]))%nat /\ (if c then f_all_uuid else f_some_uuid) u ad = (ad, Some ENotFit)).
    { destruct c; [apply (single_spec (DAll u) ad)|apply (single_spec (DSome u) ad)]; intros; discriminate. }
    destruct S as [[S1 S2]|[S1 S2]]; rewrite S2.
    + destruct (IH (ad ++ enc [(uuid_type c u, u)])) as (us1 & us2 & E & H1 & H2 & H3); [rewrite app_length; lia|].
      exists (u :: us1), us2. rewrite H1.
      assert (EE : (ad ++ enc [(uuid_type c u, u)]) ++ enc (uuid_recs c us1) = ad ++ enc (uuid_recs c (u :: us1))).
      { rewrite <- app_assoc. f_equal. change (uuid_recs c (u :: us1)) with ([(uuid_type c u, u)] ++ uuid_recs c us1). now rewrite enc_app. }
      rewrite EE in *. repeat split; [now rewrite E|assumption|assumption].
    + exists [], (u :: us). cbn [uuid_recs map enc flat_map app]. rewrite app_nil_r. repeat split; try assumption.
      intros u' r E. inversion E; subst. cbn [enc flat_map] in S1. rewrite app_nil_r, enc_rec_length in S1. cbn [snd] in S1. lia.
Qed.

(** Sum of encoded sizes *)
Lemma append_uuids_all : forall c us ad, (length (ad ++ enc (uuid_recs c us)) <= 31)%nat ->
  append_uuids (if c : bool then f_all_uuid else f_some_uuid) us ad = ad ++ enc (uuid_recs c us).
Proof.
  intros c us. induction us as [|u us IH]; intros ad H.
  - cbn. now rewrite app_nil_r.
  - change (uuid_recs c (u :: us)) with ([(uuid_type c u, u)] ++ uuid_recs c us) in *. rewrite enc_app in *. cbn [append_uuids].
    assert (S : (length ad + length (enc [(uuid_type c u, u)]) <= 31)%nat /\ (if c then f_all_uuid else f_some_uuid) u ad = (ad ++ enc [(uuid_type c u, u)], None) \/
       (31 < length ad + length (enc [(uuid_type c u, u)]))%nat /\ (if c then f_all_uuid else f_some_uuid) u ad = (ad, Some ENotFit)).
    { destruct c; [apply (single_spec (DAll u) ad)|apply (single_spec (DSome u) ad)]; intros; discriminate. }
    rewrite !app_length in H. destruct S as [[S1 S2]|[S1 S2]]; [|lia]. rewrite S2. rewrite IH; [now rewrite app_assoc|]. rewrite !app_length. lia.
Qed.

Lemma place_name_spec : forall name ad sr, (length ad <= 31)%nat -> (length sr <= 31)%nat ->
  place_name name ad sr =
    if Nat.leb (length ad + length name + 2) 31 then (ad ++ enc [(9, name)], sr)
    else if Nat.leb (length sr + length name + 2) 31 then (ad, sr ++ enc [(9, name)])
    else (ad, sr).
Proof.
  intros name ad sr Ha Hs. unfold place_name, f_complete_name, f_short_name.
  assert (L : forall t, length (enc [(t, name)]) = (length name + 2)%nat).
  { intro t. cbn [enc flat_map]. now rewrite app_nil_r, enc_rec_length. }
  destruct (pk_append_spec 9 name ad) as [[H1 H2]|[H1 H2]]; rewrite H2; rewrite L in H1.
  - destruct (Nat.leb (length ad + length name + 2) 31) eqn:E; [reflexivity|lia].
  - destruct (Nat.leb (length ad + length name + 2) 31) eqn:E; [lia|].
    destruct (pk_append_spec 9 name sr) as [[H3 H4]|[H3 H4]]; rewrite H4; rewrite L in H3.
    + destruct (Nat.leb (length sr + length name + 2) 31) eqn:E2; [reflexivity|lia].
    + destruct (Nat.leb (length sr + length name + 2) 31) eqn:E2; [lia|].
      destruct (pk_append_spec 8 name sr) as [[H5 H6]|[H5 H6]]; rewrite H6; rewrite L in H5; [lia|reflexivity].
Qed.

Lemma advertise_payload_spec : forall name us ad sr, advertise_payload name us = (ad, sr) ->
  exists us1 us2 base,
    us = us1 ++ us2 /\
    (let c := Nat.leb (5 + uuids_len us) 31 in base = enc ((1,[6]) :: uuid_recs c us1)) /\
    (length base <= 31)%nat /\
    (forall u r, us2 = u :: r -> (31 < length base + length u + 2)%nat) /\
    (if Nat.leb (length base + length name + 2) 31 then ad = base ++ enc [(9, name)] /\ sr = []
     else ad = base /\ sr = if Nat.leb (length name) 29 then enc [(9, name)] else []) /\
    (length ad <= 31)%nat /\ (length sr <= 31)%nat.
Proof.
  intros name us ad sr H. unfold advertise_payload in H.
  change (fst (f_flags 6 [])) with (enc [(1,[6])]) in H.
  change (length (enc [(1%Z,[6%Z])]) + 1 + 1 + uuids_len us)%nat with (5 + uuids_len us)%nat in H.
  assert (EC : (if Nat.ltb MaxEIR (5 + uuids_len us) then f_some_uuid else f_all_uuid) =
               (if Nat.leb (5 + uuids_len us) 31 then f_all_uuid else f_some_uuid)).
  { unfold MaxEIR. destruct (Nat.ltb 31 (5 + uuids_len us)) eqn:E1; destruct (Nat.leb (5 + uuids_len us) 31) eqn:E2; try reflexivity; lia. }
  rewrite EC in H. set (c := Nat.leb (5 + uuids_len us) 31) in *.
  destruct (append_uuids_spec c us (enc [(1,[6])])) as (us1 & us2 & E & H1 & H2 & H3); [simpl; lia|].
  rewrite H1 in H.
  assert (EB : enc [(1,[6])] ++ enc (uuid_recs c us1) = enc ((1,[6]) :: uuid_recs c us1)) by (rewrite <- enc_app; reflexivity).
  rewrite EB in *.
  exists us1, us2, (enc ((1,[6]) :: uuid_recs c us1)). split; [assumption|]. split; [reflexivity|]. split; [assumption|]. split; [assumption|].
  rewrite place_name_spec in H by (try assumption; simpl; lia). cbn [length] in H.
  assert (L : length (enc [(9, name)]) = (length name + 2)%nat) by (cbn [enc flat_map]; now rewrite app_nil_r, enc_rec_length).
  destruct (Nat.leb (length (enc ((1%Z,[6%Z]) :: uuid_recs c us1)) + length name + 2) 31) eqn:E1.
  - apply pair_equal_spec in H. destruct H as [Ha Hs]. rewrite <- Ha, <- Hs, app_length, L. repeat split; try lia. simpl. lia.
  - change (0 + length name + 2)%nat with (length name + 2)%nat in H.
    destruct (Nat.leb (length name + 2) 31) eqn:E2; apply pair_equal_spec in H; destruct H as [Ha Hs]; rewrite <- Ha, <- Hs.
    + destruct (Nat.leb (length name) 29) eqn:E3; [|lia]. cbn [app]. rewrite L. repeat split; lia.
    + destruct (Nat.leb (length name) 29) eqn:E3; [lia|]. repeat split; cbn [length]; lia.
Qed.
Require Import Verif.S_adv_api.
Lemma expmap_decoded : forall rs, decoded rs (expmap rs).
Proof.
  intro rs. repeat split; auto using acc_services, acc_sol, acc_name, acc_mfg, acc_flags, acc_tx, acc_service_data.
Qed.

Lemma C04_partial_l : forall pdu, all_bytes pdu -> pdu <> [] ->
  (forall rs d rest, pdu = enc rs ++ enc_rec (255, [d]) ++ rest -> nonempty_mfg rs = []) ->
  exists m e, Parse pdu = Ret (m, e).
Proof.
  intros pdu HB Hne H. destruct (Parse pdu) as [[m e]|] eqn:E; [eauto|].
  apply Parse_panic_iff in E; [|assumption]. destruct E as (rs & d & rest & E & _ & Hn).
  exfalso. apply Hn. now apply (H rs d rest).
Qed.

Lemma C05_parse_l : forall rs tail, enc rs ++ tail <> [] -> Forall legal_payload rs -> mfg_ok rs -> tail_end tail ->
  exists m, Parse (enc rs ++ tail) = Ret (m, None) /\ decoded rs m.
Proof. intros. exists (expmap rs). split; [now apply Parse_ok|apply expmap_decoded]. Qed.

Lemma C06_l : forall rs tail, Forall legal_payload rs -> mfg_ok rs -> tail_malformed tail ->
  exists m e, Parse (enc rs ++ tail) = Ret (m, Some e) /\ decoded rs m.
Proof.
  intros rs tail H1 H2 H3. destruct (Parse_malformed rs tail H1 H2 H3) as [e He].
  exists (expmap rs), e. split; [exact He|apply expmap_decoded].
Qed.

Lemma C05_total_l : forall pdu, all_bytes pdu -> pdu <> [] -> Parse pdu <> Panic ->
  exists rs tail m e, pdu = enc rs ++ tail /\ Forall legal_payload rs /\ Parse pdu = Ret (m, e) /\ decoded rs m /\
    (e = None -> tail_end tail) /\ (e <> None -> tail_malformed tail).
Proof.
  intros pdu HB Hne HP. destruct (Parse_result pdu HB Hne) as [H|(rs & tail & E & H1 & H2 & H3)]; [contradiction|].
  destruct H3 as [[H3 H4]|[H3 (e & H4)]].
  - exists rs, tail, (expmap rs), None. repeat split; try assumption; try apply expmap_decoded; congruence.
  - exists rs, tail, (expmap rs), (Some e). repeat split; try assumption; try apply expmap_decoded; congruence.
Qed.

Lemma build_decode_l : forall ds p, Forall desc_ok ds -> ds <> [] -> new_packet (map run ds) = Some p ->
  exists m, Parse p = Ret (m, None) /\ decoded (flat_map desc_recs ds) m.
Proof. intros ds p H1 H2 H3. eexists. split; [exact (build_parse ds p H1 H2 H3)|apply expmap_decoded]. Qed.

Lemma new_packet_iff : forall ds, Forall desc_ok ds ->
  new_packet (map run ds) =
  if Nat.leb (length (enc (flat_map desc_recs ds))) 31 then Some (enc (flat_map desc_recs ds)) else None.
Proof.
  intros ds H. destruct (Nat.leb (length (enc (flat_map desc_recs ds))) 31) eqn:E.
  - unfold new_packet. rewrite new_packet_complete; [reflexivity|cbn [app]; lia|assumption].
  - destruct (new_packet (map run ds)) as [p|] eqn:EP; [|reflexivity]. unfold new_packet in EP.
    apply new_packet_spec in EP; [|simpl; lia]. destruct EP as [-> HL]. cbn [app] in HL. lia.
Qed.

(** raw packets: the map has the fields of the longest legal prefix; an error marker iff the rest is malformed *)
Lemma raw_packet_l : forall rs tail parts, concat parts = enc rs ++ tail -> Forall legal_payload rs -> mfg_ok rs ->
  (tail_end tail -> exists m, NewRawPacket parts = Ret (Some (concat parts, m)) /\ decoded rs m /\ mget m KErr = None) /\
  (tail_malformed tail -> mnonempty (expmap rs) = true ->
     exists m, NewRawPacket parts = Ret (Some (concat parts, m)) /\ decoded rs m /\ mget m KErr = Some VStr) /\
  (tail_malformed tail -> mnonempty (expmap rs) = false -> NewRawPacket parts = Ret None).
Proof.
  intros rs tail parts E H1 H2. unfold NewRawPacket. rewrite E.
  assert (HP : forall e, Parse (enc rs ++ tail) = Ret (expmap rs, Some e) -> tail_malformed tail -> e <> EEmpty).
  { intros e HE HT ->. unfold Parse in HE.
    destruct (Nat.eqb (length (enc rs ++ tail)) 0) eqn:EN.
    - destruct HT; rewrite app_length in EN; cbn [length] in EN; rewrite ?app_length, ?enc_rec_length in EN; lia.
    - clear -HE. revert HE. generalize (expmap rs) at 1. generalize empty_map. generalize 0%nat.
      generalize (S (length (enc rs ++ tail))). intro f. induction f as [|f IH]; intros i m m' HE; [discriminate|].
      cbn [parse_loop] in HE. destruct (Nat.ltb _ _); [|discriminate].
      destruct (gidx _ i); [|discriminate]. cbn [gbind] in HE. destruct (gidx _ (i+1)) as [t|]; [|discriminate]. cbn [gbind] in HE.
      destruct (Nat.ltb _ 1); [discriminate|]. destruct (Nat.leb _ _); [discriminate|].
      destruct (gslice _ _ _) as [b|]; [|discriminate]. cbn [gbind] in HE.
      destruct (parse_record m t b) as [[m1 [e|]]|] eqn:EP; cbn [gbind] in HE; [| |discriminate].
      + inversion HE; subst. unfold parse_record in EP. destruct (decode_map t) as [dec|]; [|discriminate].
        destruct (Nat.eqb _ _); [discriminate|]. destruct (Nat.ltb _ _); [discriminate|].
        destruct (Nat.ltb _ _).
        * destruct (get_array _ _) as [[l|]|]; cbn [gbind] in EP; try discriminate.
          destruct (mget m (reckey dec)) as [[]|]; discriminate.
        * destruct (Nat.ltb _ _).
          -- destruct (gslice _ _ _); cbn [gbind] in EP; [|discriminate]. destruct (uuid_string _); cbn [gbind] in EP; [|discriminate].
             destruct (gfrom _ _); cbn [gbind] in EP; discriminate.
          -- destruct (write_or_append _ _ _); cbn [gbind] in EP; discriminate.
      + apply (IH _ _ _ HE). }
  split; [|split].
  - intro HT. destruct (enc rs ++ tail) as [|x l] eqn:EL.
    + cbn. exists empty_map. assert (rs = []) as ->.
      { destruct rs as [|r rs]; [reflexivity|]. discriminate EL. }
      split; [reflexivity|]. split; [apply (expmap_decoded [])|reflexivity].
    + rewrite <- EL. rewrite Parse_ok; try assumption; [|rewrite EL; discriminate]. cbn [gbind].
      exists (expmap rs). split; [reflexivity|]. split; [apply expmap_decoded|reflexivity].
  - intros HT HN. destruct (Parse_malformed rs tail H1 H2 HT) as [e He]. rewrite He. cbn [gbind].
    assert (He' := HP e He HT). rewrite HN. destruct e; [congruence| | | |];
    (exists (mset (expmap rs) KErr VStr); split; [reflexivity|]; split; [exact (expmap_decoded rs)|reflexivity]).
  - intros HT HN. destruct (Parse_malformed rs tail H1 H2 HT) as [e He]. rewrite He. cbn [gbind].
    assert (He' := HP e He HT). rewrite HN. destruct e; [congruence| | | |]; reflexivity.
Qed.

Lemma mnonempty_iff : forall m, mnonempty m = true <-> exists k v, mget m k = Some v.
Proof.
  intro m. unfold mnonempty. split.
  - intro H. repeat (apply orb_true_iff in H; destruct H as [H|H]);
    match type of H with (match ?x with _ => _ end = true) => destruct x as [v|] eqn:E; [|discriminate] end;
    [exists KFlags, v|exists KServices, v|exists KSolicited, v|exists KServiceData, v|exists KName, v|exists KTxpwr, v|exists KMfg, v|exists KErr, v]; exact E.
  - intros (k & v & H). destruct k; cbn [mget] in H; rewrite H; rewrite ?orb_true_r; reflexivity.
Qed.
Lemma has_field_iff : forall rs, mnonempty (expmap rs) = true <-> has_field rs.
Proof.
  intro rs. unfold mnonempty, expmap, has_field. cbn [m_flags m_services m_solicited m_svcdata m_name m_txpwr m_mfg m_err].
  destruct (exp_bytes is_flags rs), (exp_services rs), (exp_solicited rs), (exp_svc rs), (exp_bytes is_name rs), (exp_bytes is_txpwr rs), (exp_mfg rs);
  cbn; split; intro H; try reflexivity; try discriminate; try (intuition discriminate); intuition congruence.
Qed.

Lemma raw_packet_l2 : forall rs tail parts, concat parts = enc rs ++ tail -> Forall legal_payload rs -> mfg_ok rs ->
  (tail_end tail -> exists m, NewRawPacket parts = Ret (Some (concat parts, m)) /\ decoded rs m /\ mget m KErr = None) /\
  (tail_malformed tail -> has_field rs ->
     exists m, NewRawPacket parts = Ret (Some (concat parts, m)) /\ decoded rs m /\ mget m KErr = Some VStr) /\
  (tail_malformed tail -> ~ has_field rs -> NewRawPacket parts = Ret None).
Proof.
  intros rs tail parts E H1 H2. destruct (raw_packet_l rs tail parts E H1 H2) as (A & B & C).
  split; [exact A|]. split.
  - intros HT HF. apply B; [exact HT|now apply has_field_iff].
  - intros HT HF. apply C; [exact HT|]. destruct (mnonempty (expmap rs)) eqn:EM; [|reflexivity].
    exfalso. apply HF. now apply has_field_iff.
Qed.

(** sequences of appends *)
Definition app_all (ds : list fdesc) (p : bytes) : bytes := fold_left (fun q d => fst (run d q)) ds p.
Lemma app_all_bound : forall ds p, (length p <= 31)%nat -> (length (app_all ds p) <= 31)%nat.
Proof.
  induction ds as [|d ds IH]; intros p Hp; [exact Hp|]. cbn [app_all fold_left]. apply IH.
  destruct (field_spec d p Hp) as [[H1 H2]|[[H1 (p' & H2 & H3 & _)]|[H1 H2]]]; rewrite ?H1, ?H2; cbn [fst]; try assumption.
  rewrite app_length. lia.
Qed.

Lemma advertise_wrapper_bug : forall ad sr, (length ad <= 31)%nat -> (length sr <= 31)%nat ->
  advertise_with (fun _ => false) ad sr = ([SetAdvData (Z.of_nat (length ad)) ad], true).
Proof.
  intros ad sr H1 H2. unfold advertise_with, set_advertisement, MaxEIR.
  destruct (Nat.ltb 31 (length ad) || Nat.ltb 31 (length sr))%bool eqn:E; [lia|].
  rewrite u8_id; [reflexivity|unfold is_byte; lia].
Qed.

Lemma advertise_cmds : forall send name us ad sr, advertise_payload name us = (ad, sr) ->
  (forall c, send c = true) ->
  advertise_name_and_services send name us =
   ([SetAdvData (Z.of_nat (length ad)) ad; SetScanResp (Z.of_nat (length sr)) sr; SetAdvParams; AdvEnable], true).
Proof.
  intros send name us ad sr H HS. unfold advertise_name_and_services. rewrite H.
  destruct (advertise_payload_spec name us ad sr H) as (us1 & us2 & base & _ & _ & _ & _ & _ & L1 & L2).
  unfold advertise_with, set_advertisement, MaxEIR.
  destruct (Nat.ltb 31 (length ad) || Nat.ltb 31 (length sr))%bool eqn:E; [lia|].
  rewrite !HS. unfold advertise. rewrite !HS. rewrite !u8_id; [reflexivity| |]; unfold is_byte; lia.
Qed.
