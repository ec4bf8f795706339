Require Import Verif.Base Verif.M_uuid Verif.P_uuid Verif.M_adv Verif.S_adv Verif.S_adv_api Verif.P_adv Verif.P_adv2 Verif.P_adv3 Verif.M_advrep Verif.S_advrep Verif.P_advrep Verif.P_advrep2 Verif.M_gap Verif.S_gap Verif.M_air Verif.S_air.
Local Open Scope nat_scope.

(** ---- a run of reports, in two parts ---- *)
Lemma scan_run_app : forall acc w a h b, scan_run acc w h (a ++ b) = let! x := scan_run acc w h a in let! y := scan_run acc w (fst x) b in Ret (fst y, snd x ++ snd y).
Proof.
  intros acc w. induction a as [|r a IH]; intros h b; cbn [app scan_run gbind fst snd].
  - destruct (scan_run acc w h b) as [[h' o]|]; reflexivity.
  - destruct (scan_step acc w h r) as [[h1 o]|]; [|reflexivity]. cbn [gbind fst snd]. rewrite IH. destruct (scan_run acc w h1 a) as [[h2 os]|]; [|reflexivity]. cbn [gbind fst snd].
    destruct (scan_run acc w h2 b) as [[h3 os']|]; reflexivity.
Qed.
Lemma scan_run_len : forall acc w rs h h' os, scan_run acc w h rs = Ret (h', os) -> length os = length rs.
Proof.
  intros acc w. induction rs as [|r rs IH]; intros h h' os E; cbn [scan_run] in E; [injection E as _ <-; reflexivity|].
  destruct (scan_step acc w h r) as [[h1 o]|]; [|discriminate]. cbn [gbind fst snd] in E. destruct (scan_run acc w h1 rs) as [[h2 os']|] eqn:R; [|discriminate]. cbn [gbind fst snd] in E. injection E as _ <-.
  cbn [length]. f_equal. exact (IH _ _ _ R).
Qed.

(** ---- the newest advertisement of address A is one with data ad, with at most n others after it ---- *)
Definition holds (A ad : bytes) (n : nat) (l : list report) : Prop :=
  exists pre x post, l = pre ++ x :: post /\ r_addr x = A /\ r_data x = ad /\ Forall (fun y => r_addr y <> A) pre /\ length pre <= n.
Definition is_adv (m : report) : bool := ((r_type m =? 0) || (r_type m =? 2))%Z.
Definition advs (ms : list report) : nat := length (filter is_adv ms).
Lemma map_upd_same : forall (h : list entry) j x y, nth_error h j = Some x -> fst y = fst x -> map fst (upd h j y) = map fst h.
Proof.
  induction h as [|a h IH]; intros j x y N E; [destruct j; discriminate|]. destruct j as [|j]; cbn [upd map nth_error] in *; [injection N as ->; now rewrite E|]. f_equal. now apply (IH j x).
Qed.
Lemma holds_more : forall A ad n n' l, holds A ad n l -> n <= n' -> holds A ad n' l.
Proof. intros A ad n n' l (p & x & q & E & H1 & H2 & H3 & H4) L. exists p, x, q. repeat (split; [assumption|]). lia. Qed.
Lemma holds_step : forall acc A ad n h m h' o, holds A ad n (map fst h) -> (is_adv m = true -> r_addr m = A -> r_data m = ad) -> scan_step acc 127 h m = Ret (h', o) ->
  holds A ad (if is_adv m then S n else n) (map fst h').
Proof.
  intros acc A ad n h m h' o H D E. unfold scan_step in E. destruct (acc (r_data m)) as [ok|]; [|discriminate]. cbn [gbind] in E.
  assert (K : holds A ad (if is_adv m then S n else n) (map fst h)) by (apply (holds_more A ad n); [exact H|destruct (is_adv m); lia]).
  destruct ok; cbn [negb] in E; [|injection E as <- _; exact K].
  fold (is_adv m) in E. destruct (is_adv m) eqn:AM.
  - injection E as <- _. cbn [map fst]. destruct (list_eq_dec Z.eq_dec (r_addr m) A) as [Q|Q].
    + exists [], m, (map fst h). split; [reflexivity|]. split; [exact Q|]. split; [exact (D eq_refl Q)|]. split; [constructor|]. cbn [length]. lia.
    + destruct H as (p & x & q & EQ & H1 & H2 & H3 & H4). exists (m :: p), x, q. rewrite EQ. split; [reflexivity|]. repeat (split; [assumption|]). split; [now constructor|]. cbn [length]. lia.
  - destruct ((r_type m =? 1) || (r_type m =? 3))%Z; [injection E as <- _; exact K|].
    destruct (newest_from 127 h m) as [j|]; [|injection E as <- _; exact K]. destruct (nth_error h j) as [x|] eqn:NJ; [|injection E as <- _; exact K].
    destruct (acc (entry_data (fst x, Some m))) as [ok2|]; [|discriminate]. cbn [gbind] in E. destruct ok2; injection E as <- _; [|exact K].
    rewrite (map_upd_same h j x); [exact K|exact NJ|reflexivity].
Qed.
Lemma holds_run : forall acc A ad ms n h h' os, holds A ad n (map fst h) -> Forall (fun m => is_adv m = true -> r_addr m = A -> r_data m = ad) ms -> scan_run acc 127 h ms = Ret (h', os) ->
  holds A ad (n + advs ms) (map fst h').
Proof.
  intros acc A ad. induction ms as [|m ms IH]; intros n h h' os H F E; cbn [scan_run] in E.
  - injection E as <- _. eapply holds_more; [exact H|lia].
  - inversion F as [|? ? Fm Fs]; subst. destruct (scan_step acc 127 h m) as [[h1 o]|] eqn:S1; [|discriminate]. cbn [gbind fst snd] in E. destruct (scan_run acc 127 h1 ms) as [[h2 os']|] eqn:S2; [|discriminate].
    cbn [gbind fst snd] in E. injection E as <- _. assert (X := IH _ _ _ _ (holds_step _ _ _ _ _ _ _ _ H Fm S1) Fs S2). eapply holds_more; [exact X|]. unfold advs. cbn [filter]. destruct (is_adv m); cbn [length]; lia.
Qed.
Lemma holds_newest : forall A ad n h s, holds A ad n (map fst h) -> n < 127 -> r_addr s = A -> exists j x, newest_from 127 h s = Some j /\ nth_error h j = Some x /\ r_data (fst x) = ad.
Proof.
  intros A ad n h s (p & x & q & E & H1 & H2 & H3 & H4) L Q.
  assert (NX : nth_error (map fst h) (length p) = Some x) by (rewrite E, nth_error_app2 by lia; rewrite Nat.sub_diag; reflexivity).
  rewrite nth_error_map in NX. destruct (nth_error h (length p)) as [e|] eqn:NE; [|discriminate]. cbn [option_map] in NX. injection NX as EX.
  destruct (newest_from 127 h s) as [j|] eqn:NF.
  - destruct (newest_from_sound _ _ _ _ NF) as (J1 & y & NY & AY & MIN). exists j, y. split; [reflexivity|]. split; [exact NY|].
    assert (LE : j <= length p) by (destruct (Nat.le_gt_cases j (length p)) as [K|K]; [exact K|]; exfalso; apply (MIN (length p) e K NE); congruence).
    destruct (Nat.eq_dec j (length p)) as [->|NQ]; [congruence|]. exfalso.
    assert (NP : nth_error (map fst h) j = Some (fst y)) by (now rewrite nth_error_map, NY). rewrite E, nth_error_app1 in NP by lia. rewrite Forall_forall in H3. apply (H3 _ (nth_error_In _ _ NP)). congruence.
  - exfalso. apply (newest_from_complete _ _ _ NF (length p) e); [lia|exact NE|congruence].
Qed.

(** ---- the packet of a record list ---- *)
Lemma accepts_enc : forall rs, Forall legal_payload rs -> mfg_ok rs -> accepts (enc rs) = Ret true /\ exists m, NewRawPacket [enc rs] = Ret (Some (enc rs, m)) /\ (rs <> [] -> m = expmap rs).
Proof.
  intros rs L M. assert (X : exists m, NewRawPacket [enc rs] = Ret (Some (enc rs, m)) /\ (rs <> [] -> m = expmap rs)).
  { unfold NewRawPacket. cbn [concat]. rewrite app_nil_r. destruct rs as [|r rs]; [eexists; split; [reflexivity|intro Q; now elim Q]|].
    assert (PE : Parse (enc (r :: rs)) = Ret (expmap (r :: rs), None)).
    { assert (Q := Parse_ok (r :: rs) []). rewrite app_nil_r in Q. apply Q; [destruct r; discriminate|exact L|exact M|constructor]. }
    rewrite PE. cbn [gbind]. eexists. split; reflexivity. }
  split; [|exact X]. destruct X as (m & E & _). unfold accepts. rewrite E. reflexivity.
Qed.

Lemma out_nth : forall os oas, Forall2 out_repr os oas -> forall y n, nth_error os n = Some (Some y) -> exists a, nth_error oas n = Some (Some a) /\ repr y a.
Proof.
  intros os oas O y. induction O as [|o oa os' oas' Q O' IH]; intros n N; [destruct n; discriminate|].
  destruct n as [|n]; [|exact (IH n N)]. cbn [nth_error] in N |- *. injection N as ->. destruct oa as [a|]; cbn [out_repr] in Q; [exists a; auto|contradiction].
Qed.
(** the advertisements a scan shows when reports with ad = enc ra and then sr = enc rb come in *)
Lemma air_run : forall ra rb hs r mids s st outs,
  Forall (fun r => report_ok r /\ all_bytes (r_addr r) /\ (r_type r <= 4)%Z) (hs ++ r :: mids ++ [s]) ->
  Forall legal_payload ra -> Forall legal_payload (ra ++ rb) -> Forall legal_payload rb -> mfg_ok ra -> mfg_ok rb -> mfg_ok (ra ++ rb) -> ra <> [] ->
  is_adv r = true -> r_data r = enc ra -> r_type s = 4%Z -> r_addr s = r_addr r -> r_data s = enc rb ->
  Forall (fun m => is_adv m = true -> r_addr m = r_addr r -> r_data m = enc ra) mids -> advs mids < 127 ->
  run_reports (scan_start 128) (map (fun r => enc_reports [r]) (hs ++ r :: mids ++ [s])) = Ret (st, outs) ->
  exists a1 a2, nth_error outs (length hs) = Some (Some a1) /\ nth_error outs (length hs + S (length mids)) = Some (Some a2) /\
    ad_pm a1 = expmap ra /\ ad_pm a2 = expmap (ra ++ rb).
Proof.
  intros ra rb hs r mids s st outs F L1 L12 L2 M1 M2 M12 NE TA DA TS AS DS FM CNT E.
  assert (HF : Forall (fun r => rep_good r /\ (r_type r <= 4)%Z) (hs ++ r :: mids ++ [s])) by (eapply Forall_impl; [|exact F]; cbv beta; intros x (A & B & C); split; [split|]; auto).
  assert (R := run_refines 128 _ (scan_start 128) [] ltac:(lia) (rel_start 128 ltac:(lia)) HF). change (128 - 1) with 127 in R.
  destruct (scan_run accepts 127 [] (hs ++ r :: mids ++ [s])) as [[h os]|] eqn:SR; [|rewrite R in E; discriminate]. destruct R as (st' & oas & E' & _ & O). rewrite E in E'. injection E' as <- <-.
  rewrite scan_run_app in SR. destruct (scan_run accepts 127 [] hs) as [[h1 o1]|] eqn:S1; [|discriminate]. cbn [gbind fst snd scan_run] in SR.
  destruct (accepts_enc ra L1 M1) as (AC1 & p1 & P1 & Q1).
  assert (ST : scan_step accepts 127 h1 r = Ret ((r, None) :: h1, Some (r, None))).
  { unfold scan_step. rewrite DA, AC1. cbn [gbind negb]. fold (is_adv r). now rewrite TA. }
  rewrite ST in SR. cbn [gbind fst snd] in SR. rewrite scan_run_app in SR. destruct (scan_run accepts 127 ((r, None) :: h1) mids) as [[h2 o2]|] eqn:S2; [|discriminate]. cbn [gbind fst snd scan_run] in SR.
  assert (H0 : holds (r_addr r) (enc ra) 0 (map fst ((r, @None report) :: h1))) by (exists [], r, (map fst h1); split; [reflexivity|]; split; [reflexivity|]; split; [exact DA|]; split; [constructor|cbn; lia]).
  destruct (holds_newest _ _ _ _ s (holds_run _ _ _ _ _ _ _ _ H0 FM S2) CNT AS) as (j & x & NF & NX & DX).
  destruct (accepts_enc rb L2 M2) as (AC2 & _). destruct (accepts_enc (ra ++ rb) L12 M12) as (AC3 & p3 & P3 & Q3).
  assert (ED : entry_data (fst x, Some s) = enc (ra ++ rb)) by (unfold entry_data; cbn [fst snd]; rewrite DX, DS; symmetry; apply enc_app).
  assert (ST2 : scan_step accepts 127 h2 s = Ret (upd h2 j (fst x, Some s), Some (fst x, Some s))).
  { unfold scan_step. rewrite DS, AC2. cbn [gbind negb]. rewrite TS. cbn [Z.eqb Pos.eqb orb]. rewrite NF, NX. cbv zeta. rewrite ED, AC3. reflexivity. }
  rewrite ST2 in SR. cbn [gbind fst snd] in SR. injection SR as <- <-.
  assert (N1 : nth_error (o1 ++ Some (r, None) :: o2 ++ [Some (fst x, Some s)]) (length hs) = Some (Some (r, None))).
  { rewrite nth_error_app2; rewrite (scan_run_len _ _ _ _ _ _ S1); [rewrite Nat.sub_diag; reflexivity|lia]. }
  assert (N2 : nth_error (o1 ++ Some (r, None) :: o2 ++ [Some (fst x, Some s)]) (length hs + S (length mids)) = Some (Some (fst x, Some s))).
  { rewrite nth_error_app2; rewrite (scan_run_len _ _ _ _ _ _ S1); [|lia]. replace (length hs + S (length mids) - length hs) with (S (length mids)) by lia. cbn [nth_error].
    rewrite nth_error_app2; rewrite (scan_run_len _ _ _ _ _ _ S2); [rewrite Nat.sub_diag; reflexivity|lia]. }
  destruct (out_nth _ _ O _ _ N1) as (a1 & A1 & _ & _ & _ & B1). destruct (out_nth _ _ O _ _ N2) as (a2 & A2 & _ & _ & _ & B2).
  exists a1, a2. split; [exact A1|]. split; [exact A2|]. split.
  - unfold entry_data in B1. cbn [fst snd] in B1. rewrite app_nil_r, DA, P1 in B1. injection B1 as _ <-. exact (Q1 NE).
  - rewrite ED, P3 in B2. injection B2 as _ <-. apply Q3. destruct ra; [now elim NE|discriminate].
Qed.

(** ---- what the record lists of the calls show ---- *)
Definition gives (rs : list rec) (x : shown) : Prop :=
  exp_bytes is_name rs = sh_name x /\ exp_services rs = sh_services x /\ exp_mfg rs = sh_mfg x /\ exp_svc rs = sh_svc x /\ exp_solicited rs = [].
Lemma svc_none : forall rs, exp_svc rs = [] -> pk_service_data (expmap rs) = Ret [].
Proof. intros rs E. unfold pk_service_data, expmap. cbn [mget m_svcdata]. rewrite E. reflexivity. Qed.
Lemma svc_one : forall rs u d, exp_svc rs = [(u, d)] -> all_bytes u -> ok_len u = true -> pk_service_data (expmap rs) = Ret [(u, d)].
Proof.
  intros rs u d E AB OK. unfold pk_service_data, expmap. cbn [mget m_svcdata]. rewrite E. unfold os, svc_fold. cbn [fold_left svc_append svc_list].
  cbn [fst snd]. rewrite (uuid_parse_hex u AB). cbn [gbind]. fold (ok_len u). rewrite OK. reflexivity.
Qed.
Lemma gives_shows : forall a rs x, ad_pm a = expmap rs -> gives rs x -> (sh_svc x = [] \/ exists u d, sh_svc x = [(u, d)] /\ all_bytes u /\ ok_len u = true) -> shows a x.
Proof.
  intros a rs x E (G1 & G2 & G3 & G4 & G5) S. unfold shows, LocalName, Services, OverflowService, ManufacturerData, ServiceData, SolicitedService. rewrite E, acc_name, acc_services, acc_mfg, acc_sol.
  split; [exact G1|]. split; [exact G2|]. split; [exact G2|]. split; [exact G3|]. split; [|exact G5].
  destruct S as [S|(u & d & S & AB & OK)]; rewrite S in *; [exact (svc_none _ G4)|exact (svc_one _ _ _ G4 AB OK)].
Qed.

(** the flags and the UUIDs *)
Definition base_recs (c : bool) (us : list bytes) : list rec := (1%Z, [6%Z]) :: map (fun u => (uuid_type c u, u)) us.
Lemma uuid_rec_ok : forall c (u : bytes), length u = 2 \/ length u = 4 \/ length u = 16 -> legal_payload (uuid_type c u, u) /\
  services_size (uuid_type c u) = Some (length u) /\ solicited_size (uuid_type c u) = None /\ svcdata_size (uuid_type c u) = None /\ is_name (uuid_type c u) = false /\ is_mfg (uuid_type c u) = false.
Proof.
  intros c u H. unfold uuid_type, legal_payload. destruct H as [H|[H|H]]; rewrite H; destruct c; cbn -[Nat.modulo]; (split; [right; split; [|split]; intros n Q; try discriminate; injection Q as <-; reflexivity|repeat split]).
Qed.
Lemma chunks_one : forall u : bytes, u <> [] -> chunks (length u) u (length u) = [u].
Proof.
  intros u N. destruct u as [|x u]; [now elim N|]. cbn [chunks length]. rewrite firstn_all2, skipn_all2 by (cbn [length]; lia). f_equal. destruct (length u); reflexivity.
Qed.
Lemma base_ok : forall c us, Forall (fun u : bytes => length u = 2 \/ length u = 4 \/ length u = 16) us ->
  Forall legal_payload (base_recs c us) /\ exp_bytes is_name (base_recs c us) = [] /\ exp_services (base_recs c us) = us /\ nonempty_mfg (base_recs c us) = [] /\ exp_svc (base_recs c us) = [] /\ exp_solicited (base_recs c us) = [].
Proof.
  intros c us F. unfold base_recs. assert (X : Forall legal_payload (map (fun u => (uuid_type c u, u)) us) /\ exp_bytes is_name (map (fun u => (uuid_type c u, u)) us) = [] /\ exp_services (map (fun u => (uuid_type c u, u)) us) = us /\
    nonempty_mfg (map (fun u => (uuid_type c u, u)) us) = [] /\ exp_svc (map (fun u => (uuid_type c u, u)) us) = [] /\ exp_solicited (map (fun u => (uuid_type c u, u)) us) = []).
  { induction F as [|u us H F IH]; [repeat (split; [constructor|]); constructor|]. destruct IH as (I1 & I2 & I3 & I4 & I5 & I6). destruct (uuid_rec_ok c u H) as (L & S1 & S2 & S3 & S4 & S5).
    unfold exp_bytes, exp_services, exp_solicited, exp_list, nonempty_mfg, exp_svc in *. cbn [map flat_map fst snd]. rewrite S1, S2, S3, S4, S5, I2, I3, I4, I5, I6.
    rewrite chunks_one by (destruct u; [cbn in H; lia|discriminate]). split; [now constructor|]. repeat (split; [reflexivity|]). reflexivity. }
  destruct X as (I1 & I2 & I3 & I4 & I5 & I6). split; [constructor; [|exact I1]|].
  - right. split; [|split]; intros n Q; discriminate.
  - unfold exp_bytes, exp_services, exp_solicited, exp_list, nonempty_mfg, exp_svc in *. cbn [flat_map fst snd]. rewrite I2, I3, I4, I5, I6. repeat (split; [reflexivity|]). reflexivity.
Qed.
Lemma base_len : forall c us, length (enc (base_recs c us)) = 3 + size_of us.
Proof.
  intros c us. unfold base_recs. change (enc ((1%Z, [6%Z]) :: map (fun u => (uuid_type c u, u)) us)) with ([2; 1; 6]%Z ++ enc (map (fun u => (uuid_type c u, u)) us)). rewrite app_length. cbn [length]. f_equal.
  induction us as [|u us IH]; [reflexivity|]. cbn [map]. unfold enc. cbn [flat_map]. fold (enc (map (fun u => (uuid_type c u, u)) us)). rewrite app_length, IH, enc_rec_length. assert (SZ : size_of (u :: us) = 2 + length u + size_of us) by reflexivity. rewrite SZ. cbn [fst snd]. lia.
Qed.
Lemma that_fit_is : forall us1 us2 room, size_of us1 <= room -> (forall u r, us2 = u :: r -> room < size_of us1 + length u + 2) -> that_fit room (us1 ++ us2) = us1.
Proof.
  induction us1 as [|u us1 IH]; intros us2 room L N; cbn [app].
  - destruct us2 as [|u r]; [reflexivity|]. cbn [that_fit]. specialize (N u r eq_refl). cbn in N. destruct (Nat.leb (2 + length u) room) eqn:Q; [apply Nat.leb_le in Q; lia|reflexivity].
  - cbn [that_fit]. assert (SZ : size_of (u :: us1) = 2 + length u + size_of us1) by reflexivity. rewrite SZ in *. destruct (Nat.leb (2 + length u) room) eqn:Q; [|apply Nat.leb_gt in Q; lia]. f_equal. apply IH; [lia|]. intros v r E. specialize (N v r E). rewrite ?SZ in N. lia.
Qed.

(** optional name and manufacturer data *)
Definition opt (b : bool) (x : rec) : list rec := if b then [x] else [].
Definition N_ (name : bytes) : rec := (9%Z, name).
Definition M_ (md : bytes) : rec := (255%Z, two 1337 ++ md).
Lemma recs_ok : forall c us name md n1 m1 n2 m2, Forall (fun u : bytes => length u = 2 \/ length u = 4 \/ length u = 16) us -> n1 && n2 = false -> m1 && m2 = false ->
  let ra := base_recs c us ++ opt n1 (N_ name) ++ opt m1 (M_ md) in let rb := opt n2 (N_ name) ++ opt m2 (M_ md) in
  Forall legal_payload ra /\ Forall legal_payload (ra ++ rb) /\ Forall legal_payload rb /\ mfg_ok ra /\ mfg_ok rb /\ mfg_ok (ra ++ rb) /\ ra <> [] /\
  gives ra (mkSh (if n1 then name else []) us (if m1 then two 1337 ++ md else []) []) /\
  gives (ra ++ rb) (mkSh (if n1 || n2 then name else []) us (if m1 || m2 then two 1337 ++ md else []) []).
Proof.
  intros c us name md n1 m1 n2 m2 F NN MM ra rb. destruct (base_ok c us F) as (I1 & I2 & I3 & I4 & I5 & I6).
  assert (LN : legal_payload (N_ name)) by (right; split; [|split]; intros n Q; discriminate).
  assert (LM : legal_payload (M_ md)) by (right; split; [|split]; intros n Q; discriminate).
  assert (LO : forall b x, legal_payload x -> Forall legal_payload (opt b x)) by (intros b x H; destruct b; constructor; [exact H|constructor]).
  assert (L1 : Forall legal_payload ra) by (apply Forall_app; split; [exact I1|]; apply Forall_app; split; now apply LO).
  assert (L2 : Forall legal_payload rb) by (apply Forall_app; split; now apply LO).
  assert (MF : forall rs, (length (nonempty_mfg rs) <= 1) -> mfg_ok rs) by (intros rs H d ds E; rewrite E in H; destruct ds; [constructor|cbn in H; lia]).
  assert (MA : nonempty_mfg ra = if m1 then [two 1337 ++ md] else []) by (unfold ra; unfold nonempty_mfg in *; rewrite !flat_map_app, I4; destruct n1, m1; reflexivity).
  assert (MB : nonempty_mfg rb = if m2 then [two 1337 ++ md] else []) by (unfold rb; unfold nonempty_mfg in *; rewrite !flat_map_app; destruct n2, m2; reflexivity).
  assert (MAB : nonempty_mfg (ra ++ rb) = if m1 || m2 then [two 1337 ++ md] else []) by (unfold nonempty_mfg in *; rewrite flat_map_app, MA, MB; destruct m1, m2; try discriminate; reflexivity).
  split; [exact L1|]. split; [apply Forall_app; now split|]. split; [exact L2|].
  split; [apply MF; rewrite MA; destruct m1; cbn; lia|]. split; [apply MF; rewrite MB; destruct m2; cbn; lia|]. split; [apply MF; rewrite MAB; destruct (m1 || m2); cbn; lia|]. split; [discriminate|].
  unfold gives. cbn [sh_name sh_services sh_mfg sh_svc].
  assert (EM : forall rs (b : bool), nonempty_mfg rs = (if b then [two 1337 ++ md] else []) -> exp_mfg rs = if b then two 1337 ++ md else []) by (intros rs b E; unfold exp_mfg; rewrite E; destruct b; [cbn [flat_map]; apply app_nil_r|reflexivity]).
  rewrite (EM _ _ MA), (EM _ _ MAB). unfold ra, rb. unfold exp_bytes, exp_services, exp_solicited, exp_list, exp_svc in *. rewrite !flat_map_app, I2, I3, I5, I6.
  split.
  - split; [destruct n1, m1; cbn; now rewrite ?app_nil_r|]. split; [destruct n1, m1; cbn; now rewrite ?app_nil_r|]. split; [reflexivity|]. split; destruct n1, m1; reflexivity.
  - split; [destruct n1, m1, n2, m2; try discriminate; cbn; now rewrite ?app_nil_r|]. split; [destruct n1, m1, n2, m2; try discriminate; cbn; now rewrite ?app_nil_r|]. split; [reflexivity|]. split; destruct n1, m1, n2, m2; reflexivity.
Qed.
Lemma leb_eq : forall a b c d, (a <= b <-> c <= d) -> Nat.leb a b = Nat.leb c d.
Proof. intros a b c d H. destruct (Nat.leb_spec a b), (Nat.leb_spec c d); try reflexivity; lia. Qed.
Lemma enc_one : forall t d, length (enc [(t, d)]) = 2 + length d.
Proof. intros t d. unfold enc. cbn [flat_map]. rewrite app_nil_r, enc_rec_length. cbn [fst snd]. lia. Qed.
Lemma names_recs : forall name us ad sr, names_payload name us ad sr -> Forall (fun u : bytes => length u = 2 \/ length u = 4 \/ length u = 16) us -> exists c, let us1 := that_fit 28 us in let n1 := name_with_flags name us in
  Forall (fun u : bytes => length u = 2 \/ length u = 4 \/ length u = 16) us1 /\ size_of us1 <= 28 /\
  ad = enc (base_recs c us1 ++ opt n1 (N_ name)) /\ sr = enc (opt (negb n1 && Nat.leb (length name) 29) (N_ name)).
Proof.
  intros name us ad sr (us1 & us2 & base & E & EB & L & NX & NM) F. set (c := Nat.leb (5 + total_len us) 31) in *. fold (base_recs c us1) in EB. exists c. cbv zeta.
  assert (LB : length base = 3 + size_of us1) by (rewrite EB; apply base_len).
  assert (TF : that_fit 28 us = us1) by (rewrite E; apply that_fit_is; [lia|intros u r Q; specialize (NX u r Q); lia]).
  unfold name_with_flags, left_for_name. rewrite TF. split; [rewrite E in F; apply Forall_app in F; exact (proj1 F)|]. split; [lia|].
  assert (QB : Nat.leb (length base + length name + 2) 31 = Nat.leb (2 + length name) (28 - size_of us1)) by (apply leb_eq; lia). rewrite QB in NM. rewrite enc_app, <- EB.
  destruct (Nat.leb (2 + length name) (28 - size_of us1)) eqn:Q; cbn [negb andb opt].
  - destruct NM as [-> ->]. split; reflexivity.
  - destruct NM as [-> ->]. split; [now rewrite app_nil_r|]. destruct (Nat.leb (length name) 29); reflexivity.
Qed.
Lemma asked_recs : forall c ad sr, asked c ad sr -> uuids_ok c -> (forall a s p, c <> ARaw a s p) -> exists ra rb x1 x2, ad = enc ra /\ sr = enc rb /\
  Forall legal_payload ra /\ Forall legal_payload (ra ++ rb) /\ Forall legal_payload rb /\ mfg_ok ra /\ mfg_ok rb /\ mfg_ok (ra ++ rb) /\ ra <> [] /\
  on_air c false = Some x1 /\ on_air c true = Some x2 /\ gives ra x1 /\ gives (ra ++ rb) x2 /\
  (forall x, x = x1 \/ x = x2 -> sh_svc x = [] \/ exists u d, sh_svc x = [(u, d)] /\ all_bytes u /\ ok_len u = true).
Proof.
  intros c ad sr (LA & LS & A) U NR.
  assert (NM : forall name us, names_payload name us ad sr -> Forall (fun u : bytes => length u = 2 \/ length u = 4 \/ length u = 16) us -> exists ra rb x1 x2, ad = enc ra /\ sr = enc rb /\
    Forall legal_payload ra /\ Forall legal_payload (ra ++ rb) /\ Forall legal_payload rb /\ mfg_ok ra /\ mfg_ok rb /\ mfg_ok (ra ++ rb) /\ ra <> [] /\
    on_air (ANames name us) false = Some x1 /\ on_air (ANames name us) true = Some x2 /\ gives ra x1 /\ gives (ra ++ rb) x2 /\
    (forall x, x = x1 \/ x = x2 -> sh_svc x = [] \/ exists u d, sh_svc x = [(u, d)] /\ all_bytes u /\ ok_len u = true)).
  { intros name us NP F. destruct (names_recs _ _ _ _ NP F) as (k & F1 & _ & EA & ES). cbv zeta in *. set (n1 := name_with_flags name us) in *. set (us1 := that_fit 28 us) in *.
    assert (X := recs_ok k us1 name [] n1 false (negb n1 && Nat.leb (length name) 29) false F1 ltac:(destruct n1; reflexivity) eq_refl). cbv zeta in X. cbn [opt] in X. rewrite !app_nil_r in X.
    destruct X as (B1 & B2 & B3 & B4 & B5 & B6 & B7 & B8 & B9). eexists _, _, _, _. split; [exact EA|]. split; [exact ES|]. split; [exact B1|]. split; [exact B2|]. split; [exact B3|]. split; [exact B4|]. split; [exact B5|]. split; [exact B6|]. split; [exact B7|].
    unfold on_air. fold n1 us1. split; [reflexivity|]. split; [reflexivity|]. cbn [andb]. rewrite orb_false_r. split; [exact B8|]. split; [|intros x [->| ->]; now left].
    assert (n1 || Nat.leb (length name) 29 = n1 || negb n1 && Nat.leb (length name) 29)%bool as -> by (destruct n1; reflexivity). exact B9. }
  assert (ONE : forall rs x, gives rs x -> Forall legal_payload rs -> mfg_ok rs -> rs <> [] -> on_air c false = Some x -> on_air c true = Some x ->
    (sh_svc x = [] \/ exists u d, sh_svc x = [(u, d)] /\ all_bytes u /\ ok_len u = true) -> ad = enc rs -> sr = [] -> exists ra rb x1 x2, ad = enc ra /\ sr = enc rb /\
    Forall legal_payload ra /\ Forall legal_payload (ra ++ rb) /\ Forall legal_payload rb /\ mfg_ok ra /\ mfg_ok rb /\ mfg_ok (ra ++ rb) /\ ra <> [] /\
    on_air c false = Some x1 /\ on_air c true = Some x2 /\ gives ra x1 /\ gives (ra ++ rb) x2 /\
    (forall x, x = x1 \/ x = x2 -> sh_svc x = [] \/ exists u d, sh_svc x = [(u, d)] /\ all_bytes u /\ ok_len u = true)).
  { intros rs x G L M N O1 O2 SV -> ->. exists rs, [], x, x. rewrite app_nil_r. split; [reflexivity|]. split; [reflexivity|]. split; [exact L|]. split; [exact L|]. split; [constructor|]. split; [exact M|]. split; [intros d ds Q; discriminate|]. split; [exact M|].
    split; [exact N|]. split; [exact O1|]. split; [exact O2|]. split; [exact G|]. split; [exact G|]. intros y [->| ->]; exact SV. }
  assert (L255 : forall d, legal_payload (255%Z, d)) by (intro d; right; split; [|split]; intros n Q; discriminate).
  assert (M1 : forall d : bytes, d <> [] -> Forall legal_payload [(255%Z, d)] /\ mfg_ok [(255%Z, d)] /\ gives [(255%Z, d)] (mkSh [] [] d [])).
  { intros d N. split; [constructor; [apply L255|constructor]|]. split; [intros x xs Q; destruct d; [now elim N|]; cbn in Q; injection Q as _ <-; constructor|].
    destruct d as [|y d]; [now elim N|]. unfold gives, exp_mfg. cbn. rewrite !app_nil_r. repeat (split; [reflexivity|]). reflexivity. }
  destruct c as [name us|name us mfg|id md|id b|md|u major minor pwr|a s p]; cbn [asked uuids_ok] in A, U.
  - exact (NM name us A U).
  - destruct mfg as [md|]; [|exact (NM name us A U)]. destruct A as (ad0 & sr0 & NP & WM). destruct (names_recs _ _ _ _ NP U) as (k & F1 & SZ & EA & ES). cbv zeta in *. unfold with_mfg in WM.
    assert (QP : Nat.leb (length ad0 + length (enc [(255%Z, two 1337 ++ md)])) 31 = mfg_in_packet md name us).
    { rewrite enc_one, app_length. change (length (two 1337)) with 2. unfold mfg_in_packet, left_for_mfg. rewrite EA, enc_app, app_length, base_len. unfold name_with_flags, left_for_name.
      destruct (Nat.leb (2 + length name) (28 - size_of (that_fit 28 us))) eqn:Q; unfold opt, N_; [rewrite enc_one|cbn [enc flat_map length]]; apply leb_eq; [apply Nat.leb_le in Q|]; lia. }
    assert (QS : Nat.leb (length sr0 + length (enc [(255%Z, two 1337 ++ md)])) 31 = Nat.leb (4 + length md) (left_in_response name us)).
    { rewrite enc_one, app_length. change (length (two 1337)) with 2. unfold left_in_response. rewrite ES. destruct (name_with_flags name us); cbn [negb andb opt]; [cbn [enc flat_map length]; apply leb_eq; lia|].
      assert (Nat.leb (2 + length name) 31 = Nat.leb (length name) 29) as -> by (apply leb_eq; lia). destruct (Nat.leb (length name) 29) eqn:Q; cbn [opt]; unfold N_; [rewrite enc_one|cbn [enc flat_map length]]; apply leb_eq; [apply Nat.leb_le in Q|]; lia. }
    rewrite QP, QS in WM. set (n1 := name_with_flags name us) in *. set (us1 := that_fit 28 us) in *. set (m1 := mfg_in_packet md name us) in *.
    assert (EM2 : mfg_in_response md name us = negb m1 && Nat.leb (4 + length md) (left_in_response name us)) by reflexivity.
    set (m2 := mfg_in_response md name us) in *.
    assert (X := recs_ok k us1 name md n1 m1 (negb n1 && Nat.leb (length name) 29) m2 F1 ltac:(destruct n1; reflexivity) ltac:(rewrite EM2; destruct m1; reflexivity)). cbv zeta in X.
    destruct X as (B1 & B2 & B3 & B4 & B5 & B6 & B7 & B8 & B9). eexists _, _, _, _.
    assert (EE : ad = enc (base_recs k us1 ++ opt n1 (N_ name) ++ opt m1 (M_ md)) /\ sr = enc (opt (negb n1 && Nat.leb (length name) 29) (N_ name) ++ opt m2 (M_ md))).
    { rewrite app_assoc, (enc_app (base_recs k us1 ++ opt n1 (N_ name))), (enc_app (opt (negb n1 && _) _)), <- EA, <- ES, EM2. destruct m1; cbn [negb andb opt].
      - destruct WM as [-> ->]. split; [reflexivity|]. symmetry. apply app_nil_r.
      - destruct WM as [-> ->]. split; [symmetry; apply app_nil_r|]. destruct (Nat.leb (4 + length md) (left_in_response name us)); [reflexivity|]. symmetry. apply app_nil_r. }
    split; [exact (proj1 EE)|]. split; [exact (proj2 EE)|]. split; [exact B1|]. split; [exact B2|]. split; [exact B3|]. split; [exact B4|]. split; [exact B5|]. split; [exact B6|]. split; [exact B7|].
    unfold on_air. fold n1 us1 m1 m2. split; [reflexivity|]. split; [reflexivity|]. cbn [andb]. rewrite !orb_false_r. split; [exact B8|]. split; [|intros x [->| ->]; now left].
    assert (n1 || Nat.leb (length name) 29 = n1 || negb n1 && Nat.leb (length name) 29)%bool as -> by (destruct n1; reflexivity). exact B9.
  - destruct A as [EA ES]. destruct (M1 (two id ++ md) ltac:(discriminate)) as (Q1 & Q2 & Q3). eapply ONE; [exact Q3|exact Q1|exact Q2|discriminate|reflexivity|reflexivity|now left|exact EA|exact ES].
  - destruct A as [EA ES]. eapply (ONE [(3%Z, two id); (22%Z, two id ++ b)] (mkSh [] [two id] [] [(two id, b)])); [| | |discriminate|reflexivity|reflexivity| |exact EA|exact ES].
    + unfold gives. cbn. rewrite ?app_nil_r. repeat (split; [reflexivity|]). reflexivity.
    + constructor; [right; split; [|split]; intros n Q; try discriminate; injection Q as <-; reflexivity|]. constructor; [|constructor]. right. split; [|split]; intros n Q; try discriminate. injection Q as <-. rewrite app_length. cbn. lia.
    + intros x xs Q. discriminate.
    + right. exists (two id), b. split; [reflexivity|]. split; [|reflexivity]. unfold two. repeat (constructor; [unfold is_byte; apply Z.mod_pos_bound; lia|]). constructor.
  - destruct A as [EA ES]. destruct (M1 ([76; 0]%Z ++ md) ltac:(discriminate)) as (Q1 & Q2 & Q3). eapply ONE; [exact Q3|exact Q1|exact Q2|discriminate|reflexivity|reflexivity|now left|exact EA|exact ES].
  - destruct A as (_ & EA & ES). destruct (M1 ([76; 0; 2; 21]%Z ++ rev u ++ two_be major ++ two_be minor ++ [(pwr mod 256)%Z]) ltac:(discriminate)) as (Q1 & Q2 & Q3). eapply ONE; [exact Q3|exact Q1|exact Q2|discriminate|reflexivity|reflexivity|now left|exact EA|exact ES].
  - now elim (NR a s p).
Qed.
Lemma air_adv : forall ra hs r rest st outs,
  Forall (fun r => report_ok r /\ all_bytes (r_addr r) /\ (r_type r <= 4)%Z) (hs ++ r :: rest) ->
  Forall legal_payload ra -> mfg_ok ra -> ra <> [] -> (0 <= r_type r < 4)%Z -> r_data r = enc ra ->
  run_reports (scan_start 128) (map (fun r => enc_reports [r]) (hs ++ r :: rest)) = Ret (st, outs) ->
  exists a, nth_error outs (length hs) = Some (Some a) /\ ad_pm a = expmap ra.
Proof.
  intros ra hs r rest st outs F L1 M1 NE TA DA E.
  assert (HF : Forall (fun r => rep_good r /\ (r_type r <= 4)%Z) (hs ++ r :: rest)) by (eapply Forall_impl; [|exact F]; cbv beta; intros x (A & B & C); split; [split|]; auto).
  assert (R := run_refines 128 _ (scan_start 128) [] ltac:(lia) (rel_start 128 ltac:(lia)) HF). change (128 - 1) with 127 in R.
  destruct (scan_run accepts 127 [] (hs ++ r :: rest)) as [[h os]|] eqn:SR; [|rewrite R in E; discriminate]. destruct R as (st' & oas & E' & _ & O). rewrite E in E'. injection E' as <- <-.
  rewrite scan_run_app in SR. destruct (scan_run accepts 127 [] hs) as [[h1 o1]|] eqn:S1; [|discriminate]. cbn [gbind fst snd scan_run] in SR.
  destruct (accepts_enc ra L1 M1) as (AC1 & p1 & P1 & Q1).
  assert (ST : exists h2, scan_step accepts 127 h1 r = Ret (h2, Some (r, None))).
  { unfold scan_step. rewrite DA, AC1. cbn [gbind negb]. destruct ((r_type r =? 0) || (r_type r =? 2))%Z eqn:T1; [eexists; reflexivity|]. destruct ((r_type r =? 1) || (r_type r =? 3))%Z eqn:T2; [eexists; reflexivity|]. lia. }
  destruct ST as (h2 & ST). rewrite ST in SR. cbn [gbind fst snd] in SR. destruct (scan_run accepts 127 h2 rest) as [[h3 o3]|]; [|discriminate]. cbn [gbind fst snd] in SR. injection SR as _ <-.
  assert (N1 : nth_error (o1 ++ Some (r, None) :: o3) (length hs) = Some (Some (r, None))).
  { rewrite nth_error_app2; rewrite (scan_run_len _ _ _ _ _ _ S1); [rewrite Nat.sub_diag; reflexivity|lia]. }
  destruct (out_nth _ _ O _ _ N1) as (a1 & A1 & _ & _ & _ & B1). exists a1. split; [exact A1|].
  unfold entry_data in B1. cbn [fst snd] in B1. rewrite app_nil_r, DA, P1 in B1. injection B1 as _ <-. exact (Q1 NE).
Qed.
