Require Import Verif.Base Verif.M_uuid Verif.S_uuid Verif.P_uuid Verif.M_adv Verif.S_adv Verif.P_adv.

Lemma enc_app : forall a b, enc (a ++ b) = enc a ++ enc b.
Proof. intros. apply flat_map_app. Qed.
Lemma enc_length_ge : forall rs, (length rs <= length (enc rs))%nat.
Proof.
  induction rs as [|r rs IH]; [simpl; lia|]. cbn [enc flat_map length]. rewrite app_length, enc_rec_length.
  unfold enc in IH. lia.
Qed.

Lemma parse_recs : forall rs rs0 pre tail f,
  Forall legal_payload rs -> mfg_ok (rs0 ++ rs) ->
  parse_loop (pre ++ enc rs ++ tail) (length pre) (expmap rs0) (length rs + f) =
  parse_loop (pre ++ enc rs ++ tail) (length (pre ++ enc rs)) (expmap (rs0 ++ rs)) f.
Proof.
  induction rs as [|r rs IH]; intros rs0 pre tail f HL HM.
  - cbn [enc flat_map]. now rewrite !app_nil_r.
  - destruct r as [t d]. inversion HL as [|? ? HL1 HL2]; subst.
    assert (EA : rs0 ++ (t,d) :: rs = (rs0 ++ [(t,d)]) ++ rs) by (rewrite <- app_assoc; reflexivity).
    rewrite EA in *. clear EA.
    change (enc ((t,d) :: rs)) with (enc_rec (t,d) ++ enc rs). rewrite <- app_assoc.
    cbn [length]. rewrite Nat.add_succ_l. rewrite parse_step.
    rewrite parse_record_ok; [|assumption|exact (mfg_ok_app_l _ _ HM)]. cbn [gbind].
    specialize (IH (rs0 ++ [(t,d)]) (pre ++ enc_rec (t,d)) tail f HL2 HM).
    rewrite <- !app_assoc in IH. rewrite IH. rewrite <- app_assoc. reflexivity.
Qed.

Lemma mfg_ok_dec : forall rs, {mfg_ok rs} + {~ mfg_ok rs}.
Proof.
  intro rs. unfold mfg_ok. destruct (nonempty_mfg rs) as [|d ds].
  - left. intros d ds H. discriminate.
  - destruct (Forall_dec (fun x : bytes => (2 <= length x)%nat) (fun x => le_dec 2 (length x)) ds) as [H|H].
    + left. intros d' ds' E. inversion E; subst. assumption.
    + right. intro HH. apply H. now apply (HH d ds).
Qed.

Lemma mfg_break : forall rs0 t d, mfg_ok rs0 -> ~ mfg_ok (rs0 ++ [(t,d)]) ->
  t = 255 /\ length d = 1%nat /\ nonempty_mfg rs0 <> [].
Proof.
  intros rs0 t d H0 H1.
  unfold mfg_ok in *. rewrite nonempty_mfg_app in H1.
  unfold nonempty_mfg at 1 in H1. 
  assert (E : nonempty_mfg [(t,d)] = if is_mfg t then (match d with [] => [] | _ => [d] end) else []).
  { unfold nonempty_mfg. simpl. rewrite app_nil_r. destruct d; reflexivity. }
  rewrite E in H1. fold (nonempty_mfg rs0) in H1.
  unfold is_mfg in *. destruct (Z.eqb_spec t 255) as [->|Hn].
  - destruct d as [|x [|y d]].
    + exfalso. apply H1. rewrite app_nil_r. exact H0.
    + split; [reflexivity|]. split; [reflexivity|]. intro EN. apply H1. rewrite EN. intros d ds Hd. inversion Hd; subst. constructor.
    + exfalso. apply H1. destruct (nonempty_mfg rs0) as [|z ds] eqn:EN.
      * intros d' ds' Hd. inversion Hd; subst. constructor.
      * intros d' ds' Hd. inversion Hd; subst. apply Forall_app. split; [now apply (H0 d' ds)|].
        constructor; [simpl; lia|constructor].
  - exfalso. apply H1. rewrite app_nil_r. exact H0.
Qed.

Lemma parse_recs_panic : forall rs rs0 pre tail f,
  Forall legal_payload rs -> mfg_ok rs0 -> ~ mfg_ok (rs0 ++ rs) ->
  parse_loop (pre ++ enc rs ++ tail) (length pre) (expmap rs0) (length rs + f) = Panic.
Proof.
  induction rs as [|r rs IH]; intros rs0 pre tail f HL H0 HM.
  - rewrite app_nil_r in HM. contradiction.
  - destruct r as [t d]. inversion HL as [|? ? HL1 HL2]; subst.
    assert (EA : rs0 ++ (t,d) :: rs = (rs0 ++ [(t,d)]) ++ rs) by (rewrite <- app_assoc; reflexivity).
    rewrite EA in *. clear EA.
    change (enc ((t,d) :: rs)) with (enc_rec (t,d) ++ enc rs). rewrite <- app_assoc.
    cbn [length]. rewrite Nat.add_succ_l. rewrite parse_step.
    destruct (mfg_ok_dec (rs0 ++ [(t,d)])) as [Hok|Hbad].
    + rewrite parse_record_ok by assumption. cbn [gbind].
      specialize (IH (rs0 ++ [(t,d)]) (pre ++ enc_rec (t,d)) tail f HL2 Hok HM).
      rewrite <- !app_assoc in IH. exact IH.
    + destruct (mfg_break rs0 t d H0 Hbad) as (-> & Hl & Hn).
      rewrite parse_record_panic by assumption. reflexivity.
Qed.

Lemma parse_tail_end : forall pre tail m f, tail_end tail ->
  parse_loop (pre ++ tail) (length pre) m (S f) = Ret (m, None).
Proof.
  intros pre tail m f H. cbn [parse_loop].
  destruct (Nat.ltb (length pre + 1) (length (pre ++ tail))) eqn:E; [|reflexivity].
  rewrite app_length in E. destruct H; simpl in E; lia.
Qed.

Lemma parse_tail_malformed : forall pre tail m f, tail_malformed tail ->
  exists e, parse_loop (pre ++ tail) (length pre) m (S f) = Ret (m, Some e).
Proof.
  intros pre tail m f H. destruct H as [t r|n t r Hn Hr|[t d] rest Hl].
  - cbn [parse_loop]. destruct (Nat.ltb _ _) eqn:E; [|rewrite app_length in E; simpl in E; lia].
    unfold gidx. rewrite !nth_error_app2 by lia. rewrite Nat.sub_diag.
    replace (length pre + 1 - length pre)%nat with 1%nat by lia. cbn. eauto.
  - cbn [parse_loop]. destruct (Nat.ltb _ _) eqn:E; [|rewrite app_length in E; simpl in E; lia].
    unfold gidx. rewrite !nth_error_app2 by lia. rewrite Nat.sub_diag.
    replace (length pre + 1 - length pre)%nat with 1%nat by lia. cbn [nth_error gbind].
    destruct (Nat.ltb (Z.to_nat n) 1) eqn:E1; [eauto|].
    destruct (Nat.leb (length (pre ++ n :: t :: r)) (length pre + Z.to_nat n)) eqn:E2; [eauto|].
    rewrite app_length in E2. simpl in E2. lia.
  - rewrite parse_step. destruct (parse_record_err m t d Hl) as [e He]. rewrite He. cbn [gbind]. eauto.
Qed.

(** Parse on a record sequence followed by an ending *)
Lemma Parse_ok : forall rs tail, enc rs ++ tail <> [] -> Forall legal_payload rs -> mfg_ok rs -> tail_end tail ->
  Parse (enc rs ++ tail) = Ret (expmap rs, None).
Proof.
  intros rs tail Hne HL HM HT. unfold Parse.
  assert (HN : Nat.eqb (length (enc rs ++ tail)) 0 = false) by (destruct (enc rs ++ tail); [congruence|reflexivity]).
  rewrite HN.
  assert (Hf := enc_length_ge rs).
  replace (S (length (enc rs ++ tail))) with (length rs + S (length (enc rs ++ tail) - length rs))%nat
    by (rewrite app_length; lia).
  change (enc rs ++ tail) with ([] ++ enc rs ++ tail) at 1. change 0%nat with (length (@nil Z)).
  change empty_map with (expmap []).
  rewrite (parse_recs rs [] [] tail) by assumption. cbn [app].
  now rewrite parse_tail_end.
Qed.

Lemma Parse_malformed : forall rs tail, Forall legal_payload rs -> mfg_ok rs -> tail_malformed tail ->
  exists e, Parse (enc rs ++ tail) = Ret (expmap rs, Some e).
Proof.
  intros rs tail HL HM HT. unfold Parse.
  assert (HN : Nat.eqb (length (enc rs ++ tail)) 0 = false).
  { rewrite app_length. destruct HT; cbn [length]; rewrite ?app_length, ?enc_rec_length; lia. }
  rewrite HN.
  assert (Hf := enc_length_ge rs).
  replace (S (length (enc rs ++ tail))) with (length rs + S (length (enc rs ++ tail) - length rs))%nat
    by (rewrite app_length; lia).
  change (enc rs ++ tail) with ([] ++ enc rs ++ tail) at 1. change 0%nat with (length (@nil Z)).
  change empty_map with (expmap []).
  rewrite (parse_recs rs [] [] tail) by assumption. cbn [app].
  now apply parse_tail_malformed.
Qed.

Lemma Parse_panic : forall rs tail, Forall legal_payload rs -> ~ mfg_ok rs -> Parse (enc rs ++ tail) = Panic.
Proof.
  intros rs tail HL HM. unfold Parse.
  assert (Hf := enc_length_ge rs).
  assert (HR : rs <> []) by (intros ->; apply HM; intros d ds H; discriminate).
  assert (HN : Nat.eqb (length (enc rs ++ tail)) 0 = false).
  { rewrite app_length. assert (0 < length rs)%nat by (destruct rs; [congruence|simpl; lia]). lia. }
  rewrite HN.
  replace (S (length (enc rs ++ tail))) with (length rs + S (length (enc rs ++ tail) - length rs))%nat
    by (rewrite app_length; lia).
  change (enc rs ++ tail) with ([] ++ enc rs ++ tail) at 1. change 0%nat with (length (@nil Z)).
  change empty_map with (expmap []).
  apply parse_recs_panic; [assumption| |assumption]. intros d ds H. discriminate.
Qed.

Lemma legal_dec : forall r, {legal_payload r} + {~ legal_payload r}.
Proof.
  intros [t d]. unfold legal_payload.
  destruct (list_eq_dec Z.eq_dec d []) as [E|Hd]; [left; now left|].
  assert (D : forall (o : option nat) (P : nat -> Prop), (forall n, {P n} + {~ P n}) ->
     {forall n, o = Some n -> P n} + {~ forall n, o = Some n -> P n}).
  { intros [n|] P HP; [|left; intros; discriminate]. destruct (HP n) as [H|H].
    - left. intros n' E. inversion E; subst. assumption.
    - right. intro HH. apply H. now apply HH. }
  destruct (D (services_size t) (fun n => (length d mod n = 0)%nat) (fun n => Nat.eq_dec _ _)) as [H1|H1]; [|right; intros [X|X]; tauto].
  destruct (D (solicited_size t) (fun n => (length d mod n = 0)%nat) (fun n => Nat.eq_dec _ _)) as [H2|H2]; [|right; intros [X|X]; tauto].
  destruct (D (svcdata_size t) (fun n => (n <= length d)%nat) (fun n => le_dec _ _)) as [H3|H3]; [|right; intros [X|X]; tauto].
  left. right. tauto.
Qed.

(** every byte string is a sequence of complete legal records followed by an ending *)
Ltac triv4 := split; [reflexivity|split; [constructor|split; [constructor|]]].
Lemma decompose : forall n pdu, (length pdu <= n)%nat -> all_bytes pdu ->
  exists rs tail, pdu = enc rs ++ tail /\ Forall legal_payload rs /\ Forall rec_fits rs /\
    (tail_end tail \/ tail_malformed tail).
Proof.
  induction n as [|n IH]; intros pdu Hn HB.
  - destruct pdu; [|simpl in Hn; lia]. exists [], []. triv4. left. constructor.
  - destruct pdu as [|l [|t r]].
    + exists [], []. triv4. left. constructor.
    + exists [], [l]. triv4. left. constructor.
    + inversion HB as [|? ? Hl HB1]; subst. inversion HB1 as [|? ? Ht HB2]; subst. unfold is_byte in Hl.
      destruct (Z.eq_dec l 0) as [->|Hl0].
      { exists [], (0 :: t :: r). triv4. right. constructor. }
      destruct (Z_lt_le_dec (Z.of_nat (length r)) (l - 1)) as [Hov|Hfit].
      { exists [], (l :: t :: r). triv4. right. constructor; lia. }
      set (d := firstn (Z.to_nat (l-1)) r). set (rest := skipn (Z.to_nat (l-1)) r).
      assert (Hd : length d = Z.to_nat (l-1)) by (unfold d; rewrite firstn_length; lia).
      assert (Hr : r = d ++ rest) by (unfold d, rest; now rewrite firstn_skipn).
      assert (He : l :: t :: r = enc_rec (t,d) ++ rest).
      { unfold enc_rec. cbn [fst snd app]. rewrite Hd. rewrite Hr at 1. f_equal. lia. }
      destruct (legal_dec (t,d)) as [HL|HL].
      * destruct (IH rest) as (rs & tail & E & H1 & H2 & H3).
        -- unfold rest. rewrite skipn_length. simpl in Hn. lia.
        -- unfold rest. now apply Forall_skipn.
        -- exists ((t,d) :: rs), tail. repeat split.
           ++ rewrite He, E. change (enc ((t,d)::rs)) with (enc_rec (t,d) ++ enc rs). now rewrite app_assoc.
           ++ now constructor.
           ++ constructor; [|assumption]. unfold rec_fits. simpl. lia.
           ++ assumption.
      * exists [], (enc_rec (t,d) ++ rest). rewrite He. triv4. right. now constructor.
Qed.

(** exact characterisation of the crashing inputs *)
Lemma mfg_not_ok_split : forall rs, ~ mfg_ok rs ->
  exists rs1 d rs2, rs = rs1 ++ (255, [d]) :: rs2 /\ nonempty_mfg rs1 <> [].
Proof.
  intro rs. induction rs as [|r rs IH] using rev_ind; intro H.
  - exfalso. apply H. intros d ds E. discriminate.
  - destruct (mfg_ok_dec rs) as [Hok|Hbad].
    + destruct r as [t d]. destruct (mfg_break rs t d Hok H) as (-> & Hl & Hn).
      destruct d as [|x [|? ?]]; try discriminate. exists rs, x, []. split; [reflexivity|assumption].
    + destruct (IH Hbad) as (rs1 & d & rs2 & E & Hn). exists rs1, d, (rs2 ++ [r]).
      split; [rewrite E, <- app_assoc; reflexivity|assumption].
Qed.

Lemma mfg_split_not_ok : forall rs1 d rs2, nonempty_mfg rs1 <> [] -> ~ mfg_ok (rs1 ++ (255,[d]) :: rs2).
Proof.
  intros rs1 d rs2 H HM. unfold mfg_ok in HM. rewrite nonempty_mfg_app in HM.
  destruct (nonempty_mfg rs1) as [|x ds]; [congruence|].
  specialize (HM x (ds ++ nonempty_mfg ((255,[d])::rs2)) eq_refl). apply Forall_app in HM. destruct HM as [_ HM].
  change (nonempty_mfg ((255,[d])::rs2)) with ([d] :: nonempty_mfg rs2) in HM.
  inversion HM as [|? ? HH _]; subst. simpl in HH. lia.
Qed.

Lemma Parse_panic_iff : forall pdu, all_bytes pdu ->
  (Parse pdu = Panic <->
   exists rs d rest, pdu = enc rs ++ enc_rec (255, [d]) ++ rest /\ Forall legal_payload rs /\ nonempty_mfg rs <> []).
Proof.
  intros pdu HB. split.
  - intro HP. destruct (decompose (length pdu) pdu (le_n _) HB) as (rs & tail & E & H1 & H2 & H3).
    destruct (mfg_ok_dec rs) as [Hok|Hbad].
    + exfalso. destruct H3 as [H3|H3].
      * destruct pdu as [|x pdu']; [discriminate HP|].
        rewrite E in HP. rewrite Parse_ok in HP; try assumption; [discriminate|]. rewrite <- E. discriminate.
      * destruct (Parse_malformed rs tail H1 Hok H3) as [e He]. rewrite E, He in HP. discriminate.
    + destruct (mfg_not_ok_split rs Hbad) as (rs1 & d & rs2 & Er & Hn).
      exists rs1, d, (enc rs2 ++ tail). repeat split.
      * rewrite E, Er, enc_app. change (enc ((255,[d])::rs2)) with (enc_rec (255,[d]) ++ enc rs2).
        now rewrite <- !app_assoc.
      * rewrite Er in H1. apply Forall_app in H1. tauto.
      * assumption.
  - intros (rs & d & rest & E & H1 & Hn).
    assert (E' : pdu = enc (rs ++ [(255,[d])]) ++ rest).
    { rewrite E, enc_app. change (enc [(255,[d])]) with (enc_rec (255,[d]) ++ []). rewrite app_nil_r. now rewrite <- app_assoc. }
    rewrite E'. apply Parse_panic.
    + apply Forall_app. split; [assumption|]. constructor; [|constructor].
      right. repeat split; intros n Hx; discriminate.
    + now apply mfg_split_not_ok.
Qed.

(** no two non-empty manufacturer records => no panic; more usable corollary *)
Lemma Parse_result : forall pdu, all_bytes pdu -> pdu <> [] ->
  Parse pdu = Panic \/
  exists rs tail, pdu = enc rs ++ tail /\ Forall legal_payload rs /\ mfg_ok rs /\
    ((tail_end tail /\ Parse pdu = Ret (expmap rs, None)) \/
     (tail_malformed tail /\ exists e, Parse pdu = Ret (expmap rs, Some e))).
Proof.
  intros pdu HB Hne. destruct (decompose (length pdu) pdu (le_n _) HB) as (rs & tail & E & H1 & H2 & H3).
  destruct (mfg_ok_dec rs) as [Hok|Hbad].
  - right. exists rs, tail. repeat split; try assumption. destruct H3 as [H3|H3].
    + left. split; [assumption|]. rewrite E. apply Parse_ok; try assumption. now rewrite <- E.
    + right. split; [assumption|]. rewrite E. now apply Parse_malformed.
  - left. rewrite E. now apply Parse_panic.
Qed.

(** ---------- what the accessors return ---------- *)
Lemma acc_services : forall rs, pk_uuids (expmap rs) = exp_services rs.
Proof. intro rs. unfold pk_uuids, expmap. cbn [mget m_services]. destruct (exp_services rs); reflexivity. Qed.
Lemma acc_sol : forall rs, pk_sol (expmap rs) = exp_solicited rs.
Proof. intro rs. unfold pk_sol, expmap. cbn [mget m_solicited]. destruct (exp_solicited rs); reflexivity. Qed.
Lemma acc_name : forall rs, pk_local_name (expmap rs) = exp_bytes is_name rs.
Proof. intro rs. unfold pk_local_name, expmap. cbn [mget m_name]. destruct (exp_bytes is_name rs); reflexivity. Qed.
Lemma acc_mfg : forall rs, pk_mfg (expmap rs) = exp_mfg rs.
Proof. intro rs. unfold pk_mfg, expmap. cbn [mget m_mfg]. destruct (exp_mfg rs); reflexivity. Qed.
Lemma acc_flags : forall rs, pk_flags (expmap rs) = Ret (hd_error (exp_bytes is_flags rs)).
Proof. intro rs. unfold pk_flags, expmap. cbn [mget m_flags]. destruct (exp_bytes is_flags rs); reflexivity. Qed.
Lemma acc_tx : forall rs, pk_tx_power (expmap rs) = Ret (option_map int8 (hd_error (exp_bytes is_txpwr rs))).
Proof. intro rs. unfold pk_tx_power, expmap. cbn [mget m_txpwr]. destruct (exp_bytes is_txpwr rs); reflexivity. Qed.

(** service data *)
Lemma hex_encode_inj : forall a b, all_bytes a -> all_bytes b -> hex_encode a = hex_encode b -> a = b.
Proof.
  intros a b Ha Hb H. assert (H1 := hex_decode_text _ _ (hex_encode_text a Ha)).
  rewrite H in H1. rewrite (hex_decode_text _ _ (hex_encode_text b Hb)) in H1. congruence.
Qed.

Fixpoint svc_lookup (m : list (bytes * list bytes)) (k : bytes) : list bytes :=
  match m with [] => [] | (k', l) :: r => if beq_bytes k' k then l else svc_lookup r k end.
Lemma svc_lookup_append : forall m su sd k,
  svc_lookup (svc_append m su sd) k = svc_lookup m k ++ (if beq_bytes su k then [sd] else []).
Proof.
  induction m as [|[k' l] m IH]; intros su sd k; cbn [svc_append svc_lookup].
  - destruct (beq_bytes su k); reflexivity.
  - destruct (beq_bytes k' su) eqn:E; cbn [svc_lookup].
    + apply beq_bytes_eq in E. subst k'. destruct (beq_bytes su k); [reflexivity|now rewrite app_nil_r].
    + destruct (beq_bytes k' k) eqn:E2.
      * apply beq_bytes_eq in E2. subst k'. apply beq_bytes_neq in E.
        assert (beq_bytes su k = false) as -> by (apply beq_bytes_neq; congruence). now rewrite app_nil_r.
      * apply IH.
Qed.
Lemma svc_keys_append : forall m su sd, NoDup (map fst m) -> NoDup (map fst (svc_append m su sd)) /\
   (forall k, In k (map fst (svc_append m su sd)) -> k = su \/ In k (map fst m)).
Proof.
  induction m as [|[k' l] m IH]; intros su sd H; cbn [svc_append map fst] in *.
  - split; [repeat constructor; auto|]. intros k [<-|[]]. now left.
  - destruct (beq_bytes k' su) eqn:E.
    + cbn [map fst]. split; [assumption|]. intros k Hk. now right.
    + cbn [map fst]. inversion H as [|? ? Hn Hd]; subst. destruct (IH su sd Hd) as [I1 I2]. split.
      * constructor; [|assumption]. intro Hin. destruct (I2 _ Hin) as [Hs|Hin2]; [|contradiction].
        apply beq_bytes_neq in E. congruence.
      * intros k [<-|Hk]; [right; now left|]. destruct (I2 _ Hk) as [->|Hk2]; [now left|right; now right].
Qed.

Lemma data_of_app : forall u a b, data_of u (a ++ b) = data_of u a ++ data_of u b.
Proof. intros. unfold data_of. rewrite filter_app. apply map_app. Qed.

Lemma svc_fold_inv : forall l, Forall (fun p => all_bytes (fst p)) l ->
  NoDup (map fst (svc_fold l)) /\
  (forall k, In k (map fst (svc_fold l)) -> exists p, In p l /\ k = hex_encode (rev (fst p))) /\
  (forall u, all_bytes u -> svc_lookup (svc_fold l) (hex_encode (rev u)) = data_of u l).
Proof.
  intro l. induction l as [|p l IH] using rev_ind; intro H.
  - split; [constructor|]. split; [intros k []|reflexivity].
  - apply Forall_app in H. destruct H as [H1 H2]. inversion H2 as [|? ? Hp _]; subst.
    destruct (IH H1) as (I1 & I2 & I3). unfold svc_fold in *. rewrite fold_left_app. cbn [fold_left].
    set (m := fold_left _ l []) in *.
    destruct (svc_keys_append m (hex_encode (rev (fst p))) (snd p) I1) as [K1 K2].
    split; [assumption|]. split.
    + intros k Hk. destruct (K2 k Hk) as [->|Hk2].
      * exists p. split; [apply in_or_app; right; now left|reflexivity].
      * destruct (I2 k Hk2) as (q & Hq & ->). exists q. split; [apply in_or_app; now left|reflexivity].
    + intros u Hu. rewrite svc_lookup_append, (I3 u Hu), data_of_app. f_equal.
      unfold data_of. cbn [filter].
      destruct (beq_bytes (fst p) u) eqn:E.
      * apply beq_bytes_eq in E. subst u. now rewrite beq_bytes_refl.
      * assert (beq_bytes (hex_encode (rev (fst p))) (hex_encode (rev u)) = false) as ->; [|reflexivity].
        apply beq_bytes_neq. intro HE. apply beq_bytes_neq in E. apply E.
        apply hex_encode_inj in HE; try (now apply all_bytes_rev).
        apply (f_equal (@rev Z)) in HE. now rewrite !rev_involutive in HE.
Qed.

Lemma uuid_parse_hex : forall u, all_bytes u ->
  uuid_parse (hex_encode (rev u)) = Ret (if (Nat.eqb (length u) 2 || Nat.eqb (length u) 16)%bool then Some u else None).
Proof.
  intros u Hu. unfold uuid_parse.
  rewrite (hex_encode_no ch_dash) by (try (now apply all_bytes_rev); unfold ch_dash; lia).
  rewrite (hex_decode_text _ _ (hex_encode_text (rev u) (all_bytes_rev u Hu))). cbn [negb].
  rewrite rev_length. unfold len_ok.
  destruct (Nat.eqb (length u) 2 || Nat.eqb (length u) 16)%bool; cbn [negb]; [|reflexivity].
  rewrite Reverse_rev. cbn [gbind]. now rewrite rev_involutive.
Qed.

Lemma svc_list_spec : forall m,
  (forall k, In k (map fst m) -> exists u, all_bytes u /\ k = hex_encode (rev u)) -> NoDup (map fst m) ->
  exists out, svc_list m = Ret out /\
   (forall u, all_bytes u -> data_of u out = if ok_len u then svc_lookup m (hex_encode (rev u)) else []) /\
   (forall p, In p out -> all_bytes (fst p) /\ In (hex_encode (rev (fst p))) (map fst m)).
Proof.
  induction m as [|[k l] m IH]; intros HK HN.
  - exists []. split; [reflexivity|]. split; [intros u _; unfold data_of; simpl; destruct (ok_len u); reflexivity|intros p []].
  - cbn [map] in HN. inversion HN as [|? ? Hn1 Hn2]; subst.
    destruct IH as (out & E & H1 & H2); [intros k' Hk'; apply HK; right; exact Hk'|assumption|].
    destruct (HK k (or_introl eq_refl)) as (u0 & Hu0 & ->).
    cbn [svc_list]. rewrite uuid_parse_hex by assumption. cbn [gbind]. rewrite E. cbn [gbind].
    fold (ok_len u0). destruct (ok_len u0) eqn:EL.
    + exists (map (fun d => (u0, d)) l ++ out). split; [reflexivity|]. split.
      * intros u Hu. rewrite data_of_app. rewrite (H1 u Hu). cbn [svc_lookup].
        destruct (beq_bytes (hex_encode (rev u0)) (hex_encode (rev u))) eqn:EB.
        -- apply beq_bytes_eq in EB. apply hex_encode_inj in EB; try (now apply all_bytes_rev).
           apply (f_equal (@rev Z)) in EB. rewrite !rev_involutive in EB. subst u0. rewrite EL.
           assert (HZ : svc_lookup m (hex_encode (rev u)) = []).
           { cbn [map fst] in Hn1. clear -Hn1. induction m as [|[k' l'] m IH]; [reflexivity|]. cbn [svc_lookup].
             cbn [map fst] in Hn1. destruct (beq_bytes k' (hex_encode (rev u))) eqn:E.
             - apply beq_bytes_eq in E. exfalso. apply Hn1. now left.
             - apply IH. intro Hin. apply Hn1. now right. }
           rewrite HZ, app_nil_r. unfold data_of. clear. induction l as [|d l IH]; [reflexivity|].
           cbn [map filter fst]. rewrite beq_bytes_refl. cbn [map snd]. now rewrite IH.
        -- assert (HZ : data_of u (map (fun d => (u0,d)) l) = []).
           { apply beq_bytes_neq in EB. assert (Hne : u0 <> u) by (intros ->; congruence).
             apply beq_bytes_neq in Hne. unfold data_of. clear -Hne. induction l as [|d l IH]; [reflexivity|].
             cbn [map filter fst]. rewrite Hne. exact IH. }
           rewrite HZ. reflexivity.
      * intros p Hp. apply in_app_or in Hp. destruct Hp as [Hp|Hp].
        -- apply in_map_iff in Hp. destruct Hp as (d & <- & _). cbn [fst map]. split; [assumption|now left].
        -- destruct (H2 p Hp) as [A B]. split; [assumption|now right].
    + exists out. split; [reflexivity|]. split.
      * intros u Hu. rewrite (H1 u Hu). cbn [svc_lookup]. destruct (ok_len u) eqn:EU; [|reflexivity].
        destruct (beq_bytes (hex_encode (rev u0)) (hex_encode (rev u))) eqn:EB; [|reflexivity].
        apply beq_bytes_eq in EB. apply hex_encode_inj in EB; try (now apply all_bytes_rev).
        apply (f_equal (@rev Z)) in EB. rewrite !rev_involutive in EB. congruence.
      * intros p Hp. destruct (H2 p Hp) as [A B]. split; [assumption|now right].
Qed.

Lemma acc_service_data : forall rs, Forall (fun r => all_bytes (snd r)) rs ->
  exists out, pk_service_data (expmap rs) = Ret out /\
   (forall u, all_bytes u -> data_of u out = if ok_len u then data_of u (exp_svc rs) else []) /\
   (forall p, In p out -> ok_len (fst p) = true).
Proof.
  intros rs HB. unfold pk_service_data, expmap. cbn [mget m_svcdata].
  assert (HA : Forall (fun p => all_bytes (fst p)) (exp_svc rs)).
  { apply Forall_forall. intros p Hp. unfold exp_svc in Hp. apply in_flat_map in Hp. destruct Hp as (r & Hr & Hp).
    rewrite Forall_forall in HB. specialize (HB r Hr).
    destruct (svcdata_size (fst r)) as [n|]; [|destruct Hp]. destruct (snd r) as [|x d]; [destruct Hp|].
    destruct Hp as [<-|[]]. cbn [fst]. now apply Forall_firstn. }
  destruct (exp_svc rs) as [|p l] eqn:E.
  - exists []. split; [reflexivity|]. split; [intros u _; unfold data_of; simpl; destruct (ok_len u); reflexivity|intros p []].
  - unfold os. destruct (svc_fold_inv _ HA) as (I1 & I2 & I3).
    destruct (svc_list_spec (svc_fold (p :: l))) as (out & H1 & H2 & H3).
    + intros k Hk. destruct (I2 k Hk) as (q & Hq & ->). exists (fst q). split; [|reflexivity].
      rewrite Forall_forall in HA. now apply HA.
    + assumption.
    + exists out. split; [exact H1|]. split.
      * intros u Hu. rewrite (H2 u Hu). destruct (ok_len u); [|reflexivity]. now apply I3.
      * intros q Hq. destruct (ok_len (fst q)) eqn:EO; [reflexivity|]. exfalso.
        destruct (H3 q Hq) as [A _]. specialize (H2 (fst q) A). rewrite EO in H2.
        assert (In (snd q) (data_of (fst q) out)).
        { unfold data_of. apply in_map. apply filter_In. split; [assumption|apply beq_bytes_refl]. }
        rewrite H2 in H. destruct H.
Qed.
