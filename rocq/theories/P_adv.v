Require Import Verif.Base Verif.M_uuid Verif.S_uuid Verif.P_uuid Verif.M_adv Verif.S_adv.

(** ---------- decoding of record lists ---------- *)
Definition ob (b : bytes) : option advval := match b with [] => None | _ => Some (VBytes b) end.
Definition ol (l : list bytes) : option advval := match l with [] => None | _ => Some (VUuids l) end.
Definition svc_fold (l : list (bytes * bytes)) : list (bytes * list bytes) :=
  fold_left (fun acc p => svc_append acc (hex_encode (rev (fst p))) (snd p)) l [].
Definition os (l : list (bytes * bytes)) : option advval := match l with [] => None | _ => Some (VSvc (svc_fold l)) end.
Definition expmap (rs : list rec) : advmap :=
  mkMap (ob (exp_bytes is_flags rs)) (ol (exp_services rs)) (ol (exp_solicited rs)) (os (exp_svc rs))
        (ob (exp_bytes is_name rs)) (ob (exp_bytes is_txpwr rs)) (ob (exp_mfg rs)) None.

Lemma decode_map_class : forall t, decode_map t =
  match services_size t with Some n => Some (mkRec n n 0 KServices) | None =>
  match solicited_size t with Some n => Some (mkRec n n 0 KSolicited) | None =>
  match svcdata_size t with Some n => Some (mkRec 0 n n KServiceData) | None =>
  if is_name t then Some (mkRec 0 1 0 KName) else if is_txpwr t then Some (mkRec 0 1 0 KTxpwr)
  else if is_mfg t then Some (mkRec 0 1 0 KMfg) else if is_flags t then Some (mkRec 0 1 0 KFlags) else None end end end.
Proof.
  intro t.
  unfold decode_map.
  repeat match goal with
  | |- context [if t =? ?k then _ else _] =>
      destruct (Z.eqb_spec t k) as [E|?]; [subst t; reflexivity|]
  end.
  unfold services_size, solicited_size, svcdata_size, is_name, is_txpwr, is_mfg, is_flags.
  repeat match goal with
  | H : t <> ?k |- context [t =? ?k] => rewrite (proj2 (Z.eqb_neq t k) H)
  end. reflexivity.
Qed.

Lemma array_loop_chunks : forall size b fuel j pre,
  (0 < size)%nat -> length pre = j -> (length b mod size = 0)%nat -> (length b <= fuel)%nat ->
  array_loop size (pre ++ b) j fuel = Ret (chunks size b fuel).
Proof.
  intros size b fuel. revert b. induction fuel as [|f IH]; intros b j pre Hs Hp Hm Hf.
  - cbn. reflexivity.
  - cbn [array_loop]. destruct b as [|x b'] eqn:Eb.
    + rewrite app_nil_r. destruct (Nat.ltb j (length pre)) eqn:E; [lia|]. reflexivity.
    + rewrite <- Eb in *.
      assert (Hl : (0 < length b)%nat) by (subst b; simpl; lia).
      assert (Hsz : (size <= length b)%nat).
      { destruct (Nat.le_gt_cases size (length b)) as [H|H]; [assumption|].
        rewrite Nat.mod_small in Hm by assumption. lia. }
      assert (E : Nat.ltb j (length (pre ++ b)) = true) by (rewrite app_length; lia).
      rewrite E.
      rewrite gslice_ok by (rewrite ?app_length; lia).
      cbn [gbind].
      replace (j + size - j)%nat with size by lia.
      rewrite <- Hp, skipn_app_exact.
      assert (Hb : pre ++ b = (pre ++ firstn size b) ++ skipn size b)
        by (rewrite <- app_assoc, firstn_skipn; reflexivity).
      rewrite Hb. rewrite (IH (skipn size b)).
      * cbn [gbind]. subst b. reflexivity.
      * assumption.
      * rewrite app_length, firstn_length. lia.
      * rewrite skipn_length.
        replace (length b) with (length b - size + 1 * size)%nat in Hm by lia.
        rewrite Nat.mod_add in Hm by lia. exact Hm.
      * rewrite skipn_length. lia.
Qed.

Lemma get_array_ok : forall size b, (0 < size)%nat -> b <> [] -> (length b mod size = 0)%nat ->
  get_array size b = Ret (Some (chunks size b (length b))).
Proof.
  intros size b Hs Hb Hm. unfold get_array.
  assert (Hl : (0 < length b)%nat) by (destruct b; [congruence|simpl; lia]).
  destruct (Nat.eqb size 0) eqn:E1; [lia|]. destruct (Nat.eqb (length b) 0) eqn:E2; [lia|].
  assert (Hsz : (size <= length b)%nat).
  { destruct (Nat.le_gt_cases size (length b)) as [H|H]; [assumption|].
    rewrite Nat.mod_small in Hm by assumption. lia. }
  assert (Hd : (1 <= length b / size)%nat) by (apply Nat.div_le_lower_bound; lia).
  destruct (negb (Nat.eqb (length b mod size) 0) || Nat.eqb (length b / size) 0) eqn:E3; [lia|].
  change b with ([] ++ b) at 1. rewrite array_loop_chunks by (try assumption; auto). reflexivity.
Qed.

Lemma get_array_err : forall size b, (length b mod size <> 0)%nat -> get_array size b = Ret None.
Proof.
  intros size b Hm. unfold get_array.
  destruct (Nat.eqb size 0) eqn:E1; [reflexivity|]. destruct (Nat.eqb (length b) 0) eqn:E2; [reflexivity|].
  destruct (Nat.eqb_spec (length b mod size) 0); [contradiction|]. reflexivity.
Qed.

Lemma exp_list_app : forall s a b, exp_list s (a ++ b) = exp_list s a ++ exp_list s b.
Proof. intros. unfold exp_list. apply flat_map_app. Qed.
Lemma exp_bytes_app : forall s a b, exp_bytes s (a ++ b) = exp_bytes s a ++ exp_bytes s b.
Proof. intros. unfold exp_bytes. apply flat_map_app. Qed.
Lemma exp_svc_app : forall a b, exp_svc (a ++ b) = exp_svc a ++ exp_svc b.
Proof. intros. unfold exp_svc. apply flat_map_app. Qed.
Lemma nonempty_mfg_app : forall a b, nonempty_mfg (a ++ b) = nonempty_mfg a ++ nonempty_mfg b.
Proof. intros. unfold nonempty_mfg. apply flat_map_app. Qed.

Lemma chunks_nonempty : forall n b, b <> [] -> chunks n b (length b) <> [].
Proof. intros n [|x b] H; [congruence|]. simpl. discriminate. Qed.

Lemma ol_app : forall v arr, arr <> [] ->
  (match ol v with Some (VUuids x) => Some (VUuids (x ++ arr)) | _ => Some (VUuids arr) end) = ol (v ++ arr).
Proof. intros v arr H. destruct v as [|x v]; simpl; [destruct arr; [congruence|reflexivity]|reflexivity]. Qed.
Lemma ob_app : forall v d, d <> [] ->
  (match ob v with Some (VBytes x) => Some (VBytes (x ++ d)) | _ => Some (VBytes d) end) = ob (v ++ d).
Proof. intros v arr H. destruct v as [|x v]; simpl; [destruct arr; [congruence|reflexivity]|reflexivity]. Qed.
Lemma os_app : forall l p, os (l ++ [p]) =
  Some (VSvc (svc_append (match os l with Some (VSvc x) => x | _ => [] end) (hex_encode (rev (fst p))) (snd p))).
Proof.
  intros l p. assert (H : os (l ++ [p]) = Some (VSvc (svc_fold (l ++ [p])))) by (destruct l; reflexivity).
  rewrite H. unfold svc_fold at 1. rewrite fold_left_app. simpl. destruct l; reflexivity.
Qed.

Lemma exp_mfg_nonempty : forall rs, nonempty_mfg rs <> [] -> exp_mfg rs <> [].
Proof.
  intros rs H. unfold exp_mfg. destruct (nonempty_mfg rs) as [|d ds] eqn:E; [congruence|].
  assert (Hd : d <> []).
  { assert (Hin : In d (nonempty_mfg rs)) by (rewrite E; now left).
    unfold nonempty_mfg in Hin. apply in_flat_map in Hin. destruct Hin as (r & _ & Hin).
    destruct (is_mfg (fst r)); [|destruct Hin]. destruct (snd r); [destruct Hin|]. destruct Hin as [<-|[]]. discriminate. }
  destruct d; [congruence|discriminate].
Qed.
Lemma exp_mfg_empty : forall rs, nonempty_mfg rs = [] -> exp_mfg rs = [].
Proof. intros rs H. unfold exp_mfg. now rewrite H. Qed.

Lemma exp_bytes_one : forall p t d, exp_bytes p [(t,d)] = if p t then d else [].
Proof. intros. unfold exp_bytes. simpl. destruct (p t); [now rewrite app_nil_r|reflexivity]. Qed.
Lemma exp_list_one : forall s t d, exp_list s [(t,d)] = match s t with Some n => chunks n d (length d) | None => [] end.
Proof. intros. unfold exp_list. simpl. now rewrite app_nil_r. Qed.

(** Facts about the type classes being disjoint *)
Lemma classes : forall t,
  (exists n, services_size t = Some n /\ (0 < n)%nat /\ solicited_size t = None /\ svcdata_size t = None /\ is_name t = false /\ is_txpwr t = false /\ is_mfg t = false /\ is_flags t = false) \/
  (exists n, solicited_size t = Some n /\ (0 < n)%nat /\ services_size t = None /\ svcdata_size t = None /\ is_name t = false /\ is_txpwr t = false /\ is_mfg t = false /\ is_flags t = false) \/
  (exists n, svcdata_size t = Some n /\ (0 < n)%nat /\ services_size t = None /\ solicited_size t = None /\ is_name t = false /\ is_txpwr t = false /\ is_mfg t = false /\ is_flags t = false) \/
  (services_size t = None /\ solicited_size t = None /\ svcdata_size t = None /\
   ((is_name t = true /\ is_txpwr t = false /\ is_mfg t = false /\ is_flags t = false) \/
    (is_name t = false /\ is_txpwr t = true /\ is_mfg t = false /\ is_flags t = false) \/
    (is_name t = false /\ is_txpwr t = false /\ is_mfg t = true /\ is_flags t = false) \/
    (is_name t = false /\ is_txpwr t = false /\ is_mfg t = false /\ is_flags t = true) \/
    (is_name t = false /\ is_txpwr t = false /\ is_mfg t = false /\ is_flags t = false))).
Proof.
  intro t. unfold services_size, solicited_size, svcdata_size, is_name, is_txpwr, is_mfg, is_flags.
  repeat match goal with
  | |- context [t =? ?k] =>
      destruct (Z.eqb_spec t k) as [E|?];
      [subst t; cbn; first [left; eexists; repeat split; lia
            | right; left; eexists; repeat split; lia
            | right; right; left; eexists; repeat split; lia
            | right; right; right; repeat split; tauto ]|]
  end.
  cbn. right; right; right. repeat split; tauto.
Qed.

(** A record with empty data changes nothing. *)
Lemma expmap_empty_rec : forall rs t, expmap (rs ++ [(t, [])]) = expmap rs.
Proof.
  intros rs t. unfold expmap, exp_services, exp_solicited, exp_mfg.
  rewrite !exp_bytes_app, !exp_list_app, exp_svc_app, nonempty_mfg_app, !exp_bytes_one, !exp_list_one.
  assert (H1 : exp_svc [(t, [])] = []) by (unfold exp_svc; simpl; destruct (svcdata_size t); reflexivity).
  assert (H2 : nonempty_mfg [(t, [])] = []) by (unfold nonempty_mfg; simpl; destruct (is_mfg t); reflexivity).
  rewrite H1, H2.
  destruct (is_flags t), (is_name t), (is_txpwr t), (services_size t), (solicited_size t); rewrite !app_nil_r; reflexivity.
Qed.

Ltac simp_classes :=
  repeat match goal with
  | H : services_size _ = _ |- _ => rewrite !H; clear H
  | H : solicited_size _ = _ |- _ => rewrite !H; clear H
  | H : svcdata_size _ = _ |- _ => rewrite !H; clear H
  | H : is_name _ = _ |- _ => rewrite !H; clear H
  | H : is_txpwr _ = _ |- _ => rewrite !H; clear H
  | H : is_mfg _ = _ |- _ => rewrite !H; clear H
  | H : is_flags _ = _ |- _ => rewrite !H; clear H
  end.

Lemma expmap_snoc : forall rs t d, expmap (rs ++ [(t,d)]) =
  mkMap (ob (exp_bytes is_flags rs ++ if is_flags t then d else []))
        (ol (exp_services rs ++ match services_size t with Some n => chunks n d (length d) | None => [] end))
        (ol (exp_solicited rs ++ match solicited_size t with Some n => chunks n d (length d) | None => [] end))
        (os (exp_svc rs ++ match svcdata_size t, d with Some n, _ :: _ => [(firstn n d, skipn n d)] | _, _ => [] end))
        (ob (exp_bytes is_name rs ++ if is_name t then d else []))
        (ob (exp_bytes is_txpwr rs ++ if is_txpwr t then d else []))
        (ob (match nonempty_mfg rs ++ (if is_mfg t then match d with [] => [] | _ => [d] end else []) with
             | [] => [] | x :: ds => x ++ flat_map (skipn 2) ds end)) None.
Proof.
  intros rs t d. unfold expmap, exp_services, exp_solicited, exp_mfg.
  rewrite !exp_bytes_app, !exp_list_app, exp_svc_app, nonempty_mfg_app, !exp_bytes_one, !exp_list_one.
  f_equal.
  - f_equal. f_equal. unfold exp_svc. simpl. destruct (svcdata_size t); [|reflexivity]. destruct d; [reflexivity|]. apply app_nil_r.
  - unfold nonempty_mfg at 2. cbn [flat_map fst snd]. rewrite app_nil_r. destruct d; reflexivity.
Qed.

Lemma parse_record_ok : forall rs t d, legal_payload (t, d) -> mfg_ok (rs ++ [(t,d)]) ->
  parse_record (expmap rs) t d = Ret (expmap (rs ++ [(t,d)]), None).
Proof.
  intros rs t d HL HM. unfold parse_record. rewrite decode_map_class.
  destruct (list_eq_dec Z.eq_dec d []) as [->|Hd].
  { rewrite expmap_empty_rec. simpl.
    destruct (services_size t); [reflexivity|]. destruct (solicited_size t); [reflexivity|].
    destruct (svcdata_size t); [reflexivity|]. destruct (is_name t), (is_txpwr t), (is_mfg t), (is_flags t); reflexivity. }
  destruct HL as [HL|(HL1 & HL2 & HL3)]; [congruence|].
  assert (Hlen : (0 < length d)%nat) by (destruct d; [congruence|simpl; lia]).
  assert (Hmin : forall n, (0 < n)%nat -> (length d mod n = 0)%nat -> Nat.ltb (length d) n = false).
  { intros n Hn Hm. destruct (Nat.ltb (length d) n) eqn:E; [|reflexivity]. rewrite Nat.mod_small in Hm by lia. lia. }
  rewrite expmap_snoc.
  assert (E0 : Nat.eqb (length d) 0 = false) by lia.
  destruct (classes t) as [(n & Hc & Hn & H1 & H2 & H3 & H4 & H5 & H6)|[(n & Hc & Hn & H1 & H2 & H3 & H4 & H5 & H6)|[(n & Hc & Hn & H1 & H2 & H3 & H4 & H5 & H6)|(Ha & Hb & Hc & Hcl)]]].
  - specialize (HL1 n Hc). simp_classes. cbn [arrayElementSz minSz svcDataUUIDSz reckey].
    rewrite E0, (Hmin n Hn HL1). assert (E1 : Nat.ltb 0 n = true) by lia. rewrite E1.
    rewrite (get_array_ok n d Hn Hd HL1). cbn [gbind].
    rewrite <- (ol_app (exp_services rs) (chunks n d (length d)) (chunks_nonempty n d Hd)).
    rewrite !app_nil_r. unfold expmap, exp_mfg. cbn [mget m_services].
    destruct (ol (exp_services rs)) as [[]|]; reflexivity.
  - specialize (HL2 n Hc). simp_classes. cbn [arrayElementSz minSz svcDataUUIDSz reckey].
    rewrite E0, (Hmin n Hn HL2). assert (E1 : Nat.ltb 0 n = true) by lia. rewrite E1.
    rewrite (get_array_ok n d Hn Hd HL2). cbn [gbind].
    rewrite <- (ol_app (exp_solicited rs) (chunks n d (length d)) (chunks_nonempty n d Hd)).
    rewrite !app_nil_r. unfold expmap, exp_mfg. cbn [mget m_solicited].
    destruct (ol (exp_solicited rs)) as [[]|]; reflexivity.
  - specialize (HL3 n Hc). simp_classes. cbn [arrayElementSz minSz svcDataUUIDSz reckey].
    rewrite E0. assert (E1 : Nat.ltb (length d) n = false) by lia. rewrite E1.
    change (Nat.ltb 0 0) with false. cbn match. assert (E2 : Nat.ltb 0 n = true) by lia. rewrite E2.
    rewrite gslice_ok by lia. cbn [gbind]. rewrite Nat.sub_0_r, skipn_O.
    rewrite uuid_string_eq. cbn [gbind]. rewrite gfrom_ok by lia. cbn [gbind].
    destruct d as [|x d']; [congruence|]. rewrite os_app. rewrite !app_nil_r. unfold expmap, exp_mfg. cbn [mget m_svcdata fst snd].
    reflexivity.
  - rewrite !Ha, !Hb, !Hc.
    destruct Hcl as [(H1&H2&H3&H4)|[(H1&H2&H3&H4)|[(H1&H2&H3&H4)|[(H1&H2&H3&H4)|(H1&H2&H3&H4)]]]]; rewrite !H1, ?H2, ?H3, ?H4.
    + cbn [arrayElementSz minSz svcDataUUIDSz reckey]. rewrite E0.
      assert (E1 : Nat.ltb (length d) 1 = false) by lia. rewrite E1. change (Nat.ltb 0 0) with false. cbn match.
      unfold write_or_append. rewrite <- (ob_app (exp_bytes is_name rs) d Hd). rewrite !app_nil_r.
      unfold expmap, exp_mfg. cbn [mget m_name].
      destruct (ob (exp_bytes is_name rs)) as [[]|]; reflexivity.
    + cbn [arrayElementSz minSz svcDataUUIDSz reckey]. rewrite E0.
      assert (E1 : Nat.ltb (length d) 1 = false) by lia. rewrite E1. change (Nat.ltb 0 0) with false. cbn match.
      unfold write_or_append. rewrite <- (ob_app (exp_bytes is_txpwr rs) d Hd). rewrite !app_nil_r.
      unfold expmap, exp_mfg. cbn [mget m_txpwr].
      destruct (ob (exp_bytes is_txpwr rs)) as [[]|]; reflexivity.
    + cbn [arrayElementSz minSz svcDataUUIDSz reckey]. rewrite E0.
      assert (E1 : Nat.ltb (length d) 1 = false) by lia. rewrite E1. change (Nat.ltb 0 0) with false. cbn match.
      unfold write_or_append. rewrite !app_nil_r.
      unfold mfg_ok in HM. rewrite nonempty_mfg_app in HM.
      assert (HM1 : nonempty_mfg [(t,d)] = [d]).
      { unfold nonempty_mfg. simpl. rewrite H3. destruct d; [congruence|reflexivity]. }
      rewrite HM1 in HM.
      assert (Hd1 : match d with [] => [] | _ => [d] end = [d]) by (destruct d; [congruence|reflexivity]).
      rewrite Hd1.
      unfold expmap. cbn [mget m_mfg].
      destruct (nonempty_mfg rs) as [|x ds] eqn:EM.
      * rewrite (exp_mfg_empty rs EM). cbn [ob app flat_map gbind]. rewrite app_nil_r.
        unfold ob at 2. destruct d; [congruence|]. reflexivity.
      * specialize (HM x (ds ++ [d]) eq_refl). apply Forall_app in HM. destruct HM as [_ HM].
        inversion HM as [|? ? HM2 _]; subst.
        assert (HX : exp_mfg rs <> []) by (apply exp_mfg_nonempty; rewrite EM; discriminate).
        assert (Hob : ob (exp_mfg rs) = Some (VBytes (exp_mfg rs))) by (destruct (exp_mfg rs); [congruence|reflexivity]).
        assert (HE : x ++ flat_map (skipn 2) (ds ++ [d]) = exp_mfg rs ++ skipn 2 d).
        { unfold exp_mfg. rewrite EM, flat_map_app. cbn [flat_map]. now rewrite app_nil_r, app_assoc. }
        rewrite Hob. cbn [advkey_eqb]. rewrite gfrom_ok by lia. cbn [gbind].
        change ((x :: ds) ++ [d]) with (x :: (ds ++ [d])). cbv iota beta. rewrite HE.
        assert (Hob2 : ob (exp_mfg rs ++ skipn 2 d) = Some (VBytes (exp_mfg rs ++ skipn 2 d)))
          by (destruct (exp_mfg rs); [congruence|reflexivity]).
        rewrite Hob2. reflexivity.
    + cbn [arrayElementSz minSz svcDataUUIDSz reckey]. rewrite E0.
      assert (E1 : Nat.ltb (length d) 1 = false) by lia. rewrite E1. change (Nat.ltb 0 0) with false. cbn match.
      unfold write_or_append. rewrite <- (ob_app (exp_bytes is_flags rs) d Hd). rewrite !app_nil_r.
      unfold expmap, exp_mfg. cbn [mget m_flags].
      destruct (ob (exp_bytes is_flags rs)) as [[]|]; reflexivity.
    + rewrite !app_nil_r. reflexivity.
Qed.

(** a manufacturer record shorter than two bytes after another one: the slice expression panics *)
Lemma parse_record_panic : forall rs d, nonempty_mfg rs <> [] -> length d = 1%nat ->
  parse_record (expmap rs) 255 d = Panic.
Proof.
  intros rs d H Hl. unfold parse_record. rewrite decode_map_class. cbn [services_size solicited_size svcdata_size].
  cbn -[write_or_append expmap]. rewrite Hl. cbn -[write_or_append expmap].
  unfold write_or_append. unfold expmap. cbn [mget m_mfg].
  assert (HX := exp_mfg_nonempty rs H).
  destruct (exp_mfg rs); [congruence|]. cbn [ob advkey_eqb].
  unfold gfrom. rewrite Hl. reflexivity.
Qed.

(** payloads of illegal length give an error and leave the map alone *)
Lemma parse_record_err : forall m t d, ~ legal_payload (t, d) -> exists e, parse_record m t d = Ret (m, Some e).
Proof.
  intros m t d H. unfold parse_record. rewrite decode_map_class. unfold legal_payload in H.
  assert (Hd : d <> []) by (intros ->; apply H; now left).
  assert (E0 : Nat.eqb (length d) 0 = false) by (destruct d; [congruence|reflexivity]).
  destruct (classes t) as [(n & Hc & Hn & H1 & H2 & H3 & H4 & H5 & H6)|[(n & Hc & Hn & H1 & H2 & H3 & H4 & H5 & H6)|[(n & Hc & Hn & H1 & H2 & H3 & H4 & H5 & H6)|(Ha & Hb & Hc & Hcl)]]].
  - rewrite Hc. cbn [arrayElementSz minSz svcDataUUIDSz reckey]. rewrite E0.
    destruct (Nat.ltb (length d) n) eqn:E1; [eauto|]. assert (E2 : Nat.ltb 0 n = true) by lia. rewrite E2.
    rewrite get_array_err; [cbn [gbind]; eauto|]. intro Hm. apply H. right. rewrite Hc, H1, H2.
    repeat split; intros n' Hn'; inversion Hn'; subst; assumption.
  - rewrite H1, Hc. cbn [arrayElementSz minSz svcDataUUIDSz reckey]. rewrite E0.
    destruct (Nat.ltb (length d) n) eqn:E1; [eauto|]. assert (E2 : Nat.ltb 0 n = true) by lia. rewrite E2.
    rewrite get_array_err; [cbn [gbind]; eauto|]. intro Hm. apply H. right. rewrite Hc, H1, H2.
    repeat split; intros n' Hn'; inversion Hn'; subst; assumption.
  - rewrite H1, H2, Hc. cbn [arrayElementSz minSz svcDataUUIDSz reckey]. rewrite E0.
    destruct (Nat.ltb (length d) n) eqn:E1; [eauto|]. exfalso. apply H. right. rewrite Hc, H1, H2.
    repeat split; intros n' Hn'; inversion Hn'; subst; lia.
  - exfalso. apply H. right. rewrite Ha, Hb, Hc. repeat split; intros n' Hn'; discriminate.
Qed.

(** ---------- the record loop ---------- *)
Lemma mfg_ok_app_l : forall a b, mfg_ok (a ++ b) -> mfg_ok a.
Proof.
  intros a b H d ds E. unfold mfg_ok in H. rewrite nonempty_mfg_app, E in H.
  specialize (H d (ds ++ nonempty_mfg b) eq_refl). apply Forall_app in H. tauto.
Qed.

Lemma enc_rec_length : forall r, length (enc_rec r) = (length (snd r) + 2)%nat.
Proof. intro r. unfold enc_rec. simpl. lia. Qed.

(** what one iteration sees when a complete record is at the current position *)
Lemma parse_step : forall pre t d rest m f,
  parse_loop (pre ++ enc_rec (t,d) ++ rest) (length pre) m (S f) =
  gbind (parse_record m t d) (fun r => match r with
     | (m', Some e) => Ret (m', Some e)
     | (m', None) => parse_loop (pre ++ enc_rec (t,d) ++ rest) (length (pre ++ enc_rec (t,d))) m' f end).
Proof.
  intros pre t d rest m f. set (pdu := pre ++ enc_rec (t,d) ++ rest).
  assert (HL : length pdu = (length pre + (length d + 2) + length rest)%nat).
  { unfold pdu. rewrite !app_length, enc_rec_length. simpl. lia. }
  cbn [parse_loop].
  destruct (Nat.ltb (length pre + 1) (length pdu)) eqn:E1; [|lia].
  assert (G1 : gidx pdu (length pre) = Ret (Z.of_nat (length d) + 1)).
  { unfold gidx, pdu. rewrite nth_error_app2 by lia. rewrite Nat.sub_diag. reflexivity. }
  assert (G2 : gidx pdu (length pre + 1) = Ret t).
  { unfold gidx, pdu. rewrite nth_error_app2 by lia. replace (length pre + 1 - length pre)%nat with 1%nat by lia. reflexivity. }
  rewrite G1, G2. cbn [gbind].
  replace (Z.to_nat (Z.of_nat (length d) + 1)) with (S (length d)) by lia.
  destruct (Nat.ltb (S (length d)) 1) eqn:E2; [lia|].
  destruct (Nat.leb (length pdu) (length pre + S (length d))) eqn:E3; [lia|].
  assert (G3 : gslice pdu (length pre + 2) (length pre + 2 + S (length d) - 1) = Ret d).
  { unfold pdu, enc_rec. simpl. rewrite gslice_ok.
    - replace (length pre + 2)%nat with (length (pre ++ [Z.of_nat (length d) + 1; t])) by (rewrite app_length; simpl; lia).
      replace (pre ++ Z.of_nat (length d) + 1 :: t :: d ++ rest) with ((pre ++ [Z.of_nat (length d) + 1; t]) ++ d ++ rest)
        by (rewrite <- app_assoc; reflexivity).
      rewrite skipn_app_exact.
      match goal with |- context [firstn ?k _] => replace k with (length d) by lia end.
      now rewrite firstn_app_exact.
    - lia.
    - unfold pdu, enc_rec in HL. cbn [fst snd app] in HL. rewrite HL. lia. }
  rewrite G3. cbn [gbind].
  replace (length (pre ++ enc_rec (t, d))) with (length pre + (S (length d) + 1))%nat
    by (rewrite app_length, enc_rec_length; simpl; lia).
  destruct (parse_record m t d) as [[m' [e|]]|]; reflexivity.
Qed.
