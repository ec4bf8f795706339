Require Import Verif.Base Verif.M_uuid Verif.S_uuid Verif.P_uuid Verif.M_adv Verif.S_adv Verif.P_adv Verif.P_adv2 Verif.M_advrep Verif.S_advrep Verif.P_advrep.

(** ---- address text ---- *)
Lemma hex_encode_app : forall a b, hex_encode (a ++ b) = hex_encode a ++ hex_encode b.
Proof. intros. unfold hex_encode. apply flat_map_app. Qed.
Lemma hw_string_erased : forall b, all_bytes b -> remove_ch 58 (hw_string b) = hex_encode b.
Proof.
  induction b as [|x b IH]; intro H; [reflexivity|]. inversion H; subst.
  assert (H1 : remove_ch 58 (hex_encode [x]) = hex_encode [x]) by (apply hex_encode_no; [constructor; auto|lia]).
  destruct b as [|y b]; [exact H1|].
  change (hw_string (x :: y :: b)) with (hex_encode [x] ++ [58] ++ hw_string (y :: b)).
  unfold remove_ch in *. rewrite !filter_app. rewrite H1, IH by assumption. reflexivity.
Qed.
Lemma hw_string_bytes : forall b, all_bytes b -> addr_bytes (new_addr (hw_string b)) = b.
Proof.
  intros b H. apply addr_bytes_spec with (t := hex_encode b).
  - apply remove_ch_spec. now apply hw_string_erased.
  - now apply hex_encode_text.
Qed.
Lemma hw_string_inj : forall a b, all_bytes a -> all_bytes b -> new_addr (hw_string a) = new_addr (hw_string b) -> a = b.
Proof. intros a b Ha Hb E. rewrite <- (hw_string_bytes a Ha), <- (hw_string_bytes b Hb). now rewrite E. Qed.
Lemma addr_text_eq : forall a b, all_bytes a -> all_bytes b ->
  beq_bytes (new_addr (hw_string (rev a))) (new_addr (hw_string (rev b))) = beq_bytes a b.
Proof.
  intros a b Ha Hb. destruct (beq_bytes a b) eqn:E.
  - apply beq_bytes_eq in E. subst. apply beq_bytes_refl.
  - apply beq_bytes_neq. intro C. apply hw_string_inj in C; try now apply all_bytes_rev.
    apply beq_bytes_neq in E. apply E. rewrite <- (rev_involutive a), C. apply rev_involutive.
Qed.

(** ---- ring ---- *)
Definition rep_good (r : report) : Prop := report_ok r /\ all_bytes (r_addr r).
Definition repr (x : entry) (a : advert) : Prop :=
  ad_e a = enc_reports [fst x] /\ ad_i a = 0%nat /\
  ad_sr a = option_map (fun s => (enc_reports [s], 0%nat)) (snd x) /\
  NewRawPacket [entry_data x] = Ret (Some (ad_pb a, ad_pm a)).
Definition accepts (d : bytes) : go bool :=
  let! r := NewRawPacket [d] in Ret (match r with Some _ => true | None => false end).

Definition slot (N last k : nat) : nat := (if Nat.ltb k last then last - 1 - k else last + N - 1 - k)%nat.
Definition rel (N : nat) (st : hist_st) (h : list entry) : Prop :=
  length (ring st) = N /\ (adlast st < N)%nat /\ Forall (fun x => rep_good (fst x)) h /\
  forall k, (k < N)%nat ->
    match nth_error h k with
    | Some x => exists a, nth_error (ring st) (slot N (adlast st) k) = Some (Some a) /\ repr x a
    | None => nth_error (ring st) (slot N (adlast st) k) = Some None
    end.

Lemma one_ok : forall r, rep_good r -> Forall report_ok [r].
Proof. intros r [H _]. constructor; [exact H|constructor]. Qed.
Lemma ad_addr_repr : forall x a, rep_good (fst x) -> repr x a ->
  ad_addr a = Ret (Some (new_addr (hw_string (rev (r_addr (fst x)))), r_addrtype (fst x) =? 1)).
Proof.
  intros x a Hg (E1 & E2 & _). unfold ad_addr. rewrite E1, E2.
  rewrite (lay_addr _ (one_ok _ Hg) 0 (fst x) eq_refl). cbn [obind].
  rewrite (lay_addrtype _ (one_ok _ Hg) 0 (fst x) eq_refl). reflexivity.
Qed.
Lemma raw_concat : forall l, NewRawPacket l = NewRawPacket [concat l].
Proof. intro l. unfold NewRawPacket. cbn [concat]. now rewrite app_nil_r. Qed.
Lemma new_adv_repr : forall r, rep_good r ->
  match NewRawPacket [r_data r] with
  | Panic => new_advertisement (enc_reports [r]) 0 = Panic
  | Ret None => new_advertisement (enc_reports [r]) 0 = Ret None
  | Ret (Some p) => exists a, new_advertisement (enc_reports [r]) 0 = Ret (Some a) /\ repr (r, None) a
  end.
Proof.
  intros r Hg. unfold new_advertisement. rewrite (lay_data _ (one_ok _ Hg) 0 r eq_refl). cbn [obind].
  destruct (NewRawPacket [r_data r]) as [[p|]|] eqn:E; cbn [obind]; try reflexivity.
  eexists. split; [reflexivity|]. repeat split; cbn [fst snd ad_pb ad_pm].
  unfold entry_data. cbn [fst snd]. rewrite app_nil_r, E. destruct p; reflexivity.
Qed.
Lemma set_sr_repr : forall x a s asr, rep_good (fst x) -> rep_good s -> repr x a -> repr (s, None) asr ->
  match NewRawPacket [entry_data (fst x, Some s)] with
  | Panic => set_scan_response a asr = Panic
  | Ret None => set_scan_response a asr = Ret None
  | Ret (Some p) => exists a', set_scan_response a asr = Ret (Some a') /\ repr (fst x, Some s) a'
  end.
Proof.
  intros x a s asr Hx Hs (E1 & E2 & E3 & E4) (F1 & F2 & F3 & F4). cbn [fst snd] in F1.
  unfold set_scan_response. rewrite E1, E2, F1, F2.
  rewrite (lay_data _ (one_ok _ Hx) 0 (fst x) eq_refl). cbn [obind].
  rewrite (lay_data _ (one_ok _ Hs) 0 s eq_refl). cbn [obind].
  rewrite (raw_concat [r_data (fst x); r_data s]). cbn [concat]. rewrite app_nil_r.
  change (r_data (fst x) ++ r_data s) with (entry_data (fst x, Some s)).
  destruct (NewRawPacket [entry_data (fst x, Some s)]) as [[p|]|] eqn:E; cbn [obind]; try reflexivity.
  eexists. split; [reflexivity|]. repeat split; cbn [fst snd ad_pb ad_pm]. rewrite E. destruct p; reflexivity.
Qed.

Definition idxk (N last k : nat) : Z := if Nat.leb k last then Z.of_nat last - 1 - Z.of_nat k else Z.of_nat last - 1 - Z.of_nat k + Z.of_nat N.

Lemma newest_from_skip : forall k m h s, (forall x, nth_error h k = Some x -> beq_bytes (r_addr (fst x)) (r_addr s) = false) ->
  newest_from (S m) (skipn k h) s = option_map S (newest_from m (skipn (S k) h) s) \/ (nth_error h k = None /\ newest_from (S m) (skipn k h) s = None).
Proof.
  intros k m h s H. destruct (nth_error h k) as [x|] eqn:E.
  - left. specialize (H x eq_refl). apply nth_error_split in E. destruct E as (l1 & l2 & -> & <-).
    rewrite skipn_app_exact. replace (S (length l1)) with (length (l1 ++ [x])) by (rewrite app_length; cbn; lia).
    replace (l1 ++ x :: l2) with ((l1 ++ [x]) ++ l2) by now rewrite <- app_assoc. rewrite skipn_app_exact.
    cbn [newest_from]. now rewrite H.
  - right. split; [reflexivity|]. apply nth_error_None in E. rewrite skipn_all2 by lia. reflexivity.
Qed.

Lemma sr_search_spec : forall N st h s asr, rel N st h -> rep_good s -> repr (s, None) asr ->
  forall m k fuel, (k + m = N - 1)%nat -> (m < fuel)%nat ->
  match newest_from m (skipn k h) s with
  | None => sr_search (ring st) (adlast st) asr (idxk N (adlast st) k) fuel = Ret None
  | Some j => exists x a, nth_error h (k + j) = Some x /\ (k + j < N - 1)%nat /\ nth_error (ring st) (slot N (adlast st) (k + j)) = Some (Some a) /\ repr x a /\
      sr_search (ring st) (adlast st) asr (idxk N (adlast st) k) fuel =
      (let? a' := set_scan_response a asr in Ret (Some (slot N (adlast st) (k + j), a')))
  end.
Proof.
  intros N st h s asr (HN & HL & HF & HR) Hs Hsr m. induction m as [|m IH]; intros k fuel Hk Hf;
    (destruct fuel as [|fuel]; [lia|]); cbn [sr_search].
  - replace (newest_from 0 (skipn k h) s) with (@None nat) by (destruct (skipn k h); reflexivity).
    destruct (idxk N (adlast st) k =? Z.of_nat (adlast st)) eqn:E1; [reflexivity|].
    assert (E2 : idxk N (adlast st) k = -1) by (unfold idxk in *; destruct (Nat.leb k (adlast st)) eqn:?; lia).
    rewrite E2, HN. change (-1 =? -1) with true. cbn [andb].
    replace (Z.of_nat N - 1 =? Z.of_nat (adlast st)) with true; [reflexivity|].
    unfold idxk in *; destruct (Nat.leb k (adlast st)) eqn:?; lia.
  - assert (E1 : (idxk N (adlast st) k =? Z.of_nat (adlast st)) = false)
      by (unfold idxk; destruct (Nat.leb k (adlast st)) eqn:?; lia).
    rewrite E1. rewrite HN.
    set (i' := if idxk N (adlast st) k =? -1 then Z.of_nat N - 1 else idxk N (adlast st) k).
    assert (Ei : i' = Z.of_nat (slot N (adlast st) k)).
    { unfold i', slot, idxk. destruct (Nat.leb k (adlast st)) eqn:A; destruct (Nat.ltb k (adlast st)) eqn:B;
      match goal with |- context [if ?c then _ else _] => destruct c eqn:? end; lia. }
    assert (E2 : ((idxk N (adlast st) k =? -1) && (i' =? Z.of_nat (adlast st)))%bool = false).
    { rewrite Ei. unfold slot, idxk. destruct (Nat.leb k (adlast st)) eqn:A; destruct (Nat.ltb k (adlast st)) eqn:B; lia. }
    rewrite E2. rewrite Ei. rewrite Nat2Z.id.
    assert (Hlt : (k < N)%nat) by lia. specialize (HR k Hlt) as HRk. unfold gidx.
    destruct (nth_error h k) as [x|] eqn:Ex.
    + destruct HRk as (a & Ha & Hrep). rewrite Ha. cbn [gbind].
      assert (Hx : rep_good (fst x)). { apply nth_error_In in Ex. rewrite Forall_forall in HF. auto. }
      rewrite (ad_addr_repr x a Hx Hrep). cbn [obind]. rewrite (ad_addr_repr (s, None) asr Hs Hsr). cbn [obind fst].
      rewrite addr_text_eq by (apply Hx || apply Hs).
      destruct (beq_bytes (r_addr (fst x)) (r_addr s)) eqn:Eb.
      * assert (Hn : newest_from (S m) (skipn k h) s = Some 0%nat).
        { apply nth_error_split in Ex. destruct Ex as (l1 & l2 & -> & <-). rewrite skipn_app_exact. cbn [newest_from]. now rewrite Eb. }
        rewrite Hn. exists x, a. rewrite Nat.add_0_r. split; [exact Ex|]. split; [lia|]. split; [exact Ha|]. split; [exact Hrep|reflexivity].
      * destruct (newest_from_skip k m h s) as [Hn|[Hn _]]; [intros y Hy; congruence| |congruence].
        rewrite Hn. specialize (IH (S k) fuel). 
        replace (Z.of_nat (slot N (adlast st) k) - 1) with (idxk N (adlast st) (S k)).
        2:{ unfold slot, idxk. destruct (Nat.leb (S k) (adlast st)) eqn:A; destruct (Nat.ltb k (adlast st)) eqn:B; lia. }
        specialize (IH ltac:(lia) ltac:(lia)).
        destruct (newest_from m (skipn (S k) h) s) as [j|] eqn:Ej; cbn [option_map]; [|exact IH].
        destruct IH as (x' & a' & I1 & I2 & I3 & I4 & I5). exists x', a'.
        replace (k + S j)%nat with (S k + j)%nat by lia. auto.
    + rewrite HRk. cbn [gbind].
      apply nth_error_None in Ex. rewrite skipn_all2 by lia. reflexivity.
Qed.

Lemma slot_inj : forall N last j k, (last < N)%nat -> (j < N)%nat -> (k < N)%nat -> slot N last j = slot N last k -> j = k.
Proof. intros N last j k H1 H2 H3. unfold slot. destruct (Nat.ltb j last) eqn:?, (Nat.ltb k last) eqn:?; lia. Qed.
Lemma slot_lt : forall N last k, (last < N)%nat -> (k < N)%nat -> (slot N last k < N)%nat.
Proof. intros. unfold slot. destruct (Nat.ltb k last) eqn:?; lia. Qed.

Lemma rel_push : forall N st h r a, rel N st h -> rep_good r -> repr (r, None) a ->
  exists st', (let! r' := gset (ring st) (adlast st) (Some a) in
     let l' := if Nat.eqb (S (adlast st)) (length r') then 0%nat else S (adlast st) in Ret (mkHist r' l', Some a)) = Ret (st', Some a)
   /\ rel N st' ((r, None) :: h).
Proof.
  intros N st h r a (HN & HL & HF & HR) Hg Hr. rewrite gset_ok by lia. cbn [gbind]. rewrite upd_length, HN.
  eexists. split; [reflexivity|]. repeat split; cbn [ring adlast].
  - now rewrite upd_length.
  - destruct (Nat.eqb (S (adlast st)) N) eqn:E; lia.
  - constructor; assumption.
  - intros k Hk. destruct k as [|k]; cbn [nth_error].
    + exists a. split; [|exact Hr]. rewrite nth_error_upd.
      replace (slot N (if Nat.eqb (S (adlast st)) N then 0%nat else S (adlast st)) 0) with (adlast st).
      2:{ unfold slot. destruct (Nat.eqb (S (adlast st)) N) eqn:E; [cbn|]; try (destruct (Nat.ltb 0 (S (adlast st))) eqn:F); lia. }
      rewrite Nat.eqb_refl. replace (Nat.ltb (adlast st) (length (ring st))) with true by lia. reflexivity.
    + replace (slot N (if Nat.eqb (S (adlast st)) N then 0%nat else S (adlast st)) (S k)) with (slot N (adlast st) k).
      2:{ unfold slot. destruct (Nat.eqb (S (adlast st)) N) eqn:E.
          - destruct (Nat.ltb k (adlast st)) eqn:A; destruct (Nat.ltb (S k) 0) eqn:B; lia.
          - destruct (Nat.ltb k (adlast st)) eqn:A; destruct (Nat.ltb (S k) (S (adlast st))) eqn:B; lia. }
      rewrite nth_error_upd. replace (Nat.eqb (adlast st) (slot N (adlast st) k)) with false; [apply HR; lia|].
      unfold slot. destruct (Nat.ltb k (adlast st)) eqn:A; lia.
Qed.

Lemma rel_upd : forall N st h j y a, rel N st h -> (j < N - 1)%nat -> (j < length h)%nat -> rep_good (fst y) -> repr y a ->
  rel N (mkHist (upd (ring st) (slot N (adlast st) j) (Some a)) (adlast st)) (upd h j y).
Proof.
  intros N st h j y a (HN & HL & HF & HR) Hj Hh Hg Hr. repeat split; cbn [ring adlast]; auto.
  - now rewrite upd_length.
  - rewrite Forall_forall in *. intros z Hz. apply In_nth_error in Hz. destruct Hz as [i Hi]. rewrite nth_error_upd in Hi.
    destruct (Nat.eqb j i); [|apply HF; eapply nth_error_In; eauto].
    destruct (Nat.ltb j (length h)); [|discriminate]. now injection Hi as <-.
  - intros k Hk. rewrite !nth_error_upd. destruct (Nat.eqb j k) eqn:E.
    + apply Nat.eqb_eq in E. subst k. replace (Nat.ltb j (length h)) with true by lia.
      rewrite Nat.eqb_refl. assert (B := slot_lt N (adlast st) j HL Hk).
      replace (Nat.ltb (slot N (adlast st) j) (length (ring st))) with true by lia. eauto.
    + destruct (Nat.eqb (slot N (adlast st) j) (slot N (adlast st) k)) eqn:F; [|now apply HR].
      apply Nat.eqb_eq, slot_inj in F; lia.
Qed.

Definition out_repr (x : option entry) (a : option advert) : Prop :=
  match x, a with None, None => True | Some x, Some a => repr x a | _, _ => False end.

Lemma step_refines : forall N st h r, (2 <= N)%nat -> rel N st h -> rep_good r -> r_type r <= 4 ->
  match scan_step accepts (N - 1) h r with
  | Panic => handle_adv_report st (enc_reports [r]) = Panic
  | Ret (h', o) => exists st' oa, handle_adv_report st (enc_reports [r]) = Ret (st', oa) /\ rel N st' h' /\ out_repr o oa
  end.
Proof.
  intros N st h r HN2 HR Hg Ht4. unfold handle_adv_report, scan_step.
  rewrite (lay_num _). cbn [gbind length]. cbn [Z.of_nat Pos.of_succ_nat Z.eqb Pos.eqb negb].
  rewrite (lay_type _ (one_ok _ Hg) 0 r eq_refl). cbn [gbind].
  assert (HA := new_adv_repr r Hg). unfold accepts at 1.
  destruct (NewRawPacket [r_data r]) as [[p|]|] eqn:EP; cbn [gbind negb].
  - destruct HA as (a & Ea & Hra). rewrite Ea. cbn [gbind].
    destruct ((r_type r =? 0) || (r_type r =? 2))%bool eqn:E1.
    + destruct (rel_push N st h r a HR Hg Hra) as (st' & Es & Hst). exists st', (Some a). auto.
    + destruct (r_type r =? 4) eqn:E4.
      * replace ((r_type r =? 1) || (r_type r =? 3))%bool with false by lia.
        assert (HS := sr_search_spec N st h r a HR Hg Hra (N - 1) 0 (S (length (ring st)))).
        assert (HNl : length (ring st) = N) by apply HR. rewrite HNl in *.
        specialize (HS ltac:(lia) ltac:(lia)). cbn [skipn] in HS.
        unfold idxk in HS. cbn [Nat.leb] in HS. rewrite Z.sub_0_r in HS.
        destruct (newest_from (N - 1) h r) as [j|] eqn:Ej.
        -- destruct HS as (x & ax & X1 & X2 & X3 & X4 & X5). cbn [Nat.add] in *. rewrite X1, X5.
           assert (Hx : rep_good (fst x)). { destruct HR as (_ & _ & HF & _). apply nth_error_In in X1. rewrite Forall_forall in HF. auto. }
           assert (HSR := set_sr_repr x ax r a Hx Hg X4 Hra). unfold accepts.
           destruct (NewRawPacket [entry_data (fst x, Some r)]) as [[q|]|] eqn:EQ; cbn [gbind].
           ++ destruct HSR as (a' & F1 & F2). rewrite F1. cbn [obind gbind].
              assert (HL : (adlast st < N)%nat) by apply HR.
              assert (B := slot_lt N (adlast st) j HL ltac:(lia)).
              rewrite gset_ok by lia. cbn [gbind]. eexists _, (Some a'). split; [reflexivity|]. split; [|exact F2].
              apply rel_upd; [exact HR|lia|apply nth_error_Some; congruence|exact Hx|exact F2].
           ++ rewrite HSR. cbn [obind gbind]. exists st, None. cbn. auto.
           ++ rewrite HSR. reflexivity.
        -- rewrite HS. cbn [gbind]. exists st, None. cbn. auto.
      * assert (E13 : ((r_type r =? 1) || (r_type r =? 3))%bool = true).
        { destruct Hg as [[[HT _] _] _]. lia. }
        rewrite E13. exists st, (Some a). auto.
  - rewrite HA. cbn [gbind]. repeat (match goal with |- context [if ?c then _ else _] => destruct c end); exists st, None; cbn; auto.
  - rewrite HA. cbn [gbind]. destruct ((r_type r =? 0) || (r_type r =? 2))%bool eqn:E1; [reflexivity|].
    destruct (r_type r =? 4) eqn:E4; [reflexivity|]. destruct Hg as [[[HT _] _] _].
    replace ((r_type r =? 1) || (r_type r =? 3))%bool with true by lia. reflexivity.
Qed.

Lemma run_refines : forall N rs st h, (2 <= N)%nat -> rel N st h -> Forall (fun r => rep_good r /\ r_type r <= 4) rs ->
  match scan_run accepts (N - 1) h rs with
  | Panic => run_reports st (map (fun r => enc_reports [r]) rs) = Panic
  | Ret (h', os) => exists st' oas, run_reports st (map (fun r => enc_reports [r]) rs) = Ret (st', oas) /\ rel N st' h' /\ Forall2 out_repr os oas
  end.
Proof.
  intros N rs. induction rs as [|r rs IH]; intros st h HN HR HF; cbn [scan_run map run_reports].
  - exists st, []. auto.
  - inversion HF as [|? ? [Hg Ht] HF']; subst. assert (HS := step_refines N st h r HN HR Hg Ht).
    destruct (scan_step accepts (N - 1) h r) as [[h1 o]|] eqn:Es; cbn [gbind fst snd].
    + destruct HS as (st1 & oa & E1 & R1 & O1). rewrite E1. cbn [gbind fst snd].
      specialize (IH st1 h1 HN R1 HF').
      destruct (scan_run accepts (N - 1) h1 rs) as [[h2 os]|] eqn:Er; cbn [gbind fst snd].
      * destruct IH as (st2 & oas & E2 & R2 & O2). rewrite E2. cbn [gbind fst snd]. exists st2, (oa :: oas). auto.
      * now rewrite IH.
    + now rewrite HS.
Qed.
Lemma rel_start : forall N, (1 <= N)%nat -> rel N (scan_start N) [].
Proof.
  intros N H. unfold scan_start. repeat split; cbn [ring adlast]; [apply repeat_length|lia|constructor|].
  intros k Hk. destruct k; cbn [nth_error]; apply nth_error_repeat; apply slot_lt; lia.
Qed.

(** spec-level: a scan response is only ever attached to an advertisement of the same address, the newest in the window *)
Lemma newest_from_sound : forall k h s j, newest_from k h s = Some j ->
  (j < k)%nat /\ exists x, nth_error h j = Some x /\ r_addr (fst x) = r_addr s /\
  forall i y, (i < j)%nat -> nth_error h i = Some y -> r_addr (fst y) <> r_addr s.
Proof.
  induction k as [|k IH]; intros h s j H; [discriminate|]. destruct h as [|x h]; [discriminate|]. cbn [newest_from] in H.
  destruct (beq_bytes (r_addr (fst x)) (r_addr s)) eqn:E.
  - injection H as <-. split; [lia|]. exists x. split; [reflexivity|]. split; [now apply beq_bytes_eq|]. intros; lia.
  - destruct (newest_from k h s) as [j'|] eqn:Ej; [|discriminate]. injection H as <-.
    destruct (IH h s j' Ej) as (H1 & y & H2 & H3 & H4). split; [lia|]. exists y. split; [exact H2|]. split; [exact H3|].
    intros [|i] z Hi Hz; [cbn in Hz; injection Hz as <-; now apply beq_bytes_neq|]. apply (H4 i z); [lia|exact Hz].
Qed.
Lemma newest_from_complete : forall k h s, newest_from k h s = None -> forall j x, (j < k)%nat -> nth_error h j = Some x -> r_addr (fst x) <> r_addr s.
Proof.
  induction k as [|k IH]; intros h s H j x Hj Hx; [lia|]. destruct h as [|y h]; [destruct j; discriminate|]. cbn [newest_from] in H.
  destruct (beq_bytes (r_addr (fst y)) (r_addr s)) eqn:E; [discriminate|].
  destruct j as [|j]; [cbn in Hx; injection Hx as <-; now apply beq_bytes_neq|].
  destruct (newest_from k h s) eqn:F; [discriminate|]. apply (IH h s F j x); [lia|exact Hx].
Qed.
Lemma scan_run_same_addr : forall acc w rs h h' os,
  Forall (fun x : entry => match snd x with Some s => r_addr s = r_addr (fst x) /\ r_type s = 4 /\ (r_type (fst x) = 0 \/ r_type (fst x) = 2) | None => True end) h ->
  Forall (fun x : entry => r_type (fst x) = 0 \/ r_type (fst x) = 2) h ->
  Forall (fun r => 0 <= r_type r <= 4) rs ->
  scan_run acc w h rs = Ret (h', os) ->
  Forall (fun o : option entry => match o with Some (r, Some s) => r_addr s = r_addr r /\ r_type s = 4 /\ (r_type r = 0 \/ r_type r = 2) | _ => True end) os.
Proof.
  intros acc w rs. induction rs as [|r rs IH]; intros h h' os H1 H2 H3 E; cbn [scan_run] in E.
  - injection E as <- <-. constructor.
  - destruct (scan_step acc w h r) as [[h1 o]|] eqn:Es; [|discriminate]. cbn [gbind fst snd] in E.
    destruct (scan_run acc w h1 rs) as [[h2 os']|] eqn:Er; [|discriminate]. cbn [gbind fst snd] in E.
    injection E as <- <-. inversion H3 as [|? ? Hr H3']; subst.
    unfold scan_step in Es. destruct (acc (r_data r)) as [ok|]; [|discriminate]. cbn [gbind] in Es.
    destruct ok; cbn [negb] in Es; [|injection Es as <- <-; constructor; [exact I|eapply IH; eauto]].
    destruct ((r_type r =? 0) || (r_type r =? 2))%bool eqn:E1.
    { injection Es as <- <-. constructor; [exact I|]. eapply (IH _ h2 os'); [| | |exact Er]; auto; constructor; cbn; auto. lia. }
    destruct ((r_type r =? 1) || (r_type r =? 3))%bool eqn:E2.
    { injection Es as <- <-. constructor; [exact I|]. eapply IH; eauto. }
    destruct (newest_from w h r) as [j|] eqn:Ej; [|injection Es as <- <-; constructor; [exact I|eapply IH; eauto]].
    apply newest_from_sound in Ej. destruct Ej as (_ & x & Ex & Ea & _). rewrite Ex in Es.
    destruct (acc (entry_data (fst x, Some r))) as [ok|]; [|discriminate]. cbn [gbind] in Es.
    destruct ok; injection Es as <- <-; [|constructor; [exact I|eapply IH; eauto]].
    assert (Hx : r_type (fst x) = 0 \/ r_type (fst x) = 2). { apply nth_error_In in Ex. rewrite Forall_forall in H2. now apply H2. }
    constructor; [cbn; repeat split; auto; lia|].
    assert (HU : forall P : entry -> Prop, P (fst x, Some r) -> Forall P h -> Forall P (upd h j (fst x, Some r))).
    { intros P Hp Hh. rewrite Forall_forall in *. intros z Hz. apply In_nth_error in Hz. destruct Hz as [i Hi]. rewrite nth_error_upd in Hi.
      destruct (Nat.eqb j i); [|apply Hh; eapply nth_error_In; eauto].
      destruct (Nat.ltb j (length h)); [|discriminate]. now injection Hi as <-. }
    eapply IH; [| | |exact Er]; auto; apply HU; auto. cbn. repeat split; auto. lia.
Qed.
(** malformed events leave the history unchanged and produce nothing *)
Lemma bad_event : forall st e, (forall i, nth_error e 1 <> Some 1 \/ rep_data e i = Ret None) ->
  handle_adv_report st e = Ret (st, None).
Proof.
  intros st e H. unfold handle_adv_report, num_reports. rewrite get_byte_spec. cbn [gbind].
  destruct (nth_error e 1) as [n|] eqn:E; [|reflexivity].
  destruct (n =? 1) eqn:En; cbn [negb]; [|reflexivity]. apply Z.eqb_eq in En. subst n.
  destruct (H 0%nat) as [C|C]; [congruence|].
  unfold event_type. rewrite get_byte_spec. cbn [gbind].
  destruct (nth_error e (2 + 0)) as [t|]; [|reflexivity].
  unfold new_advertisement. rewrite C. cbn [obind gbind].
  repeat (match goal with |- context [if ?c then _ else _] => destruct c end); reflexivity.
Qed.
