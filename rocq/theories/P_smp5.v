(** What a message can make the device send, store and report. *)
Require Import Verif.Base Verif.M_smp Verif.S_smp Verif.P_smp Verif.P_smp2 Verif.P_smp3 Verif.P_smp4.

Section R.
Variable C : prims.
Variable HC : prims_ok C.
Variables (la ra : bytes) (lat rat : Z).
Notation s0 := (smp_new la ra lat rat).
Notation Bv := (B C la ra lat rat).

Lemma check_r_op : forall p, rev (check_r p) = r_op (p_type p) (p_passkey p) (p_oobdata p).
Proof.
  intro p. unfold check_r, r_op. destruct (p_type p); reflexivity.
Qed.
Lemma io_rev : forall c, rev (io_bytes c) = io_op c.
Proof. intro c. reflexivity. Qed.

Lemma in_out : forall o evs1 x, Forall (fun x => match x with EOut _ => False | _ => True end) evs1 ->
  In (EOut x) (map EOut o ++ evs1) -> In x o.
Proof.
  intros o evs1 x Hn Hin. apply in_app_or in Hin. destruct Hin as [Hin|Hin].
  - apply in_map_iff in Hin. destruct Hin as (y & Hy & Hin). congruence.
  - rewrite Forall_forall in Hn. now destruct (Hn _ Hin).
Qed.

Lemma quiet_no13 : forall o x, quiet o -> ~ In (OSend (frame (13 :: x))) o.
Proof. intros o x H Hin. unfold quiet in H. rewrite Forall_forall in H. destruct (H _ Hin) as [H1 _]. now apply H1. Qed.
Lemma quiet_nosave : forall o a b, quiet o -> ~ In (OSave a b) o.
Proof. intros o a b H Hin. unfold quiet in H. rewrite Forall_forall in H. destruct (H _ Hin) as [_ H1]. discriminate. Qed.

Lemma frame_inj : forall a b x y, frame (a :: x) = frame (b :: y) -> a = b /\ x = y.
Proof.
  intros a b x y H. assert (E : msg_of (frame (a :: x)) = msg_of (frame (b :: y))) by now rewrite H.
  rewrite !msg_frame in E. injection E as -> ->. now split.
Qed.

(** Sending the DHKey check: only on a Pairing Random message that passes the confirm check. *)
Theorem dhkey_sent : forall l s e pdu s' evs x, srun C s0 l s -> trace_ok l ->
  sstep C s (AMsg e pdu) = Some (Ret (s', evs)) -> In (EOut (OSend (frame (13 :: x)))) evs ->
  let v := view_of C l in let p := ctx s in
  exists r k b na, msg_of pdu = Some (4, r) /\ length r = 16%nat /\ p_legacy p = false /\
    v_own v = Some (key_wire (pub_of C k)) /\ v_peer v = Some b /\ p_lrand p = Some na /\
    match p_type p with
    | Passkey => confirm_matches C v r (passkey_bit_op (v_passkey v) (v_rounds v)) = true /\ (19 <= v_rounds v)%nat
    | _ => confirm_matches C v r 0 = true
    end /\
    x = rev (f6 C (rev (mackey_of C la ra lat rat k b na r)) (rev na) (rev r) (r_op (p_type p) (v_passkey v) (p_oobdata p))
                (io_op (p_req p)) (addr_op lat la) (addr_op rat ra)).
Proof.
  intros l s e pdu s' evs x Hrun Hl H Hin v p. pose proof (run_B C HC _ _ _ _ _ _ Hrun Hl) as HB. fold v p in HB.
  cbn [sstep] in H. destruct (stuck s); [discriminate|]. apply Some_inj in H.
  destruct (Handle_inv _ _ _ _ _ _ H) as (c & d & Hm & Hh).
  destruct Hh as [(Hd & Hc & evs' & -> & Hf & _)|(h & p' & o & r & s1 & evs1 & Hd & Hh & Ha & -> & ->)].
  { exfalso. destruct Hin as [Hin|Hin].
    - assert (X : frame [5; 5] = frame (13 :: x)) by congruence. apply frame_inj in X. destruct X as [X _]. discriminate X.
    - rewrite Forall_forall in Hf. specialize (Hf _ Hin). discriminate. }
  destruct (after_ctx _ _ _ _ _ Ha) as [_ Hn]. apply in_out in Hin; [|assumption].
  unfold dispatch in Hd.
  repeat match type of Hd with
  | (if ?x then _ else _) = _ => destruct x eqn:?
  end; try discriminate Hd; apply Some_inj in Hd; subst h;
  repeat match goal with E : (_ =? _) = true |- _ => apply Z.eqb_eq in E; subst c end.
  - destruct (rsp_quiet C e d _ _ _ _ Hh) as [_ Hq]. now destruct (quiet_no13 _ x Hq).
  - destruct (conf_quiet e d _ _ _ _ Hh) as [_ Hq]. now destruct (quiet_no13 _ x Hq).
  - destruct (rand_effect C e d _ _ _ _ Hh) as [[_ Hq]|Hx]; [now destruct (quiet_no13 _ x Hq)|].
    destruct Hx as (Hlg & Hlen & Hcf & k & q & mk & lt & Hk & Hq & H5 & Hmac & Hbond & Ho).
    destruct (confirmed_view C HC la ra lat rat _ _ _ HB Hlen Hcf Hlg) as (k' & w & How & Hk' & Hw & Hq' & Hv).
    assert (k' = k) by (unfold p in *; congruence). assert (q = key_of_wire w) by (unfold p in *; congruence). subst k' q.
    destruct (Ho _ Hin) as (ea & Hea & H6).
    assert (ea = x). { assert (X : frame (13 :: x) = frame (13 :: ea)) by congruence. apply frame_inj in X. now destruct X. }
    subst ea.
    destruct (F5_inv _ _ _ _ _ _ _ H5) as (L1 & L2 & L3 & L4 & L5).
    exists d, k, w, (lrand p). split; [assumption|]. split; [assumption|]. split; [assumption|]. split; [assumption|].
    split; [assumption|]. split; [now apply lrand_some|].
    split. { destruct (p_type p); try assumption. destruct Hv. split; [assumption|lia]. }
    rewrite F5_spec in H5 by assumption. injection H5 as Hmk _.
    destruct (F6_inv _ _ _ _ _ _ _ _ _ H6) as (M1 & M2 & M3 & M4 & M5 & M6 & M7).
    rewrite F6_spec in H6 by assumption. apply Some_inj in H6. rewrite <- H6.
    fold p in Hmk |- *. unfold p in *. 
    rewrite check_r_op, io_rev, (B_laddr _ _ _ _ _ _ _ HB), (B_raddr _ _ _ _ _ _ _ HB), (B_lat _ _ _ _ _ _ _ HB), (B_rat _ _ _ _ _ _ _ HB), !rev_addr, (B_key _ _ _ _ _ _ _ HB).
    rewrite (B_laddr _ _ _ _ _ _ _ HB), (B_raddr _ _ _ _ _ _ _ HB), (B_lat _ _ _ _ _ _ _ HB), (B_rat _ _ _ _ _ _ _ HB), !rev_addr in Hmk.
    unfold swap in Hmk. rewrite rev_involutive in Hmk. rewrite <- Hmk. reflexivity.
  - destruct (fail_quiet e d _ _ _ _ Hh) as [_ Hq]. now destruct (quiet_no13 _ x Hq).
  - destruct (enc_quiet e d _ _ _ _ Hh) as (_ & _ & ->). contradiction.
  - destruct (mid_effect e d _ _ _ _ Hh) as (_ & bi & v1 & r8 & _ & _ & [-> | ->]); [contradiction|].
    destruct Hin as [Hin|[]]; discriminate.
  - destruct (sec_quiet e d _ _ _ _ Hh) as [_ Hq]. now destruct (quiet_no13 _ x Hq).
  - destruct (pub_quiet C e d _ _ _ _ Hh) as [_ Hq]. now destruct (quiet_no13 _ x Hq).
  - destruct (dh_effect C e d _ _ _ _ Hh) as (_ & Hq & _). rewrite Forall_forall in Hq. now destruct (Hq _ Hin).
Qed.

(** Storing a bond. *)
Theorem bond_saved : forall l s e pdu s' evs a bi, srun C s0 l s -> trace_ok l ->
  sstep C s (AMsg e pdu) = Some (Ret (s', evs)) -> In (EOut (OSave a bi)) evs ->
  let v := view_of C l in let p := ctx s in
  a = rev ra /\ exists c d, msg_of pdu = Some (c, d) /\
  ((c = 7 /\ exists b0, p_bond p = Some b0 /\ ltk bi = ltk b0 /\ blegacy bi = true) \/
   (c = 13 /\ exists k b na nb nb' na', key_agreed C la ra lat rat l k b na nb /\ p_lrand p = Some na' /\ p_rrand p = nb' /\
      d = rev (f6 C (rev (mackey_of C la ra lat rat k b na nb)) (rev nb') (rev na') (r_op (p_type p) (v_passkey v) (p_oobdata p))
                  (io_op (p_rsp p)) (addr_op rat ra) (addr_op lat la)) /\
      (Forall plain l -> bi = mkBond (ltk_of C la ra lat rat k b na nb) 0 0 false))).
Proof.
  intros l s e pdu s' evs a bi Hrun Hl H Hin v p. pose proof (run_B C HC _ _ _ _ _ _ Hrun Hl) as HB. fold v p in HB.
  pose proof (run_K C HC la ra lat rat _ _ Hrun Hl) as HK.
  cbn [sstep] in H. destruct (stuck s); [discriminate|]. apply Some_inj in H.
  destruct (Handle_inv _ _ _ _ _ _ H) as (c & d & Hm & Hh).
  destruct Hh as [(Hd & Hc & evs' & -> & Hf & _)|(h & p' & o & r & s1 & evs1 & Hd & Hh & Ha & -> & ->)].
  { exfalso. destruct Hin as [Hin|Hin]; [discriminate|]. rewrite Forall_forall in Hf. specialize (Hf _ Hin). discriminate. }
  destruct (after_ctx _ _ _ _ _ Ha) as [_ Hn]. apply in_out in Hin; [|assumption].
  unfold dispatch in Hd.
  repeat match type of Hd with
  | (if ?x then _ else _) = _ => destruct x eqn:?
  end; try discriminate Hd; apply Some_inj in Hd; subst h;
  repeat match goal with E : (_ =? _) = true |- _ => apply Z.eqb_eq in E; subst c end.
  - destruct (rsp_quiet C e d _ _ _ _ Hh) as [_ Hq]. now destruct (quiet_nosave _ a bi Hq).
  - destruct (conf_quiet e d _ _ _ _ Hh) as [_ Hq]. now destruct (quiet_nosave _ a bi Hq).
  - destruct (rand_effect C e d _ _ _ _ Hh) as [[_ Hq]|Hx]; [now destruct (quiet_nosave _ a bi Hq)|].
    destruct Hx as (_ & _ & _ & k & q & mk & lt & _ & _ & _ & _ & _ & Ho). destruct (Ho _ Hin) as (ea & Hea & _). discriminate.
  - destruct (fail_quiet e d _ _ _ _ Hh) as [_ Hq]. now destruct (quiet_nosave _ a bi Hq).
  - destruct (enc_quiet e d _ _ _ _ Hh) as (_ & _ & ->). contradiction.
  - destruct (mid_effect e d _ _ _ _ Hh) as (_ & b0 & v1 & r8 & Hb & _ & [-> | ->]); [contradiction|].
    destruct Hin as [Hin|[]]. injection Hin as <- <-. split; [apply HB|].
    exists 7, d. split; [assumption|]. left. split; [reflexivity|]. exists b0. repeat split; assumption.
  - destruct (sec_quiet e d _ _ _ _ Hh) as [_ Hq]. now destruct (quiet_nosave _ a bi Hq).
  - destruct (pub_quiet C e d _ _ _ _ Hh) as [_ Hq]. now destruct (quiet_nosave _ a bi Hq).
  - destruct (dh_effect C e d _ _ _ _ Hh) as (_ & _ & Hs). destruct (Hs _ _ Hin) as (-> & Hb & _ & H6).
    split; [apply HB|]. exists 13, d. split; [assumption|]. right. split; [reflexivity|].
    destruct (F6_inv _ _ _ _ _ _ _ _ _ H6) as (M1 & M2 & M3 & M4 & M5 & M6 & M7).
    destruct HK as [[HK _]|(k & b & na & nb & Hag & Hmac & Hbond)].
    { rewrite HK in M1. discriminate. }
    exists k, b, na, nb, (p_rrand p), (lrand p). split; [assumption|]. split; [now apply lrand_some|]. split; [reflexivity|].
    split.
    + rewrite F6_spec in H6 by assumption. apply Some_inj in H6. rewrite <- H6. fold p in Hmac |- *.
      unfold p in *. rewrite check_r_op, io_rev, (B_laddr _ _ _ _ _ _ _ HB), (B_raddr _ _ _ _ _ _ _ HB), (B_lat _ _ _ _ _ _ _ HB), (B_rat _ _ _ _ _ _ _ HB), !rev_addr, (B_key _ _ _ _ _ _ _ HB), Hmac.
      reflexivity.
    + intro Hp. specialize (Hbond Hp). congruence.
Qed.

Notation round_in := (S_smp.round_in C).
Lemma round_in_snoc : forall l x i o p k, round_in l i o p k -> round_in (l ++ [x]) i o p k.
Proof.
  intros l x i o p k (l1 & e & pdu & evs & l2 & r & -> & H). exists l1, e, pdu, evs, (l2 ++ [x]), r.
  split; [now rewrite <- app_assoc|exact H].
Qed.

(** The state never returns to Init, and the own key pair never changes once there. *)
Definition st_ok (p p' : pctx) : Prop :=
  (p_st p <> Init -> p_st p' <> Init) /\ (p_keys p' = p_keys p \/ (p_keys p = None /\ p_st p' <> Init)) /\
  p_passkey p' = p_passkey p.
Lemma dispatch_st : forall e c d p h, dispatch C e c d = Some h -> wp h p (fun p' _ _ => st_ok p p').
Proof.
  intros e c d p h Hd. unfold dispatch in Hd.
  repeat match type of Hd with
  | (if ?x then _ else _) = _ => destruct x eqn:?
  end; try discriminate Hd; apply Some_inj in Hd; subst h.
  all: wps; sp; unfold st_ok; sp; (split; [first [discriminate|auto; discriminate]|]); split; try reflexivity;
    first [left; reflexivity|right; split; [assumption|discriminate]|left; congruence].
Qed.

Definition Q (l : list (sact * list ev)) (s : smp) : Prop :=
  (p_keys (ctx s) <> None -> p_st (ctx s) <> Init) /\
  forall i, (i < v_rounds (view_of C l))%nat ->
    round_in l i (v_own (view_of C l)) (v_peer (view_of C l)) (v_passkey (view_of C l)).

Lemma Q_step : forall l s a s' evs, srun C s0 l s -> trace_ok l -> (match act_env a with Some e => env_ok e | None => True end) ->
  Q l s -> sstep C s a = Some (Ret (s', evs)) -> Q (l ++ [(a, evs)]) s'.
Proof.
  intros l s a s' evs Hrun Hl He [HQ1 HQ2] H. pose proof (run_B C HC _ _ _ _ _ _ Hrun Hl) as HB.
  pose proof (B_step C HC la ra lat rat _ _ _ _ _ He HB H) as HB'.
  assert (Hst : (p_keys (ctx s') = p_keys (ctx s) \/ (p_keys (ctx s) = None /\ p_st (ctx s') <> Init)) /\
                (p_st (ctx s) <> Init -> p_st (ctx s') <> Init) /\
                (p_keys (ctx s) <> None -> p_passkey (ctx s') = p_passkey (ctx s))).
  { destruct a as [e pdu|e k oob| |e]; cbn [sstep] in H.
    - destruct (stuck s); [discriminate|]. apply Some_inj in H. destruct (Handle_inv _ _ _ _ _ _ H) as (c & d & Hm & Hh).
      destruct Hh as [(Hd & Hc & _)|(h & p & o & r & s1 & evs1 & Hd & Hh & Ha & -> & ->)]; [rewrite Hc; tauto|].
      destruct (after_ctx _ _ _ _ _ Ha) as [Hc Hn]. destruct (dispatch_st _ _ _ _ _ Hd _ _ _ Hh) as (H1 & H2 & H3).
      destruct Hc as [-> | ->]; [tauto|]. sp. split; [|split; [discriminate|auto]].
      destruct H2 as [H2|[H2 _]]; [left; assumption|right; split; [assumption|discriminate]].
    - apply Some_inj in H. unfold Pair in H.
      assert (Hn : Ret (s, [EPairRet false]) = Ret (s', evs) -> s' = s) by congruence.
      destruct (p_st (ctx s)) eqn:Es; try (rewrite (Hn H), ?Es; split; [left; reflexivity|split; [discriminate|reflexivity]]). clear Hn.
      unfold StartPairing, sendPairingRequest, send, bind, modify, get, emit, must in H.
      destruct (0 <? length oob)%nat, (e_write e); cbn in H; injection H as <- <-; cbn;
        (split; [left; reflexivity|]); (split; [discriminate|]); intro X; now destruct (HQ1 X).
    - destruct (waiting s); [|discriminate]. injection H as <- <-. cbn. tauto.
    - apply Some_inj in H. destruct (StartEncryption e (ctx s)) as [[[p o] r]|] eqn:E; [|discriminate]. cbn [gbind] in H.
      injection H as <- <-. cbn [ctx].
      assert (Hw : wp (StartEncryption e) (ctx s) (fun p o _ => st_ok (ctx s) p)) by (wps; unfold st_ok; tauto).
      destruct (Hw _ _ _ E) as (H1 & H2 & H3). tauto. }
  destruct Hst as (Hk & Hs & Hp). split.
  { intro X. destruct Hk as [Hk|[_ Hk]]; [|assumption]. rewrite Hk in X. apply Hs, HQ1, X. }
  (* facts about own key and passkey in the view *)
  assert (Hown : forall o, v_own (view_of C l) = Some o -> v_own (view_step C (view_of C l) (a, evs)) = Some o /\
                 v_passkey (view_step C (view_of C l) (a, evs)) = v_passkey (view_of C l)).
  { intros o Ho. pose proof (B_own _ _ _ _ _ _ _ HB) as E1. pose proof (B_own _ _ _ _ _ _ _ HB') as E2.
    unfold own_public in *. destruct (p_keys (ctx s)) as [k|] eqn:Ek; [|cbn in E1; congruence].
    destruct Hk as [Hk|[Hk _]]; [|discriminate]. rewrite Hk in E2. split; [congruence|].
    rewrite (B_key _ _ _ _ _ _ _ HB), (B_key _ _ _ _ _ _ _ HB'). apply Hp. discriminate. }
  assert (Hsome : (0 < v_rounds (view_of C l))%nat -> exists o, v_own (view_of C l) = Some o).
  { intro X. destruct (HQ2 0%nat X) as (l1 & e & pdu & evs1 & l2 & r & _ & _ & _ & Ho & _ & _ & _ & Hc).
    unfold confirm_matches in Hc. rewrite Ho in Hc. destruct (v_own (view_of C l)); [eauto|discriminate]. }
  rewrite view_of_snoc.
  (* the peer key and the count in the next view *)
  assert (Hcases : v_rounds (view_step C (view_of C l) (a, evs)) = 0%nat \/
     (v_peer (view_step C (view_of C l) (a, evs)) = v_peer (view_of C l) /\
      (v_rounds (view_step C (view_of C l) (a, evs)) = v_rounds (view_of C l) \/
       (v_rounds (view_step C (view_of C l) (a, evs)) = S (v_rounds (view_of C l)) /\
        exists e pdu r, a = AMsg e pdu /\ msg_of pdu = Some (4, r) /\ length r = 16%nat /\
          confirm_matches C (view_of C l) r (passkey_bit_op (v_passkey (view_of C l)) (v_rounds (view_of C l))) = true)))).
  { unfold view_step. cbn [fst snd v_rounds v_peer]. destruct a as [e pdu|e k oob| |e]; cbn [v_rounds v_peer]; try tauto.
    - unfold view_msg. destruct (msg_of pdu) as [[c d]|] eqn:Em; [|tauto].
      destruct ((c =? 2) && _); [left; reflexivity|]. destruct ((c =? 3) && _); [right; split; [reflexivity|left; reflexivity]|].
      destruct ((c =? 4) && _) eqn:E4.
      + apply andb_true_iff in E4. destruct E4 as [Ec El]. apply Z.eqb_eq in Ec. apply Nat.eqb_eq in El. subst c.
        right. split; [reflexivity|]. cbn [v_rounds]. destruct (confirm_matches _ _ _ _) eqn:Em2; [right|left; reflexivity].
        split; [reflexivity|]. exists e, pdu, d. repeat split; assumption.
      + destruct ((c =? 12) && _); [|right; split; [reflexivity|left; reflexivity]].
        destruct (v_own (view_of C l)); [|right; split; [reflexivity|left; reflexivity]].
        destruct (negb _ && _); [left; reflexivity|right; split; [reflexivity|left; reflexivity]].
    - destruct (existsb _ _); right; split; try reflexivity; left; reflexivity. }
  intros i Hi. destruct Hcases as [Hz|(Hpeer & Hcases)]; [rewrite Hz in Hi; lia|].
  rewrite Hpeer. destruct Hcases as [Heq|(Heq & e & pdu & r & Ha & Hm & Hr & Hc)].
  - rewrite Heq in Hi. destruct (Hsome ltac:(lia)) as [o Ho]. destruct (Hown _ Ho) as [-> ->].
    apply round_in_snoc. rewrite <- Ho. now apply HQ2.
  - assert (Hex : exists o, v_own (view_of C l) = Some o).
    { unfold confirm_matches in Hc. destruct (v_own (view_of C l)); [eauto|discriminate]. }
    destruct Hex as [o Ho]. destruct (Hown _ Ho) as [-> ->].
    destruct (Nat.eq_dec i (v_rounds (view_of C l))) as [->|Hne].
    + exists l, e, pdu, evs, [], r. subst a. split; [reflexivity|]. split; [assumption|]. split; [assumption|].
      split; [assumption|]. repeat split; try reflexivity. assumption.
    + apply round_in_snoc. rewrite <- Ho. apply HQ2. lia.
Qed.

Theorem rounds_meaning : forall l s, srun C s0 l s -> trace_ok l ->
  forall i, (i < v_rounds (view_of C l))%nat ->
    round_in l i (v_own (view_of C l)) (v_peer (view_of C l)) (v_passkey (view_of C l)).
Proof.
  intros l s H Hl. enough (Q l s) by (now destruct H0). revert Hl.
  remember s0 as z eqn:Hz. induction H as [s|s l s1 a s2 evs H IH Hs]; intro Hl; subst.
  - split; [cbn; congruence|]. cbn. lia.
  - apply trace_ok_snoc in Hl. destruct Hl as [Hl He]. eapply Q_step; [exact H|exact Hl|exact He| |exact Hs]. now apply IH.
Qed.
End R.
