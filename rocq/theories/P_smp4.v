(** Run-level facts: where the keys that get stored come from. *)
Require Import Verif.Base Verif.M_smp Verif.S_smp Verif.P_smp Verif.P_smp2 Verif.P_smp3.

Section R.
Variable C : prims.
Variable HC : prims_ok C.
Variables (la ra : bytes) (lat rat : Z).
Notation s0 := (smp_new la ra lat rat).
Notation Bv := (B C la ra lat rat).

Lemma Handle_inv : forall e s pdu s' evs, Handle C e s pdu = Ret (s', evs) ->
  exists c d, msg_of pdu = Some (c, d) /\
  ((dispatch C e c d = None /\ ctx s' = ctx s /\ exists evs', evs = EOut (OSend (frame [5; 5])) :: evs' /\ Forall (fun x => x = EHandleErr) evs' /\
     waiting s' = waiting s /\ rclosed s' = rclosed s) \/
   (exists h p o r s1 evs1, dispatch C e c d = Some h /\ h (ctx s) = Ret (p, o, r) /\
     after_handler s p (match r with None => true | Some _ => false end) = Ret (s', evs1) /\ evs = map EOut o ++ evs1 /\ s1 = s')).
Proof.
  intros e s pdu s' evs H. unfold Handle in H.
  destruct (gfrom pdu 4) as [pl|] eqn:E1; [|discriminate]. cbn [gbind] in H.
  destruct (gidx pl 0) as [c|] eqn:E2; [|discriminate]. cbn [gbind] in H.
  destruct (gfrom pl 1) as [d|] eqn:E3; [|discriminate]. cbn [gbind] in H.
  assert (Hm : msg_of pdu = Some (c, d)).
  { unfold gfrom in E1, E3. destruct (Nat.leb 4 (length pdu)) eqn:L; [|discriminate]. apply Ret_inj in E1.
    do 4 (destruct pdu as [|? pdu]; [discriminate L|]). cbn in E1. subst pl.
    destruct pdu as [|c' d']; [discriminate E2|]. cbn in E2, E3. injection E2 as ->. apply Ret_inj in E3. subst. reflexivity. }
  exists c, d. split; [exact Hm|].
  destruct (dispatch C e c d) as [h|] eqn:Ed.
  - right. destruct (h (ctx s)) as [[[p o] r]|] eqn:Eh; [|discriminate]. cbn [gbind] in H.
    destruct (after_handler s p _) as [[s1 evs1]|] eqn:Ea; [|discriminate]. cbn [gbind fst snd] in H.
    injection H as <- <-. exists h, p, o, r, s1, evs1. repeat split; assumption.
  - left. split; [reflexivity|]. unfold send, bind, emit, must in H. destruct (e_write e); cbn in H; injection H as <- <-; cbn;
      (split; [reflexivity|]); eexists; (split; [reflexivity|]); (split; [|split; reflexivity]); repeat constructor.
Qed.

Lemma after_ctx : forall s p err s' evs, after_handler s p err = Ret (s', evs) ->
  (ctx s' = p \/ ctx s' = set_st Error p) /\ Forall (fun x => match x with EOut _ => False | _ => True end) evs.
Proof.
  intros s p err s' evs H. unfold after_handler in H. destruct err.
  - destruct (rclosed s); [discriminate|]. destruct (waiting s); injection H as <- <-; cbn; (split; [now right|]); repeat constructor.
  - destruct (p_st p); try (injection H as <- <-; cbn; split; [now left|constructor]).
    destruct (rclosed s); [|destruct (waiting s)]; injection H as <- <-; cbn; (split; [now left|]); repeat constructor.
Qed.

Lemma sent_own_app : forall a b own, sent_own (a ++ b) own = sent_own b (sent_own a own).
Proof. intros a b own. unfold sent_own. apply fold_left_app. Qed.
Lemma sent_own_none : forall evs own, Forall (fun x => match x with EOut _ => False | _ => True end) evs -> sent_own evs own = own.
Proof.
  induction evs as [|x evs IH]; intros own H; [reflexivity|]. apply Forall_cons_iff in H. destruct H as [H1 H2].
  unfold sent_own in *. cbn [fold_left]. destruct x; try contradiction; now apply IH.
Qed.

Lemma B_err : forall v p, Bv v p -> Bv v (set_st Error p).
Proof. intros v p H. destruct H. constructor; sp; assumption. Qed.

Lemma B_init : Bv view0 (ctx s0).
Proof. constructor; cbn; try reflexivity; try discriminate. Qed.

Lemma view_msg_hdr : forall v pdu c d, msg_of pdu = Some (c, d) -> view_msg C v pdu = view_msg C v (0 :: 0 :: 0 :: 0 :: c :: d).
Proof. intros v pdu c d H. unfold view_msg. rewrite H. reflexivity. Qed.

Lemma B_step : forall v s a s' evs, (match act_env a with Some e => env_ok e | None => True end) ->
  Bv v (ctx s) -> sstep C s a = Some (Ret (s', evs)) -> Bv (view_step C v (a, evs)) (ctx s').
Proof.
  intros v s a s' evs He HB H. destruct a as [e pdu|e k oob| |e]; cbn [sstep] in H; cbn [act_env] in He.
  - destruct (stuck s); [discriminate|]. apply Some_inj in H. destruct (Handle_inv _ _ _ _ _ H) as (c & d & Hm & Hh).
    unfold view_step. cbn [fst snd]. rewrite (view_msg_hdr _ _ _ _ Hm).
    destruct Hh as [(Hd & Hc & evs' & -> & Hf & _)|(h & p & o & r & s1 & evs1 & Hd & Hh & Ha & -> & ->)].
    + assert (Hv : view_msg C v (0 :: 0 :: 0 :: 0 :: c :: d) = v).
      { unfold view_msg. cbn [msg_of]. unfold dispatch in Hd.
        repeat match type of Hd with (if ?x then _ else _) = _ => destruct x eqn:?; [discriminate|] end.
        repeat match goal with E : (c =? ?n) = false |- _ => rewrite ?E; clear E end. reflexivity. }
      rewrite Hv. rewrite Hc. change (EOut (OSend (frame [5; 5])) :: evs') with ([EOut (OSend (frame [5; 5]))] ++ evs').
      rewrite sent_own_app, sent_frame. cbn [Z.eqb Pos.eqb].
      rewrite sent_own_none; [destruct v; exact HB|].
      eapply Forall_impl; [|exact Hf]. intros x ->. exact I.
    + pose proof (B_dispatch C HC la ra lat rat e c d v (ctx s) h He HB Hd _ _ _ Hh) as HB'. cbv beta in HB'.
      destruct (after_ctx _ _ _ _ _ Ha) as [Hc Hn].
      rewrite sent_own_app, (sent_own_none evs1) by assumption.
      fold (see (view_msg C v (0 :: 0 :: 0 :: 0 :: c :: d)) o).
      destruct Hc as [->| ->]; [exact HB'|now apply B_err].
  - apply Some_inj in H. unfold Pair in H.
    assert (Hn : forall x, Ret (s, [EPairRet false]) = Ret (s', evs) -> x = view_step C v (APair e k oob, evs) -> Bv x (ctx s')).
    { intros x Hx ->. injection Hx as <- <-. unfold view_step. cbn. destruct v. exact HB. }
    destruct (p_st (ctx s)); try (eapply Hn; [exact H|reflexivity]). clear Hn.
    unfold StartPairing, sendPairingRequest, send, bind, modify, get, emit, must in H.
    set (p1 := if (0 <? length oob)%nat then _ else _) in H.
    assert (HB1 : Bv (mkV (v_conf v) (v_own v) (v_peer v) k (v_rounds v)) p1).
    { destruct HB. unfold p1. destruct (0 <? length oob)%nat; constructor; sp; try assumption; reflexivity. }
    destruct (e_write e); cbn in H; injection H as <- <-; unfold view_step; cbn [fst snd existsb map app ctx];
      destruct HB1; constructor; sp; cbn [v_conf v_own v_peer v_passkey v_rounds] in *; assumption.
  - destruct (waiting s); [|discriminate]. injection H as <- <-. unfold view_step. cbn. destruct v. exact HB.
  - apply Some_inj in H. destruct (StartEncryption e (ctx s)) as [[[p o] r]|] eqn:E; [|discriminate]. cbn [gbind] in H.
    injection H as <- <-. unfold view_step. cbn [fst snd ctx]. fold (see v o).
    revert p o r E. change (wp (StartEncryption e) (ctx s) (fun p o _ => Bv (see v o) p)).
    apply B_other; [|assumption]. wps; sp; cbn [map]; repeat (split; [reflexivity|]); reflexivity.
Qed.

Lemma view_of_snoc : forall l x, view_of C (l ++ [x]) = view_step C (view_of C l) x.
Proof. intros l x. unfold view_of. now rewrite fold_left_app. Qed.

Lemma trace_ok_snoc : forall l x, trace_ok (l ++ [x]) -> trace_ok l /\ match act_env (fst x) with Some e => env_ok e | None => True end.
Proof.
  intros l x H. unfold trace_ok in *. apply Forall_app in H. destruct H as [H1 H2]. split; [assumption|].
  apply Forall_cons_iff in H2. tauto.
Qed.

Theorem run_B : forall l s, srun C s0 l s -> trace_ok l -> Bv (view_of C l) (ctx s).
Proof.
  intros l s H. remember s0 as z eqn:Hz. induction H as [s|s l s1 a s2 evs H IH Hs]; intro Hl; subst.
  - exact B_init.
  - apply trace_ok_snoc in Hl. destruct Hl as [Hl He]. rewrite view_of_snoc. eapply B_step; [exact He| |exact Hs]. now apply IH.
Qed.

Notation key_agreed := (S_smp.key_agreed C la ra lat rat).
Notation mackey_of := (S_smp.mackey_of C la ra lat rat).
Notation ltk_of := (S_smp.ltk_of C la ra lat rat).
Notation op_a := (S_smp.op_a la lat).
Notation op_b := (S_smp.op_b ra rat).
Definition K (l : list (sact * list ev)) (p : pctx) : Prop :=
  (p_mac p = [] /\ (Forall plain l -> p_bond p = None)) \/
  (exists k b na nb, key_agreed l k b na nb /\ p_mac p = mackey_of k b na nb /\
     (Forall plain l -> p_bond p = Some (mkBond (ltk_of k b na nb) 0 0 false))).

Lemma key_agreed_snoc : forall l x k b na nb, key_agreed l k b na nb -> key_agreed (l ++ [x]) k b na nb.
Proof.
  intros l x k b na nb (l1 & e & pdu & evs & l2 & s1 & -> & H). exists l1, e, pdu, evs, (l2 ++ [x]), s1.
  split; [now rewrite <- app_assoc|exact H].
Qed.

Lemma K_same : forall l x p p', K l p -> p_mac p' = p_mac p -> (plain x -> p_bond p' = p_bond p) -> K (l ++ [x]) p'.
Proof.
  intros l x p p' HK Hm Hb. destruct HK as [[H1 H2]|(k & b & na & nb & H1 & H2 & H3)].
  - left. split; [congruence|]. intro Hp. apply Forall_app in Hp. destruct Hp as [Hp Hx]. apply Forall_cons_iff in Hx.
    rewrite Hb by tauto. now apply H2.
  - right. exists k, b, na, nb. split; [now apply key_agreed_snoc|]. split; [congruence|].
    intro Hp. apply Forall_app in Hp. destruct Hp as [Hp Hx]. apply Forall_cons_iff in Hx.
    rewrite Hb by tauto. now apply H3.
Qed.

Lemma rev_addr : forall a ty, rev (rev a ++ [ty]) = addr_op ty a.
Proof. intros a ty. rewrite rev_app_distr, rev_involutive. reflexivity. Qed.

Lemma lrand_some : forall p, length (lrand p) = 16%nat -> p_lrand p = Some (lrand p).
Proof. intros p H. unfold lrand in *. destruct (p_lrand p); [reflexivity|discriminate]. Qed.

Lemma confirmed_view : forall v p b, Bv v p -> length b = 16%nat -> confirmed C p b -> p_legacy p = false ->
  exists k q, v_own v = Some (key_wire (pub_of C k)) /\ p_keys p = Some k /\ v_peer v = Some q /\ p_rpub p = Some (key_of_wire q) /\
    match p_type p with
    | Passkey => confirm_matches C v b (passkey_bit_op (v_passkey v) (v_rounds v)) = true /\ (20 <= S (v_rounds v))%nat
    | _ => confirm_matches C v b 0 = true
    end.
Proof.
  intros v p b HB Hb (k & q & Hk & Hq & Hf & Hi) Hl.
  assert (Ho : MarshalPublicKeyX (own_public C p) = Ret (swap (firstn 32 (pub_of C k)))) by (unfold own_public; now rewrite Hk).
  assert (Hr : MarshalPublicKeyX (p_rpub p) = Ret (swap (firstn 32 q))) by now rewrite Hq.
  destruct (confirm_calc C HC la ra lat rat v p b _ _ _ _ HB Hr Ho Hb Hf) as (a & w & Ha & Hw & Hc).
  pose proof (B_own _ _ _ _ _ _ _ HB) as Hown. unfold own_public in Hown. rewrite Hk in Hown. unfold option_map in Hown.
  pose proof (B_peer _ _ _ _ _ _ _ HB) as Hpeer. rewrite Hw in Hpeer. unfold option_map in Hpeer.
  exists k, w. split; [assumption|]. split; [assumption|]. split; [assumption|]. split; [assumption|].
  apply Some_inj in Hc. rewrite (B_conf _ _ _ _ _ _ _ HB) in Hc.
  unfold confirm_matches. rewrite Ha, Hw.
  destruct (p_type p) eqn:Et; rewrite Hc; try apply beq_bytes_refl.
  rewrite <- (B_iter _ _ _ _ _ _ _ HB Et Hl), passkey_z_spec, <- (B_key _ _ _ _ _ _ _ HB).
  split; [apply beq_bytes_refl|]. now apply Hi.
Qed.

Lemma K_step : forall l s a s' evs, srun C s0 l s -> trace_ok l -> (match act_env a with Some e => env_ok e | None => True end) ->
  K l (ctx s) -> sstep C s a = Some (Ret (s', evs)) -> K (l ++ [(a, evs)]) (ctx s').
Proof.
  intros l s a s' evs Hrun Hl He HK H. pose proof (run_B _ _ Hrun Hl) as HB.
  pose proof (B_step _ _ _ _ _ He HB H) as HB'.
  destruct a as [e pdu|e k oob| |e]; cbn [sstep] in H.
  - destruct (stuck s); [discriminate|]. apply Some_inj in H. destruct (Handle_inv _ _ _ _ _ H) as (c & d & Hm & Hh).
    destruct Hh as [(Hd & Hc & _)|(h & p & o & r & s1 & evs1 & Hd & Hh & Ha & -> & ->)].
    { rewrite Hc. apply (K_same _ _ _ _ HK); reflexivity. }
    destruct (after_ctx _ _ _ _ _ Ha) as [Hc Hn].
    assert (Hkp : K (l ++ [(AMsg e pdu, map EOut o ++ evs1)]) p -> K (l ++ [(AMsg e pdu, map EOut o ++ evs1)]) (ctx s')).
    { destruct Hc as [->| ->]; intro X; exact X. }
    apply Hkp. clear Hkp. unfold dispatch in Hd.
    repeat match type of Hd with
    | (if ?x then _ else _) = _ => destruct x eqn:?
    end; try discriminate Hd; apply Some_inj in Hd; subst h;
    repeat match goal with E : (_ =? _) = true |- _ => apply Z.eqb_eq in E; subst c end.
    + destruct (rsp_quiet C e d _ _ _ _ Hh) as [[H1 H2] _]. apply (K_same _ _ _ _ HK); auto.
    + destruct (conf_quiet e d _ _ _ _ Hh) as [[H1 H2] _]. apply (K_same _ _ _ _ HK); auto.
    + destruct (rand_effect C e d _ _ _ _ Hh) as [[[H1 H2] _]|Hx]; [apply (K_same _ _ _ _ HK); auto|].
      destruct Hx as (Hlg & Hlen & Hcf & k & q & mk & lt & Hk & Hq & H5 & Hmac & Hbond & _).
      destruct (confirmed_view _ _ _ HB Hlen Hcf Hlg) as (k' & w & Ho & Hk' & Hw & Hq' & Hv).
      assert (k' = k) by congruence. assert (q = key_of_wire w) by congruence. subst k' q. clear Hk' Hq'.
      right. exists k, w, (lrand (ctx s)), d.
      destruct (F5_inv _ _ _ _ _ _ _ H5) as (L1 & L2 & L3 & L4 & L5).
      rewrite F5_spec in H5 by assumption.
      unfold swap in H5. rewrite rev_involutive in H5.
      rewrite (B_laddr _ _ _ _ _ _ _ HB), (B_raddr _ _ _ _ _ _ _ HB), (B_lat _ _ _ _ _ _ _ HB), (B_rat _ _ _ _ _ _ _ HB), !rev_addr in H5.
      split; [|split].
      * exists l, e, pdu, (map EOut o ++ evs1), [], s. split; [reflexivity|]. split; [assumption|]. split; [assumption|].
        split; [assumption|]. split; [assumption|]. split; [now apply lrand_some|].
        destruct (p_type (ctx s)); try assumption. destruct Hv as [Hv1 Hv2].
        rewrite view_of_snoc. unfold view_step. cbn [fst snd v_rounds]. rewrite (view_msg_hdr _ _ _ _ Hm).
        unfold view_msg. cbn [msg_of Z.eqb Pos.eqb andb]. rewrite (proj2 (Nat.eqb_eq _ _) Hlen). cbn [v_rounds]. rewrite Hv1. exact Hv2.
      * rewrite Hmac. unfold mackey_of, op_a, op_b. congruence.
      * intros _. rewrite Hbond. unfold ltk_of, op_a, op_b. congruence.
    + destruct (fail_quiet e d _ _ _ _ Hh) as [[H1 H2] _]. apply (K_same _ _ _ _ HK); auto.
    + destruct (enc_quiet e d _ _ _ _ Hh) as [H1 _]. apply (K_same _ _ _ _ HK); [assumption|].
      unfold plain. cbn [fst]. rewrite Hm. intros (X & _). now destruct X.
    + destruct (mid_effect e d _ _ _ _ Hh) as [H1 _]. apply (K_same _ _ _ _ HK); [assumption|].
      unfold plain. cbn [fst]. rewrite Hm. intros (_ & X & _). now destruct X.
    + destruct (sec_quiet e d _ _ _ _ Hh) as [H1 _]. apply (K_same _ _ _ _ HK); [assumption|].
      unfold plain. cbn [fst]. rewrite Hm. intros (_ & _ & X). now destruct X.
    + destruct (pub_quiet C e d _ _ _ _ Hh) as [[H1 H2] _]. apply (K_same _ _ _ _ HK); auto.
    + destruct (dh_effect C e d _ _ _ _ Hh) as [[H1 H2] _]. apply (K_same _ _ _ _ HK); auto.
  - apply Some_inj in H. unfold Pair in H.
    assert (Hs : p_mac (ctx s') = p_mac (ctx s) /\ p_bond (ctx s') = p_bond (ctx s)).
    { assert (Hn : Ret (s, [EPairRet false]) = Ret (s', evs) -> p_mac (ctx s') = p_mac (ctx s) /\ p_bond (ctx s') = p_bond (ctx s)).
      { intro Hx. injection Hx as <- <-. now split. }
      destruct (p_st (ctx s)); try (exact (Hn H)). clear Hn.
      unfold StartPairing, sendPairingRequest, send, bind, modify, get, emit, must in H.
      destruct (0 <? length oob)%nat, (e_write e); cbn in H; injection H as <- <-; split; reflexivity. }
    apply (K_same _ _ _ _ HK); tauto.
  - destruct (waiting s); [|discriminate]. injection H as <- <-. apply (K_same _ _ _ _ HK); reflexivity.
  - apply Some_inj in H. destruct (StartEncryption e (ctx s)) as [[[p o] r]|] eqn:E; [|discriminate]. cbn [gbind] in H.
    injection H as <- <-. cbn [ctx].
    assert (Hw : wp (StartEncryption e) (ctx s) (fun p o _ => p_mac p = p_mac (ctx s) /\ p_bond p = p_bond (ctx s)))
      by (wps; sp; split; reflexivity).
    destruct (Hw _ _ _ E) as [H1 H2]. apply (K_same _ _ _ _ HK); auto.
Qed.

Lemma run_K : forall l s, srun C s0 l s -> trace_ok l -> K l (ctx s).
Proof.
  intros l s H. remember s0 as z eqn:Hz. induction H as [s|s l s1 a s2 evs H IH Hs]; intro Hl; subst.
  - left. split; [reflexivity|reflexivity].
  - apply trace_ok_snoc in Hl. destruct Hl as [Hl He]. eapply K_step; [exact H|exact Hl|exact He| |exact Hs]. now apply IH.
Qed.
End R.
