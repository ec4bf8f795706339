(** Properties C42 to C45: the Security Manager. *)
Require Import Verif.Base Verif.M_smp Verif.S_smp Verif.P_smp Verif.P_smp2 Verif.P_smp3 Verif.P_smp4 Verif.P_smp5 Verif.P_smp6 Verif.P_smp7 Verif.P_smp8
  Verif.P_smp9 Verif.P_smp10 Verif.P_smp11 Verif.P_smp12 Verif.P_smp13.

(** ** A concrete instance of the primitives, to show that hypotheses about them can be met *)
Definition toy : prims := mkPrims
  (fun k m => firstn 16 (rev m ++ repeat 0 16)) (fun k m => firstn 16 (m ++ repeat 0 16)) (fun _ => true)
  (fun k => le_bytes 64 k) (fun _ _ => repeat 0 32).
Lemma toy_ok : prims_ok toy.
Proof.
  split; [|split].
  - intros k m. cbn [cmac toy]. rewrite firstn_length, app_length, repeat_length. lia.
  - intros k m. cbn [aes toy]. rewrite firstn_length, app_length, repeat_length. lia.
  - intro k. cbn [pub_of toy]. apply le_bytes_length.
Qed.
Lemma toy_bits : forall U V X, f4 toy U V X 0x81 <> f4 toy U V X 0x80.
Proof.
  intros U V X H. unfold f4 in H. cbn [cmac toy] in H. rewrite !app_assoc, !rev_app_distr in H. cbn [rev app] in H.
  rewrite !firstn_cons in H. discriminate H.
Qed.
Definition ok_env (n : nat) : env := mkEnv true (repeat (Z.of_nat n) 16) true (Some 5) None true true.
Lemma ok_env_calm : forall n, calm 5 (ok_env n).
Proof. intro n. unfold calm, ok_env. cbn [e_write e_rand e_rand_ok e_key e_save e_cmd]. rewrite repeat_length. repeat split. Qed.

(** * C42: the pairing method *)

(** On a Pairing Response whose IO capabilities (and those of our request) are defined codes, the method used is the one of
    the specification, when the OOB flags agree (or Secure Connections is used) - see the refutations for the rest. *)
Theorem C42_method_of_response : forall C la ra lat rat l s e rsp rest s' evs a b,
  srun C (smp_new la ra lat rat) l s ->
  io_cap (p_req (ctx s)) = io_code a -> io_cap rsp = io_code b ->
  (sc_bit rsp = false -> oob_present (p_req (ctx s)) = oob_present rsp) ->
  sstep C s (AMsg e (frame (2 :: cfg_bytes rsp ++ rest))) = Some (Ret (s', evs)) ->
  p_legacy (ctx s') = negb (sc_bit rsp) /\
  p_type (ctx s') = method (sc_bit rsp) (oob_present (p_req (ctx s))) (oob_present rsp) (mitm_bit (p_req (ctx s))) (mitm_bit rsp) a b.
Proof.
  intros C la ra lat rat l s e rsp rest s' evs a b Hrun Ha Hb Ho H. cbn [sstep] in H. destruct (stuck s); [discriminate|]. apply Some_inj in H.
  destruct (Handle_inv _ _ _ _ _ _ H) as (c & d & Hm & Hh). rewrite msg_frame in Hm. apply Some_inj in Hm. injection Hm as <- <-.
  destruct Hh as [(Hd & _)|(h & p & o & r & s1 & evs1 & Hd & Hh & Haf & -> & ->)]; [discriminate|].
  cbn [dispatch Z.eqb Pos.eqb] in Hd. apply Some_inj in Hd. subst h.
  assert (Hw : wp (smpOnPairingResponse C e (cfg_bytes rsp ++ rest)) (ctx s) (fun p' _ _ =>
     p_legacy p' = negb (sc_bit rsp) /\
     p_type p' = method (sc_bit rsp) (oob_present (p_req (ctx s))) (oob_present rsp) (mitm_bit (p_req (ctx s))) (mitm_bit rsp) a b)).
  { destruct rsp as [i o' au k ik rk]. cbn [cfg_bytes app].
    assert (Hdet : determinePairingType (p_req (ctx s)) (mkCfg i o' au k ik rk) (isLegacy au) = 
       Ret (method (sc_bit (mkCfg i o' au k ik rk)) (oob_present (p_req (ctx s))) (oob_present (mkCfg i o' au k ik rk)) (mitm_bit (p_req (ctx s))) (mitm_bit (mkCfg i o' au k ik rk)) a b)).
    { rewrite isLegacy_spec. unfold sc_bit in *. cbn [auth_req] in *.
      rewrite (determine_ok _ _ _ a b Ha Hb), negb_involutive; [reflexivity|].
      intro X. apply Ho. now apply negb_true_iff. }
    pose proof (isLegacy_spec au) as Hleg.
    wps; sp; unfold sc_bit in *; cbn [auth_req] in *;
      match goal with E : determinePairingType _ _ _ = Ret _ |- _ => rewrite Hdet in E; apply Ret_inj in E; subst end; split; first [exact Hleg|reflexivity|congruence]. }
  destruct (Hw _ _ _ Hh) as [W1 W2]. destruct (after_ctx _ _ _ _ _ Haf) as [[-> | ->] _]; split; assumption.
Qed.
Print Assumptions C42_method_of_response.

(** Reserved IO capability codes without OOB data give Just Works (no authentication is claimed). *)
Theorem C42_reserved_io_is_just_works : forall req rsp legacy, oob_present req = false -> oob_present rsp = false ->
  5 <= io_cap req \/ 5 <= io_cap rsp -> determinePairingType req rsp legacy = Ret JustWorks.
Proof.
  intros req rsp legacy H1 H2 H3. unfold determinePairingType, oob_present in *. rewrite H1, H2. cbn [andb orb].
  destruct (_ && _); [reflexivity|]. replace ((io_cap rsp >=? 5) || (io_cap req >=? 5)) with true; [reflexivity|].
  symmetry. apply orb_true_iff. rewrite !Z.geb_le. tauto.
Qed.
Print Assumptions C42_reserved_io_is_just_works.

(** The choice does not depend on anything but the two configurations (and is never a crash). *)
Theorem C42_choice_total : forall req rsp legacy, 0 <= io_cap req -> 0 <= io_cap rsp ->
  exists t, determinePairingType req rsp legacy = Ret t.
Proof.
  intros req rsp legacy H1 H2. pose proof (determine_np req rsp legacy H1 H2) as H. destruct (determinePairingType req rsp legacy) as [t|]; [eauto|congruence].
Qed.
Print Assumptions C42_choice_total.

(** Legacy pairing with OOB data on one side only: the code uses OOB although the specification does not. *)
Theorem C100_legacy_one_sided_oob_refuted : exists req rsp a b,
  io_cap req = io_code a /\ io_cap rsp = io_code b /\ sc_bit rsp = false /\ oob_present req = true /\ oob_present rsp = false /\
  determinePairingType req rsp true = Ret Oob /\
  method false true false (mitm_bit req) (mitm_bit rsp) a b = JustWorks.
Proof. exists (mkCfg 4 1 9 16 0 1), (mkCfg 3 0 1 16 0 1), KeyboardDisplay, NoInputNoOutput. repeat split. Qed.
Print Assumptions C100_legacy_one_sided_oob_refuted.

(** Secure Connections is used because the response asks for it, although our own request did not offer it. *)
Theorem C100_sc_without_offer_refuted : exists l s,
  srun toy (smp_new (repeat 1 6) (repeat 2 6) 0 0) l s /\ sc_bit (p_req (ctx s)) = false /\ p_legacy (ctx s) = false /\
  In (EOut (OSend (frame (12 :: key_wire (pub_of toy 5))))) (flat_map snd l).
Proof.
  set (s0 := smp_new (repeat 1 6) (repeat 2 6) 0 0).
  destruct (sstep toy s0 (AMsg (ok_env 0) (frame [11; 1]))) as [[[s1 e1]|]|] eqn:E1; try (vm_compute in E1; discriminate).
  destruct (sstep toy s1 (AMsg (ok_env 1) (frame [2; 4; 0; 9; 16; 0; 1]))) as [[[s2 e2]|]|] eqn:E2;
    try (vm_compute in E1; injection E1 as <- <-; vm_compute in E2; discriminate).
  exists ([] ++ [(AMsg (ok_env 0) (frame [11; 1]), e1)] ++ [(AMsg (ok_env 1) (frame [2; 4; 0; 9; 16; 0; 1]), e2)]), s2.
  split; [rewrite app_assoc; eapply srun_snoc; [eapply srun_snoc; [apply srun_nil|exact E1]|exact E2]|].
  vm_compute in E1. injection E1 as <- <-. vm_compute in E2. injection E2 as <- <-.
  split; [reflexivity|]. split; [reflexivity|]. vm_compute. right. left. reflexivity.
Qed.
Print Assumptions C100_sc_without_offer_refuted.

Example C42_example : method true false false true false KeyboardDisplay KeyboardOnly = Passkey /\
  method false false false true false KeyboardDisplay DisplayYesNo = Passkey /\ method true false false true true KeyboardDisplay DisplayYesNo = NumericComp.
Proof. repeat split. Qed.

(** * C43: confirm and check values *)

(** The toolbox functions are those of the specification (operands and results on the wire are reversed). *)
Theorem C43_f4 : forall C U V X z, length U = 32%nat -> length V = 32%nat -> length X = 16%nat ->
  smpF4 C (rev U) (rev V) (rev X) z = Some (rev (f4 C U V X z)).
Proof. intros C U V X z H1 H2 H3. rewrite F4_spec by (rewrite rev_length; assumption). now rewrite !rev_involutive. Qed.
Print Assumptions C43_f4.
Theorem C43_f5 : forall C, prims_ok C -> forall W N1 N2 A1 A2, length W = 32%nat -> length N1 = 16%nat -> length N2 = 16%nat -> length A1 = 7%nat -> length A2 = 7%nat ->
  smpF5 C (rev W) (rev N1) (rev N2) (rev A1) (rev A2) = Some (rev (f5_mackey C W N1 N2 A1 A2), rev (f5_ltk C W N1 N2 A1 A2)).
Proof. intros C HC W N1 N2 A1 A2 H1 H2 H3 H4 H5. rewrite F5_spec by (try assumption; rewrite rev_length; assumption). now rewrite !rev_involutive. Qed.
Print Assumptions C43_f5.
Theorem C43_f6 : forall C W N1 N2 R IO A1 A2, length W = 16%nat -> length N1 = 16%nat -> length N2 = 16%nat -> length R = 16%nat -> length IO = 3%nat ->
  length A1 = 7%nat -> length A2 = 7%nat ->
  smpF6 C (rev W) (rev N1) (rev N2) (rev R) (rev IO) (rev A1) (rev A2) = Some (rev (f6 C W N1 N2 R IO A1 A2)).
Proof. intros. rewrite F6_spec by (rewrite rev_length; assumption). now rewrite !rev_involutive. Qed.
Print Assumptions C43_f6.
(** The six digits shown for Numeric Comparison (a function the package defines but never calls). *)
Theorem C43_g2 : forall C U V X Y, length U = 32%nat -> length V = 32%nat -> length X = 16%nat -> length Y = 16%nat -> prims_ok C ->
  all_bytes (cmac C X (U ++ V ++ Y)) ->
  smpG2 C (rev U) (rev V) (rev X) (rev Y) = Some (g2 C U V X Y mod 1000000).
Proof. intros. now apply G2_spec. Qed.
Print Assumptions C43_g2.
Theorem C43_c1 : forall C, prims_ok C -> forall K R PRES PREQ rat iat IA RA, length K = 16%nat -> length R = 16%nat -> length PREQ = 7%nat -> length PRES = 7%nat ->
  length IA = 6%nat -> length RA = 6%nat ->
  smpC1 C (rev K) (rev R) (rev PREQ) (rev PRES) iat rat (rev IA) (rev RA) = Ret (Some (rev (c1 C K R PRES PREQ rat iat IA RA))).
Proof. intros C HC K R PRES PREQ rat iat IA RA H1 H2 H3 H4 H5 H6. rewrite C1_spec by (try assumption; rewrite rev_length; assumption). now rewrite !rev_involutive. Qed.
Print Assumptions C43_c1.
Theorem C43_s1 : forall C K R1 R2, length K = 16%nat -> length R1 = 16%nat -> length R2 = 16%nat ->
  smpS1 C (rev K) (rev R1) (rev R2) = Ret (Some (rev (s1 C K R1 R2))).
Proof. intros C K R1 R2 H1 H2 H3. rewrite S1_spec by (rewrite rev_length; assumption). now rewrite !rev_involutive. Qed.
Print Assumptions C43_s1.

(** The device sends its DHKey check only in answer to a nonce that matches the Confirm value received, for the keys exchanged
    and (passkey) the last of twenty passkey bits; the check it sends is the specified function of the shared secret. *)
Theorem C43_check_sent_only_if_confirmed : forall C, prims_ok C -> forall la ra lat rat l s e pdu s' evs x,
  srun C (smp_new la ra lat rat) l s -> trace_ok l ->
  sstep C s (AMsg e pdu) = Some (Ret (s', evs)) -> In (EOut (OSend (frame (13 :: x)))) evs ->
  let v := view_of C l in let p := ctx s in
  exists r k b na, msg_of pdu = Some (4, r) /\ length r = 16%nat /\ p_legacy p = false /\
    v_own v = Some (key_wire (pub_of C k)) /\ v_peer v = Some b /\ p_lrand p = Some na /\
    match p_type p with
    | Passkey => confirm_matches C v r (passkey_bit_op (v_passkey v) (v_rounds v)) = true /\ (19 <= v_rounds v)%nat
    | _ => confirm_matches C v r 0 = true
    end /\
    x = rev (f6 C (rev (mackey_of C la ra lat rat k b na r)) (rev na) (rev r) (r_op (p_type p) (v_passkey v) (p_oobdata p))
                (io_op (p_req p)) (addr_op lat la) (addr_op rat ra)).
Proof. intros C HC la ra lat rat. exact (dhkey_sent C HC la ra lat rat). Qed.
Print Assumptions C43_check_sent_only_if_confirmed.

(** The rounds counted by an observer are real: for each of them a nonce was received that matched the Confirm value for that
    bit of the passkey and the present keys. *)
Theorem C43_passkey_rounds_were_proved : forall C, prims_ok C -> forall la ra lat rat l s, srun C (smp_new la ra lat rat) l s -> trace_ok l ->
  forall i, (i < v_rounds (view_of C l))%nat ->
    round_in C l i (v_own (view_of C l)) (v_peer (view_of C l)) (v_passkey (view_of C l)).
Proof. intros C HC la ra lat rat. exact (rounds_meaning C HC la ra lat rat). Qed.
Print Assumptions C43_passkey_rounds_were_proved.

(** A Secure Connections bond (stored on a DHKey check message) is stored only when that check is the specified function of the
    MacKey of an accepted key agreement; without Encryption Information, Master Identification and Security Request messages
    its key is the LTK of that agreement.  Missing: the same when such messages interfere (see C44). *)
Theorem C43_bond_only_if_checked : forall C, prims_ok C -> forall la ra lat rat l s e pdu s' evs a bi d,
  srun C (smp_new la ra lat rat) l s -> trace_ok l ->
  sstep C s (AMsg e pdu) = Some (Ret (s', evs)) -> In (EOut (OSave a bi)) evs -> msg_of pdu = Some (13, d) ->
  let v := view_of C l in let p := ctx s in
  a = rev ra /\ exists k b na nb nb' na', key_agreed C la ra lat rat l k b na nb /\ p_lrand p = Some na' /\ p_rrand p = nb' /\
      d = rev (f6 C (rev (mackey_of C la ra lat rat k b na nb)) (rev nb') (rev na') (r_op (p_type p) (v_passkey v) (p_oobdata p))
                  (io_op (p_rsp p)) (addr_op rat ra) (addr_op lat la)) /\
      (Forall plain l -> bi = mkBond (ltk_of C la ra lat rat k b na nb) 0 0 false).
Proof.
  intros C HC la ra lat rat l s e pdu s' evs a bi d Hrun Hl H Hin Hm v p.
  destruct (bond_saved C HC la ra lat rat l s e pdu s' evs a bi Hrun Hl H Hin) as (Ha & c & d' & Hm' & [(X & _)|(_ & Hx)]);
    rewrite Hm in Hm'; apply Some_inj in Hm'; injection Hm' as <- <-; [discriminate|]. split; assumption.
Qed.
Print Assumptions C43_bond_only_if_checked.

(** Legacy pairing: encryption with the short term key starts on a nonce only if it matches the Confirm value received, and the
    key is the specified one. *)
Theorem C43_legacy_stk_only_if_confirmed : forall C, prims_ok C -> forall la ra lat rat l s e pdu s' evs r k ed rn,
  srun C (smp_new la ra lat rat) l s -> trace_ok l -> length la = 6%nat -> length ra = 6%nat ->
  p_legacy (ctx s) = true -> msg_of pdu = Some (4, r) ->
  sstep C s (AMsg e pdu) = Some (Ret (s', evs)) -> In (EOut (OStartEnc k ed rn)) evs ->
  exists na, p_lrand (ctx s) = Some na /\ length r = 16%nat /\
  v_conf (view_of C l) = rev (c1 C (tk_op (ctx s)) (rev r) (rev (2 :: cfg_bytes (p_rsp (ctx s)))) (rev (1 :: cfg_bytes (p_req (ctx s))))
                                 rat lat la ra) /\
  k = rev (s1 C (tk_op (ctx s)) (rev r) (rev na)) /\ ed = 0 /\ rn = 0.
Proof. intros C HC la ra lat rat. exact (legacy_confirmed C HC la ra lat rat). Qed.
Print Assumptions C43_legacy_stk_only_if_confirmed.

(** Pairing with a conforming peer completes: Just Works and Numeric Comparison.  The six exchanges in full; the key stored and
    used is f5 of the secret the peer has too. *)
Theorem C43_plain_pairing_completes : forall C, prims_ok C -> (forall k q, length (dh C k q) = 32%nat) ->
  forall la ra lat rat, length la = 6%nat -> length ra = 6%nat -> forall ka kb E,
  on_curve C (pub_of C kb) = true -> pub_of C ka <> pub_of C kb -> (forall n, calm ka (E n)) ->
  forall c k nb t, isLegacy (auth_req c) = false -> determinePairingType default_cfg c false = Ret t ->
  t = JustWorks \/ t = NumericComp -> length nb = 16%nat ->
  let XA := firstn 32 (pub_of C ka) in let XB := firstn 32 (pub_of C kb) in
  let opA := addr_op lat la in let opB := addr_op rat ra in
  let na := e_rand (E 3%nat) in
  let w := dh C ka (pub_of C kb) in
  let mk := f5_mackey C w (rev na) (rev nb) opA opB in
  let lt := rev (f5_ltk C w (rev na) (rev nb) opA opB) in
  exists s, srun C (smp_new la ra lat rat)
   [(APair (E 0%nat) k [], [EOut (OSend (frame (1 :: cfg_bytes default_cfg)))]);
    (AMsg (E 1%nat) (frame (2 :: cfg_bytes c)), [EOut (OSend (frame (12 :: key_wire (pub_of C ka))))]);
    (AMsg (E 2%nat) (frame (12 :: key_wire (pub_of C kb))), []);
    (AMsg (E 3%nat) (frame (3 :: rev (f4 C XB XA (rev nb) 0))), [EOut (OSend (frame (4 :: na)))]);
    (AMsg (E 4%nat) (frame (4 :: nb)), [EOut (OSend (frame (13 :: rev (f6 C mk (rev na) (rev nb) (repeat 0 16) (io_op default_cfg) opA opB))))]);
    (AMsg (E 5%nat) (frame (13 :: rev (f6 C mk (rev nb) (rev na) (repeat 0 16) (io_op c) opB opA))),
       [EOut (OSave (rev ra) (mkBond lt 0 0 false)); EOut (OStartEnc lt 0 0); EPairRet true])] s.
Proof. intros C HC HD la ra lat rat Hla Hra ka kb E HPB HPne HE. exact (plain_pairing C HC HD la ra lat rat Hla Hra ka kb E HPB HPne HE). Qed.
Print Assumptions C43_plain_pairing_completes.

(** A peer that knows the passkey completes a passkey pairing (forty-two messages), and both sides have the same key. *)
Theorem C43_passkey_pairing_completes : forall C, prims_ok C -> (forall k q, length (dh C k q) = 32%nat) ->
  forall la ra lat rat, length la = 6%nat -> length ra = 6%nat -> forall ka kb E,
  on_curve C (pub_of C kb) = true -> pub_of C ka <> pub_of C kb -> dh C kb (pub_of C ka) = dh C ka (pub_of C kb) -> (forall n, calm ka (E n)) ->
  forall nb k, (forall i, length (nb i) = 16%nat) -> 0 <= k < 2 ^ 20 ->
  exists l e pdu s',
  let lt := rev (f5_ltk C (dh C kb (pub_of C ka)) (rev (e_rand (E 40%nat))) (rev (nb 19%nat)) (addr_op lat la) (addr_op rat ra)) in
  let t := l ++ [(AMsg e pdu, [EOut (OSave (rev ra) (mkBond lt 0 0 false)); EOut (OStartEnc lt 0 0); EPairRet true])] in
  srun C (smp_new la ra lat rat) t s' /\ starts (APair (E 0%nat) k []) t /\ follows (peer C la ra lat rat kb (Some k) nb) t /\ under E t.
Proof. intros C HC HD la ra lat rat Hla Hra ka kb E HPB HPne Hdh HE. exact (honest_passkey C HC HD la ra lat rat Hla Hra ka kb E HPB HPne Hdh HE). Qed.
Print Assumptions C43_passkey_pairing_completes.

(** Legacy pairing (Just Works or passkey) with a peer that follows the protocol completes: the Confirm values and the short term
    key are the specified ones for the temporary key, the key distributed by the peer is stored, and Pair reports success. *)
Theorem C43_legacy_pairing_completes : forall C, prims_ok C ->
  forall la ra lat rat, length la = 6%nat -> length ra = 6%nat -> forall ka E, (forall n, calm ka (E n)) ->
  forall c k nb t key d0 d1 r, isLegacy (auth_req c) = true -> determinePairingType default_cfg c true = Ret t ->
  t = JustWorks \/ t = Passkey -> length nb = 16%nat -> length r = 8%nat ->
  let tk := match t with Passkey => passkey_op k | _ => repeat 0 16 end in
  let na := e_rand (E 1%nat) in
  let confirm n := rev (c1 C tk (rev n) (rev (2 :: cfg_bytes c)) (rev (1 :: cfg_bytes default_cfg)) rat lat la ra) in
  exists s, srun C (smp_new la ra lat rat)
   [(APair (E 0%nat) k [], [EOut (OSend (frame (1 :: cfg_bytes default_cfg)))]);
    (AMsg (E 1%nat) (frame (2 :: cfg_bytes c)), [EOut (OSend (frame (3 :: confirm na)))]);
    (AMsg (E 2%nat) (frame (3 :: confirm nb)), [EOut (OSend (frame (4 :: na)))]);
    (AMsg (E 3%nat) (frame (4 :: nb)), [EOut (OStartEnc (rev (s1 C tk (rev nb) (rev na))) 0 0)]);
    (AMsg (E 4%nat) (frame (6 :: key)), []);
    (AMsg (E 5%nat) (frame (7 :: d0 :: d1 :: r)), [EOut (OSave (rev ra) (mkBond key (d0 + 256 * d1) (le_val r) true)); EPairRet true])] s.
Proof.
  intros C HC la ra lat rat Hla Hra ka E HE c k nb t key d0 d1 r Hl Ht Htt Hnb Hr.
  apply (legacy_pairing C HC la ra lat rat Hla Hra ka E HE c k [] nb t key d0 d1 r Hl Ht); [destruct Htt; congruence|exact Hnb|exact Hr].
Qed.
Print Assumptions C43_legacy_pairing_completes.
Example C43_legacy_example : isLegacy (auth_req (mkCfg 0 0 5 16 0 1)) = true /\
  determinePairingType default_cfg (mkCfg 0 0 5 16 0 1) true = Ret Passkey /\ determinePairingType default_cfg (mkCfg 3 0 1 16 0 1) true = Ret JustWorks /\
  (forall n, calm 5 (ok_env n)).
Proof. repeat split. Qed.

(** Passkey pairing does not authenticate the peer: one fixed strategy, which is not given the passkey, completes the pairing
    whatever passkey was entered: it makes the device reveal each nonce by a meaningless Confirm before committing itself.
    [f4 ... 0x81 <> f4 ... 0x80] says that the two possible Confirm values of a round differ. *)
Theorem C101_passkey_unneeded_refuted : forall C, prims_ok C -> (forall k q, length (dh C k q) = 32%nat) ->
  (forall U V X, f4 C U V X 0x81 <> f4 C U V X 0x80) ->
  forall la ra lat rat, length la = 6%nat -> length ra = 6%nat -> forall kb, on_curve C (pub_of C kb) = true ->
  exists strategy, forall k, 0 <= k < 1000000 ->
  forall ka E, pub_of C ka <> pub_of C kb -> dh C kb (pub_of C ka) = dh C ka (pub_of C kb) -> (forall n, calm ka (E n)) ->
  exists l e pdu s' lt,
  let t := l ++ [(AMsg e pdu, [EOut (OSave (rev ra) (mkBond lt 0 0 false)); EOut (OStartEnc lt 0 0); EPairRet true])] in
  srun C (smp_new la ra lat rat) t s' /\ starts (APair (E 0%nat) k []) t /\ follows strategy t /\ under E t /\
  lt = rev (f5_ltk C (dh C kb (pub_of C ka)) (rev (e_rand (E 59%nat))) (repeat 0 16) (addr_op lat la) (addr_op rat ra)).
Proof.
  intros C HC HD Hb la ra lat rat Hla Hra kb HPB. exists (peer C la ra lat rat kb None (fun _ => repeat 0 16)).
  intros k Hk ka E HPne Hdh HE.
  destruct (passkey_attack C HC HD la ra lat rat Hla Hra ka kb E HPB HPne Hdh HE (fun _ => repeat 0 16)) with (k := k) as (l & e & pdu & s' & H).
  - intro i. reflexivity.
  - exact Hb.
  - lia.
  - cbv zeta in H. destruct H as (H1 & H2 & H3 & H4). eexists l, e, pdu, s', _. cbv zeta. 
    split; [exact H1|]. split; [exact H2|]. split; [exact H3|]. split; [exact H4|]. reflexivity.
Qed.
Print Assumptions C101_passkey_unneeded_refuted.

(** When the peer asks for pairing (Security Request) no passkey is asked for: the pairing uses the passkey 0, and a peer that
    just assumes so completes an authenticated (passkey) pairing. *)
Theorem C101_requested_passkey_is_zero_refuted : forall C, prims_ok C -> (forall k q, length (dh C k q) = 32%nat) ->
  forall la ra lat rat, length la = 6%nat -> length ra = 6%nat -> forall ka kb E,
  on_curve C (pub_of C kb) = true -> pub_of C ka <> pub_of C kb -> dh C kb (pub_of C ka) = dh C ka (pub_of C kb) -> (forall n, calm ka (E n)) ->
  e_find (E 0%nat) = None ->
  forall nb, (forall i, length (nb i) = 16%nat) ->
  exists l e pdu s',
  let lt := rev (f5_ltk C (dh C kb (pub_of C ka)) (rev (e_rand (E 40%nat))) (rev (nb 19%nat)) (addr_op lat la) (addr_op rat ra)) in
  let t := l ++ [(AMsg e pdu, [EOut (OSave (rev ra) (mkBond lt 0 0 false)); EOut (OStartEnc lt 0 0)])] in
  srun C (smp_new la ra lat rat) t s' /\ starts (AMsg (E 0%nat) (frame [11; 13])) t /\ follows (peer C la ra lat rat kb (Some 0) nb) t /\ under E t.
Proof.
  intros C HC HD la ra lat rat Hla Hra ka kb E HPB HPne Hdh HE Hf nb Hnb.
  exact (security_request_passkey C HC HD la ra lat rat Hla Hra ka kb E HPB HPne Hdh HE nb Hnb Hf).
Qed.
Print Assumptions C101_requested_passkey_is_zero_refuted.

(** Numeric Comparison is announced but no comparison takes place: the pairing completes without any confirmation by the user
    (the only inputs of the device are the messages of the peer). *)
Theorem C101_numeric_comparison_not_asked_refuted : forall C, prims_ok C -> (forall k q, length (dh C k q) = 32%nat) ->
  forall la ra lat rat, length la = 6%nat -> length ra = 6%nat -> forall ka kb E,
  on_curve C (pub_of C kb) = true -> pub_of C ka <> pub_of C kb -> (forall n, calm ka (E n)) ->
  exists rsp l s, 
    method true false false (mitm_bit default_cfg) (mitm_bit rsp) KeyboardDisplay DisplayYesNo = NumericComp /\ io_cap rsp = io_code DisplayYesNo /\ sc_bit rsp = true /\
    srun C (smp_new la ra lat rat) l s /\ starts (APair (E 0%nat) 0 []) l /\ In (AMsg (E 1%nat) (frame (2 :: cfg_bytes rsp))) (map fst l) /\
    In (EPairRet true) (flat_map snd l).
Proof.
  intros C HC HD la ra lat rat Hla Hra ka kb E HPB HPne HE. exists (mkCfg 1 0 13 16 0 1).
  destruct (plain_pairing C HC HD la ra lat rat Hla Hra ka kb E HPB HPne HE (mkCfg 1 0 13 16 0 1) 0 (repeat 0 16) NumericComp) as (s & H);
    [reflexivity|reflexivity|now right|reflexivity|].
  eexists _, s. split; [reflexivity|]. split; [reflexivity|]. split; [reflexivity|]. split; [exact H|]. split; [|split].
  - split; [reflexivity|]. cbn [tl]. repeat (apply Forall_cons; [eexists _, _; reflexivity|]). apply Forall_nil.
  - right. left. reflexivity.
  - cbn [flat_map snd app]. do 6 right. left. reflexivity.
Qed.
Print Assumptions C101_numeric_comparison_not_asked_refuted.

(** Legacy pairing with out-of-band data does not use the data: a peer that sends fixed messages, chosen without the data and
    without listening, completes it and has its key stored; the link is encrypted with a key computed from the temporary key 0. *)
Theorem C101_oob_unneeded_refuted : forall C, prims_ok C ->
  forall la ra lat rat, length la = 6%nat -> length ra = 6%nat -> forall key,
  exists c, oob_present c = true /\ exists m1 m2 m3 m4 m5, forall o, o <> [] ->
  forall ka E, (forall n, calm ka (E n)) -> forall k,
  exists e1 e2 e3 s, srun C (smp_new la ra lat rat)
   [(APair (E 0%nat) k o, [EOut (OSend (frame (1 :: cfg_bytes (mkCfg 4 1 9 16 0 1))))]);
    (AMsg (E 1%nat) m1, e1); (AMsg (E 2%nat) m2, e2); (AMsg (E 3%nat) m3, e3); (AMsg (E 4%nat) m4, []);
    (AMsg (E 5%nat) m5, [EOut (OSave (rev ra) (mkBond key 1 1 true)); EPairRet true])] s /\
  e2 = [EOut (OSend (frame (4 :: e_rand (E 1%nat))))] /\
  e3 = [EOut (OStartEnc (rev (s1 C (repeat 0 16) (repeat 0 16) (rev (e_rand (E 1%nat))))) 0 0)].
Proof.
  intros C HC la ra lat rat Hla Hra key. exists (mkCfg 4 1 1 16 0 1). split; [reflexivity|].
  exists (frame (2 :: cfg_bytes (mkCfg 4 1 1 16 0 1))).
  exists (frame (3 :: lconf C la ra lat rat (repeat 0 16) (repeat 0 16) (mkCfg 4 1 9 16 0 1) (mkCfg 4 1 1 16 0 1))).
  exists (frame (4 :: repeat 0 16)), (frame (6 :: key)), (frame (7 :: 1 :: 0 :: [1; 0; 0; 0; 0; 0; 0; 0])).
  intros o Ho ka E HE k.
  assert (Q : req_of o = mkCfg 4 1 9 16 0 1) by (destruct o; [congruence|reflexivity]).
  destruct (legacy_pairing C HC la ra lat rat Hla Hra ka E HE (mkCfg 4 1 1 16 0 1) k o (repeat 0 16) Oob key 1 0 [1; 0; 0; 0; 0; 0; 0; 0]) as (s & H);
    [reflexivity|rewrite Q; reflexivity|intros _; exact Ho|reflexivity|reflexivity|].
  rewrite Q in H. eexists _, _, _, s. split; [exact H|]. split; reflexivity.
Qed.
Print Assumptions C101_oob_unneeded_refuted.

(** The hypotheses of the above can be met. *)
Example C43_example : prims_ok toy /\ (forall k q, length (dh toy k q) = 32%nat) /\ (forall U V X, f4 toy U V X 0x81 <> f4 toy U V X 0x80) /\
  on_curve toy (pub_of toy 6) = true /\ pub_of toy 5 <> pub_of toy 6 /\ dh toy 6 (pub_of toy 5) = dh toy 5 (pub_of toy 6) /\
  (forall n, calm 5 (ok_env n)) /\ e_find (ok_env 0) = None.
Proof.
  split; [apply toy_ok|]. split; [reflexivity|]. split; [apply toy_bits|]. split; [reflexivity|]. split; [discriminate|]. split; [reflexivity|].
  split; [apply ok_env_calm|reflexivity].
Qed.

(** * C44: a bond is stored only after a completed pairing *)

(** What the code guarantees: a bond is stored only on a DHKey check that verifies against an accepted key agreement, or on a Master
    Identification message - then with the key of the Encryption Information message (or of an earlier bond).  Missing: that the
    latter happens only in a pairing - it is false, see below. *)
Theorem C44_bond_stored_only_on_partial : forall C, prims_ok C -> forall la ra lat rat l s e pdu s' evs a bi,
  srun C (smp_new la ra lat rat) l s -> trace_ok l ->
  sstep C s (AMsg e pdu) = Some (Ret (s', evs)) -> In (EOut (OSave a bi)) evs ->
  a = rev ra /\ exists c d, msg_of pdu = Some (c, d) /\
  ((c = 7 /\ exists b0, p_bond (ctx s) = Some b0 /\ ltk bi = ltk b0 /\ blegacy bi = true) \/
   (c = 13 /\ exists k b na nb, key_agreed C la ra lat rat l k b na nb)).
Proof.
  intros C HC la ra lat rat l s e pdu s' evs a bi Hrun Hl H Hin.
  destruct (bond_saved C HC la ra lat rat l s e pdu s' evs a bi Hrun Hl H Hin) as (Ha & c & d & Hm & Hx).
  split; [exact Ha|]. exists c, d. split; [exact Hm|]. destruct Hx as [Hx|(Hc & k & b & na & nb & _ & _ & Hag & _)]; [now left|right].
  split; [exact Hc|]. now exists k, b, na, nb.
Qed.
Print Assumptions C44_bond_stored_only_on_partial.

(** A call of Pair reports success only on a verified DHKey check, on a Master Identification message, or (without bonding) on
    a legacy nonce. *)
Theorem C44_pair_success_only_on_partial : forall C, prims_ok C -> forall la ra lat rat l s a s' evs,
  srun C (smp_new la ra lat rat) l s -> trace_ok l -> sstep C s a = Some (Ret (s', evs)) -> In (EPairRet true) evs ->
  exists e pdu c d, a = AMsg e pdu /\ msg_of pdu = Some (c, d) /\ waiting s = true /\
  (c = 7 \/
   (c = 4 /\ p_legacy (ctx s) = true /\ Z.land (auth_req (p_req (ctx s))) 3 = 0) \/
   (c = 13 /\ exists k b na nb nb' na', key_agreed C la ra lat rat l k b na nb /\ p_lrand (ctx s) = Some na' /\ p_rrand (ctx s) = nb' /\
      d = rev (f6 C (rev (mackey_of C la ra lat rat k b na nb)) (rev nb') (rev na')
                  (r_op (p_type (ctx s)) (v_passkey (view_of C l)) (p_oobdata (ctx s)))
                  (io_op (p_rsp (ctx s))) (addr_op rat ra) (addr_op lat la)))).
Proof. intros C HC la ra lat rat. exact (pair_success C HC la ra lat rat). Qed.
Print Assumptions C44_pair_success_only_on_partial.

(** A peer gets any key of its choice stored as the bond, without any pairing: two messages on a fresh connection. *)
Theorem C44_key_of_peer_stored_refuted : forall C la ra lat rat e key ed rnd, length key = 16%nat -> 0 <= ed < 65536 ->
  length rnd = 8%nat -> e_save e = true ->
  exists s, srun C (smp_new la ra lat rat)
    [(AMsg e (frame (6 :: key)), []);
     (AMsg e (frame (7 :: le16 ed ++ rnd)), [EOut (OSave (rev ra) (mkBond key ed (le_val rnd) true))])] s.
Proof.
  intros C la ra lat rat e key ed rnd Hk Hed Hr Hs.
  set (s0 := smp_new la ra lat rat). set (p1 := set_bond (Some (mkBond key 0 0 true)) (ctx s0)).
  assert (H1 : sstep C s0 (AMsg e (frame (6 :: key))) = Some (Ret (mkSmp p1 false false false, []))) by reflexivity.
  set (b := mkBond key ed (le_val rnd) true).
  assert (H2 : sstep C (mkSmp p1 false false false) (AMsg e (frame (7 :: le16 ed ++ rnd))) =
    Some (Ret (mkSmp (set_st Finished (set_bond (Some b) p1)) false true false, [EOut (OSave (rev ra) b)]))).
  { cbn [sstep stuck]. f_equal.
    rewrite (Handle_runs_end C e (mkSmp p1 false false false) 7 (le16 ed ++ rnd) _ (set_st Finished (set_bond (Some b) p1)) [OSave (rev ra) b] eq_refl);
      [reflexivity| |reflexivity|reflexivity].
    assert (Ll : length (le16 ed) = 2%nat) by reflexivity.
    unfold smpOnMasterIdentification. eapply r_conv.
    - rstep; [rstep; apply gslice_ok; rewrite ?app_length; lia|]. 
      rstep; [rstep; reflexivity|].
      rstep; [rstep; apply gfrom_ok; rewrite ?app_length; lia|].
      rstep; [rstep; apply gslice_ok; [lia|rewrite skipn_length, app_length; lia]|].
      rstep; [rstep|]. cbn [ctx p_bond p1 set_bond]. rstep; [rstep|]. rstep; [|rstep].
      unfold saveBondInfo. rstep; [rstep|]. cbn. rstep; [rstep|]. rstep. exact Hs.
    - cbn [ctx]. do 3 f_equal. unfold b. f_equal.
      + apply de16_le16. exact Hed.
      + do 8 (destruct rnd as [|? rnd]; [discriminate Hr|]). destruct rnd; [reflexivity|discriminate Hr].
    - cbn [app]. unfold b. do 3 f_equal.
      + apply de16_le16. exact Hed.
      + do 8 (destruct rnd as [|? rnd]; [discriminate Hr|]). destruct rnd; [reflexivity|discriminate Hr]. }
  exists (mkSmp (set_st Finished (set_bond (Some b) p1)) false true false).
  exact (srun_snoc C s0 _ _ _ _ _ (srun_snoc C s0 _ _ _ _ _ (srun_nil C s0) H1) H2).
Qed.
Print Assumptions C44_key_of_peer_stored_refuted.

(** The same two messages make a waiting call of Pair report success although no key agreement took place. *)
Theorem C44_pair_succeeds_without_pairing_refuted : forall C la ra lat rat e k, e_write e = true -> e_save e = true ->
  exists s key, srun C (smp_new la ra lat rat)
    [(APair e k [], [EOut (OSend (frame (1 :: cfg_bytes default_cfg)))]);
     (AMsg e (frame (6 :: key)), []);
     (AMsg e (frame (7 :: repeat 1 10)), [EOut (OSave (rev ra) (mkBond key 257 72340172838076673 true)); EPairRet true])] s /\
    rclosed s = true /\ stuck s = false.
Proof.
  intros C la ra lat rat e k Hw Hs. set (key := repeat 7 16). set (s0 := smp_new la ra lat rat).
  set (p1 := set_st WaitPairingResponse (set_oobdata [] (set_passkey k (ctx s0)))).
  assert (H1 : sstep C s0 (APair e k []) = Some (Ret (mkSmp p1 true false false, [EOut (OSend (frame (1 :: cfg_bytes default_cfg)))]))).
  { cbn [sstep]. unfold Pair. cbn [ctx smp_new p_st]. unfold StartPairing, sendPairingRequest, send, bind, modify, get, emit, must.
    cbn [length Nat.ltb Nat.leb]. rewrite Hw. reflexivity. }
  set (p2 := set_bond (Some (mkBond key 0 0 true)) p1).
  assert (H2 : sstep C (mkSmp p1 true false false) (AMsg e (frame (6 :: key))) = Some (Ret (mkSmp p2 true false false, []))) by reflexivity.
  set (b := mkBond key 257 72340172838076673 true).
  assert (H3 : sstep C (mkSmp p2 true false false) (AMsg e (frame (7 :: repeat 1 10))) =
    Some (Ret (mkSmp (set_st Finished (set_bond (Some b) p2)) false true false, [EOut (OSave (rev ra) b); EPairRet true]))).
  { cbn [sstep stuck]. f_equal.
    rewrite (Handle_runs_end C e (mkSmp p2 true false false) 7 (repeat 1 10) _ (set_st Finished (set_bond (Some b) p2)) [OSave (rev ra) b] eq_refl);
      [reflexivity| |reflexivity|reflexivity].
    unfold smpOnMasterIdentification. eapply r_conv.
    - rstep; [rstep; reflexivity|]. rstep; [rstep; reflexivity|]. rstep; [rstep; reflexivity|]. rstep; [rstep; reflexivity|].
      rstep; [rstep|]. cbn [ctx p_bond p2 set_bond]. rstep; [rstep|]. rstep; [|rstep].
      unfold saveBondInfo. rstep; [rstep|]. cbn. rstep; [rstep|]. rstep. exact Hs.
    - reflexivity.
    - reflexivity. }
  exists (mkSmp (set_st Finished (set_bond (Some b) p2)) false true false), key.
  split; [|split; reflexivity].
  exact (srun_snoc C s0 _ _ _ _ _ (srun_snoc C s0 _ _ _ _ _ (srun_snoc C s0 _ _ _ _ _ (srun_nil C s0) H1) H2) H3).
Qed.
Print Assumptions C44_pair_succeeds_without_pairing_refuted.

(** * C45: no crash, no wedge *)

(** The messages that can crash the process are only these: an empty one; a Master Identification shorter than 10 octets or
    without a key; a Public Key before ours was sent; a Secure Connections nonce before both keys were exchanged; a Pairing
    Response when key generation fails; and a message whose handling fails after a completed pairing. *)
Theorem C45_only_these_crash_partial : forall C, prims_ok C -> forall la ra lat rat l s e pdu,
  srun C (smp_new la ra lat rat) l s -> Forall (fun x => act_ok (fst x)) l -> act_ok (AMsg e pdu) ->
  length la = 6%nat -> length ra = 6%nat ->
  sstep C s (AMsg e pdu) = Some Panic -> panic_cause C (view_of C l) s e pdu.
Proof. intros C HC la ra lat rat. exact (panics_only C HC la ra lat rat). Qed.
Print Assumptions C45_only_these_crash_partial.

(** Calls of the application never crash. *)
Theorem C45_calls_do_not_crash : forall C, prims_ok C -> forall la ra lat rat l s a,
  srun C (smp_new la ra lat rat) l s -> Forall (fun x => act_ok (fst x)) l -> act_ok a ->
  (forall e pdu, a <> AMsg e pdu) -> sstep C s a <> Some Panic.
Proof. intros C HC la ra lat rat. exact (calls_no_panic C HC la ra lat rat). Qed.
Print Assumptions C45_calls_do_not_crash.

(** The receive loop does not wedge while a call of Pair is waiting. *)
Theorem C45_no_wedge_while_pairing_partial : forall C la ra lat rat l s,
  srun C (smp_new la ra lat rat) l s -> waiting s = true -> stuck s = false.
Proof. intros C la ra lat rat. exact (waiting_not_stuck C la ra lat rat). Qed.
Print Assumptions C45_no_wedge_while_pairing_partial.

(** Exactly when a message wedges it: its handling fails, no call of Pair is waiting, no pairing has completed. *)
Theorem C45_wedges_exactly_when : forall C s e pdu s' evs, sstep C s (AMsg e pdu) = Some (Ret (s', evs)) ->
  stuck s' = true <->
  waiting s = false /\ rclosed s = false /\
  exists c d h p o, msg_of pdu = Some (c, d) /\ dispatch C e c d = Some h /\ h (ctx s) = Ret (p, o, None).
Proof. exact stuck_when. Qed.
Print Assumptions C45_wedges_exactly_when.

(** An unwanted Pairing Failed message of the peer wedges the receive loop of the connection for good: whatever happens later, no
    further message is handled. *)
Theorem C45_pairing_failed_wedges_refuted : forall C la ra lat rat e reason,
  exists s, srun C (smp_new la ra lat rat) [(AMsg e (frame [5; reason]), [])] s /\ stuck s = true /\
  forall l s', srun C s l s' -> stuck s' = true /\ forall e' pdu evs, ~ In (AMsg e' pdu, evs) l.
Proof.
  intros C la ra lat rat e reason. set (s0 := smp_new la ra lat rat).
  exists (mkSmp (set_st Error (ctx s0)) false false true). split; [|split].
  - exact (srun_snoc C s0 _ _ (AMsg e (frame [5; reason])) _ _ (srun_nil C s0) eq_refl).
  - reflexivity.
  - intros l s' H. now apply (stuck_for_good C _ _ _ H).
Qed.
Print Assumptions C45_pairing_failed_wedges_refuted.

(** Messages of a peer that crash the process, on a fresh connection. *)
Theorem C45_crashes_refuted : forall C la ra lat rat e,
  let s0 := smp_new la ra lat rat in
  sstep C s0 (AMsg e [0; 0; 6; 0]) = Some Panic /\
  sstep C s0 (AMsg e (frame (7 :: repeat 0 9))) = Some Panic /\
  sstep C s0 (AMsg e (frame (7 :: repeat 0 10))) = Some Panic /\
  sstep C s0 (AMsg e (frame (12 :: repeat 0 64))) = Some Panic /\
  sstep C s0 (AMsg e (frame (4 :: repeat 0 16))) = Some Panic.
Proof. intros. repeat split. Qed.
Print Assumptions C45_crashes_refuted.

(** After a completed pairing, a Pairing Failed message crashes the process (send on a closed channel). *)
Theorem C45_crash_after_pairing_refuted : forall C la ra lat rat l s e reason,
  srun C (smp_new la ra lat rat) l s -> rclosed s = true -> stuck s = false ->
  sstep C s (AMsg e (frame [5; reason])) = Some Panic.
Proof. intros C la ra lat rat l s e reason _ H1 H2. cbn [sstep]. rewrite H2. unfold Handle. cbn. rewrite H1. reflexivity. Qed.
Print Assumptions C45_crash_after_pairing_refuted.
Example C45_crash_after_pairing_example : exists l s, srun toy (smp_new (repeat 1 6) (repeat 2 6) 0 0) l s /\ rclosed s = true /\ stuck s = false.
Proof.
  destruct (C44_pair_succeeds_without_pairing_refuted toy (repeat 1 6) (repeat 2 6) 0 0 (ok_env 0) 0 eq_refl eq_refl) as (s & key & H & H1 & H2).
  eexists _, s. split; [exact H|now split].
Qed.

Example C45_hypotheses_met : act_ok (AMsg (ok_env 0) (frame [5; 4])) /\ act_ok (APair (ok_env 0) 123456 []).
Proof.
  split; (split; [split; [apply repeat_length|exact I]|]); [|exact I].
  cbn. repeat (apply Forall_cons; [unfold is_byte; lia|]). apply Forall_nil.
Qed.
