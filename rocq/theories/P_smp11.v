(** Whole pairings, continued. *)
Require Import Verif.Base Verif.M_smp Verif.S_smp Verif.P_smp Verif.P_smp2 Verif.P_smp7 Verif.P_smp9 Verif.P_smp10.

Section R.
Variable C : prims.
Variable HC : prims_ok C.
Variable HD : forall k q, length (dh C k q) = 32%nat.
Variables (la ra : bytes) (lat rat : Z).
Hypothesis Hla : length la = 6%nat.
Hypothesis Hra : length ra = 6%nat.
Notation s0 := (smp_new la ra lat rat).
Notation opA := (addr_op lat la).
Notation opB := (addr_op rat ra).
Variables (ka kb : Z) (E : nat -> env).
Notation PA := (pub_of C ka).
Notation PB := (pub_of C kb).
Notation XA := (firstn 32 PA).
Notation XB := (firstn 32 PB).
Hypothesis HPB : on_curve C PB = true.
Hypothesis HPne : PA <> PB.
Hypothesis Hdh : dh C kb PA = dh C ka PB.
Hypothesis HE : forall n, calm ka (E n).

Lemma start_pair : forall know nb k, exists s, Core C la ra lat rat kb know nb k true E (APair (E 0%nat) k [])
  [(APair (E 0%nat) k [], [EOut (OSend (frame (buildPairingReq default_cfg)))])] s /\ p_keys (ctx s) = None.
Proof.
  intros know nb k.
  assert (H : sstep C s0 (APair (E 0%nat) k []) = Some (Ret (mkSmp (set_st WaitPairingResponse (set_oobdata [] (set_passkey k (ctx s0)))) true false false,
     [EOut (OSend (frame (buildPairingReq default_cfg)))]))).
  { cbn [sstep]. unfold Pair. cbn [ctx smp_new p_st]. unfold StartPairing, sendPairingRequest, send, bind, modify, get, emit, must.
    cbn [length Nat.ltb Nat.leb]. rewrite (proj1 (HE 0)). reflexivity. }
  exists (mkSmp (set_st WaitPairingResponse (set_oobdata [] (set_passkey k (ctx s0)))) true false false). split; [constructor; try reflexivity|].
  - rewrite <- (app_nil_l [_]). eapply srun_snoc; [apply srun_nil|exact H].
  - split; [reflexivity|constructor].
  - rewrite <- (app_nil_l [_]). apply follows_snoc.
      + intros l1 e pdu evs l2 X. destruct l1; discriminate.
      + cbn [fst]. discriminate.
  - rewrite <- (app_nil_l [_]). apply under_snoc; [|reflexivity]. intros n x X. destruct n; discriminate.
  - repeat split.
  - reflexivity.
Qed.

Lemma start_security : forall nb, e_find (E 0%nat) = None -> exists s, Core C la ra lat rat kb (Some 0) nb 0 false E (AMsg (E 0%nat) (frame [11; 13]))
  [(AMsg (E 0%nat) (frame [11; 13]), [EOut (OSend (frame (buildPairingReq (rq false))))])] s /\ p_keys (ctx s) = None.
Proof.
  intros nb Hf.
  assert (H : sstep C s0 (AMsg (E 0%nat) (frame [11; 13])) = Some (Ret (mkSmp (set_req (rq false) (ctx s0)) false false false,
     [EOut (OSend (frame (buildPairingReq (rq false))))]))).
  { cbn [sstep]. cbn [stuck smp_new]. f_equal.
    apply (Handle_runs C (E 0%nat) s0 11 [13] (smpOnSecurityRequest (E 0%nat) [13]) (set_req (rq false) (ctx s0))
             [OSend (frame (buildPairingReq (rq false)))] eq_refl); [|discriminate].
    unfold smpOnSecurityRequest. change (Z.land 13 3 =? 1) with true. cbv iota. rewrite Hf. eapply r_conv.
  - rstep; [rstep|]. unfold sendPairingRequest. rstep; [rstep|]. apply send_runs. apply HE.
  - reflexivity.
  - reflexivity. }
  exists (mkSmp (set_req (rq false) (ctx s0)) false false false). split; [constructor; try reflexivity|].
  - rewrite <- (app_nil_l [_]). eapply srun_snoc; [apply srun_nil|exact H].
  - split; [reflexivity|constructor].
  - rewrite <- (app_nil_l [_]). apply follows_snoc.
      + intros l1 e pdu evs l2 X. destruct l1; discriminate.
      + cbn [fst]. intros e pdu X. injection X as <- <-. reflexivity.
  - rewrite <- (app_nil_l [_]). apply under_snoc; [|reflexivity]. intros n x X. destruct n; discriminate.
  - repeat split.
  - reflexivity.
Qed.

(** A peer that knows the passkey completes the pairing, and both sides have the same key. *)
Theorem honest_passkey : forall nb k, (forall i, length (nb i) = 16%nat) -> 0 <= k < 2 ^ 20 ->
  exists l e pdu s', 
  let lt := rev (f5_ltk C (dh C kb PA) (rev (e_rand (E 40%nat))) (rev (nb 19%nat)) opA opB) in
  let t := l ++ [(AMsg e pdu, [EOut (OSave (rev ra) (mkBond lt 0 0 false)); EOut (OStartEnc lt 0 0); EPairRet true])] in
  srun C s0 t s' /\ starts (APair (E 0%nat) k []) t /\ follows (peer C la ra lat rat kb (Some k) nb) t /\ under E t.
Proof.
  intros nb k Hnb Hk. destruct (start_pair (Some k) nb k) as (s1 & Hc & Hke).
  destruct (to_rounds C HC HD la ra lat rat Hla Hra kb (Some k) nb k ka true E _ Hnb HPB HPne ltac:(first [discriminate|exact (fun _ => Hcol)]) HE _ _ Hc eq_refl Hke) as (l2 & s2 & H2).
  destruct (finish C HC HD la ra lat rat Hla Hra kb (Some k) nb k ka true E _ Hnb Hdh (or_intror eq_refl) ltac:(discriminate) HE Hk _ _ H2)
    as (l1 & e & pdu & evs & s' & Hr & Hs & Hf & Hu & Hl & ->).
  exists l1, e, pdu, s'. rewrite Hdh. cbv zeta. split; [exact Hr|]. split; [exact Hs|]. split; [exact Hf|exact Hu].
Qed.

(** So does a peer that does not know it. *)
Theorem passkey_attack : forall nb, (forall i, length (nb i) = 16%nat) -> (forall U V X, f4 C U V X 0x81 <> f4 C U V X 0x80) ->
  forall k, 0 <= k < 2 ^ 20 ->
  exists l e pdu s', 
  let lt := rev (f5_ltk C (dh C kb PA) (rev (e_rand (E 59%nat))) (rev (nb 19%nat)) opA opB) in
  let t := l ++ [(AMsg e pdu, [EOut (OSave (rev ra) (mkBond lt 0 0 false)); EOut (OStartEnc lt 0 0); EPairRet true])] in
  srun C s0 t s' /\ starts (APair (E 0%nat) k []) t /\ follows (peer C la ra lat rat kb None nb) t /\ under E t.
Proof.
  intros nb Hnb Hcol k Hk. destruct (start_pair None nb k) as (s1 & Hc & Hke).
  destruct (to_rounds C HC HD la ra lat rat Hla Hra kb None nb k ka true E _ Hnb HPB HPne ltac:(first [discriminate|exact (fun _ => Hcol)]) HE _ _ Hc eq_refl Hke) as (l2 & s2 & H2).
  destruct (finish C HC HD la ra lat rat Hla Hra kb None nb k ka true E _ Hnb Hdh (or_introl eq_refl) (fun _ => Hcol) HE Hk _ _ H2)
    as (l1 & e & pdu & evs & s' & Hr & Hs & Hf & Hu & Hl & ->).
  exists l1, e, pdu, s'. rewrite Hdh. cbv zeta. split; [exact Hr|]. split; [exact Hs|]. split; [exact Hf|exact Hu].
Qed.

(** Pairing asked for by the peer uses the passkey 0. *)
Theorem security_request_passkey : forall nb, (forall i, length (nb i) = 16%nat) -> e_find (E 0%nat) = None ->
  exists l e pdu s', 
  let lt := rev (f5_ltk C (dh C kb PA) (rev (e_rand (E 40%nat))) (rev (nb 19%nat)) opA opB) in
  let t := l ++ [(AMsg e pdu, [EOut (OSave (rev ra) (mkBond lt 0 0 false)); EOut (OStartEnc lt 0 0)])] in
  srun C s0 t s' /\ starts (AMsg (E 0%nat) (frame [11; 13])) t /\ follows (peer C la ra lat rat kb (Some 0) nb) t /\ under E t.
Proof.
  intros nb Hnb Hfi. destruct (start_security nb Hfi) as (s1 & Hc & Hke).
  destruct (to_rounds C HC HD la ra lat rat Hla Hra kb (Some 0) nb 0 ka false E _ Hnb HPB HPne ltac:(discriminate) HE _ _ Hc eq_refl Hke) as (l2 & s2 & H2).
  destruct (finish C HC HD la ra lat rat Hla Hra kb (Some 0) nb 0 ka false E _ Hnb Hdh (or_intror eq_refl) ltac:(discriminate) HE ltac:(lia) _ _ H2)
    as (l1 & e & pdu & evs & s' & Hr & Hs & Hf & Hu & Hl & ->).
  exists l1, e, pdu, s'. rewrite Hdh. cbv zeta. split; [exact Hr|]. split; [exact Hs|]. split; [exact Hf|exact Hu].
Qed.
End R.
