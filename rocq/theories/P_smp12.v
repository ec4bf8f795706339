(** Whole pairings without a passkey. *)
Require Import Verif.Base Verif.M_smp Verif.S_smp Verif.P_smp Verif.P_smp2 Verif.P_smp7 Verif.P_smp9.

Section R.
Variable C : prims.
Variable HC : prims_ok C.
Variable HD : forall k q, length (dh C k q) = 32%nat.
Variables (la ra : bytes) (lat rat : Z).
Hypothesis Hla : length la = 6%nat.
Hypothesis Hra : length ra = 6%nat.
Notation s0 := (smp_new la ra lat rat).
Notation opA := (addr_op lat la).
Notation opB := (addr_op rat ra).
Variables (ka kb : Z) (E : nat -> env).
Notation PA := (pub_of C ka).
Notation PB := (pub_of C kb).
Notation XA := (firstn 32 PA).
Notation XB := (firstn 32 PB).
Hypothesis HPB : on_curve C PB = true.
Hypothesis HPne : PA <> PB.
Hypothesis HE : forall n, calm ka (E n).

Lemma rsp_runs_gen : forall c e p t, calm ka e -> p_keys p = None -> isLegacy (auth_req c) = false -> determinePairingType (p_req p) c false = Ret t -> t <> Oob ->
  runs (smpOnPairingResponse C e (cfg_bytes c)) p
    (set_st WaitPublicKey (set_keys (Some ka) (set_type t (set_legacy false (set_type JustWorks (set_iter 0%nat (set_rsp c p)))))))
    [OSend (frame (12 :: key_wire PA))] tt.
Proof.
  intros c e p t He Hke Hsc Ht Hno. unfold smpOnPairingResponse, cfg_bytes. destruct c as [c1 c2 c3 c4 c5 c6]. cbn [io_cap oob_flag auth_req key_size init_dist resp_dist] in *.
  eapply r_conv.
  - rstep; [rstep|]. rstep; [rstep|]. rstep; [rstep|]. rstep.
    { rstep. sp. rewrite Hsc. exact Ht. }
    rstep; [rstep|]. rstep; [rstep|].
    replace (match t with Oob => true | _ => false end) with false by (destruct t; congruence). cbn [andb]. cbv iota.
    sp. rewrite Hsc. cbv iota. unfold sendPublicKey. rstep; [rstep|]. sp. rewrite Hke.
    rstep; [rstep|]. rstep; [rstep|]. rstep; [rstep; unfold own_public; sp; rewrite (proj1 (proj2 (proj2 (proj2 He)))); reflexivity|].
    rstep; [rstep|]. apply send_runs. apply He.
  - sp. rewrite ?(proj1 (proj2 (proj2 (proj2 He)))), ?Hsc. reflexivity.
  - reflexivity.
Qed.

Lemma srun_cons5 : forall a b c d e f s, srun C s0 ((((([] ++ [a]) ++ [b]) ++ [c]) ++ [d]) ++ [e] ++ [f]) s -> srun C s0 [a; b; c; d; e; f] s.
Proof. intros. exact H. Qed.

(** The whole exchange of Just Works and of Numeric Comparison. *)
Theorem plain_pairing : forall c k nb t, isLegacy (auth_req c) = false -> determinePairingType default_cfg c false = Ret t ->
  t = JustWorks \/ t = NumericComp -> length nb = 16%nat ->
  let na := e_rand (E 3%nat) in
  let w := dh C ka PB in
  let mk := f5_mackey C w (rev na) (rev nb) opA opB in
  let lt := rev (f5_ltk C w (rev na) (rev nb) opA opB) in
  exists s, srun C s0
   [(APair (E 0%nat) k [], [EOut (OSend (frame (1 :: cfg_bytes default_cfg)))]);
    (AMsg (E 1%nat) (frame (2 :: cfg_bytes c)), [EOut (OSend (frame (12 :: key_wire PA)))]);
    (AMsg (E 2%nat) (frame (12 :: key_wire PB)), []);
    (AMsg (E 3%nat) (frame (3 :: rev (f4 C XB XA (rev nb) 0))), [EOut (OSend (frame (4 :: na)))]);
    (AMsg (E 4%nat) (frame (4 :: nb)), [EOut (OSend (frame (13 :: rev (f6 C mk (rev na) (rev nb) (repeat 0 16) (io_op default_cfg) opA opB))))]);
    (AMsg (E 5%nat) (frame (13 :: rev (f6 C mk (rev nb) (rev na) (repeat 0 16) (io_op c) opB opA))),
       [EOut (OSave (rev ra) (mkBond lt 0 0 false)); EOut (OStartEnc lt 0 0); EPairRet true])] s.
Proof.
  intros c k nb t Hsc Ht Htt Hnb na w mk lt.
  set (p1 := set_st WaitPairingResponse (set_oobdata [] (set_passkey k (ctx s0)))).
  assert (H1 : sstep C s0 (APair (E 0%nat) k []) = Some (Ret (mkSmp p1 true false false, [EOut (OSend (frame (1 :: cfg_bytes default_cfg)))]))).
  { cbn [sstep]. unfold Pair. cbn [ctx smp_new p_st]. unfold StartPairing, sendPairingRequest, send, bind, modify, get, emit, must.
    cbn [length Nat.ltb Nat.leb]. rewrite (proj1 (HE 0)). reflexivity. }
  set (p2 := set_st WaitPublicKey (set_keys (Some ka) (set_type t (set_legacy false (set_type JustWorks (set_iter 0%nat (set_rsp c p1))))))).
  assert (H2 : sstep C (mkSmp p1 true false false) (AMsg (E 1%nat) (frame (2 :: cfg_bytes c))) =
     Some (Ret (mkSmp p2 true false false, [EOut (OSend (frame (12 :: key_wire PA)))]))).
  { cbn [sstep stuck]. f_equal.
    apply (Handle_runs C (E 1%nat) (mkSmp p1 true false false) 2 (cfg_bytes c) _ p2 [OSend (frame (12 :: key_wire PA))] eq_refl); [|discriminate].
    apply rsp_runs_gen; [apply HE|reflexivity|exact Hsc|exact Ht|destruct Htt; congruence]. }
  assert (Htp : t <> Passkey) by (destruct Htt; congruence).
  set (p3 := set_rpub (Some PB) p2).
  assert (H3 : sstep C (mkSmp p2 true false false) (AMsg (E 2%nat) (frame (12 :: key_wire PB))) = Some (Ret (mkSmp p3 true false false, []))).
  { cbn [sstep stuck]. f_equal.
    apply (Handle_runs C (E 2%nat) (mkSmp p2 true false false) 12 (key_wire PB) _ p3 [] eq_refl); [|discriminate].
    eapply pub_runs_plain; try eassumption; reflexivity. }
  set (cf := rev (f4 C XB XA (rev nb) 0)).
  set (p4 := set_st WaitRandom (set_lrand (Some na) (set_rconf cf p3))).
  assert (H4 : sstep C (mkSmp p3 true false false) (AMsg (E 3%nat) (frame (3 :: cf))) = Some (Ret (mkSmp p4 true false false, [EOut (OSend (frame (4 :: na)))]))).
  { cbn [sstep stuck]. f_equal.
    apply (Handle_runs C (E 3%nat) (mkSmp p3 true false false) 3 cf _ p4 [OSend (frame (4 :: na))] eq_refl); [|discriminate].
    apply conf_runs1; [apply (conf_len C HC)|apply HE|apply HE|reflexivity]. }
  assert (Lna : length na = 16%nat) by apply HE.
  assert (Hr : forall p, p_type p = t -> check_r p = repeat 0 16) by (intros p X; unfold check_r; rewrite X; destruct Htt; subst t; reflexivity).
  set (p5 := agreed C ka kb la ra lat rat na nb (set_rrand nb p4)).
  assert (H5 : sstep C (mkSmp p4 true false false) (AMsg (E 4%nat) (frame (4 :: nb))) =
    Some (Ret (mkSmp p5 true false false, [EOut (OSend (frame (13 :: rev (f6 C mk (rev na) (rev nb) (repeat 0 16) (io_op default_cfg) opA opB))))]))).
  { cbn [sstep stuck]. f_equal.
    replace (rev (f6 C mk (rev na) (rev nb) (repeat 0 16) (io_op default_cfg) opA opB)) with (checkA C ka kb la ra lat rat p4 na nb).
    2:{ unfold checkA, maclt. cbn [fst]. rewrite rev_involutive, (Hr p4) by reflexivity. reflexivity. }
    apply (Handle_runs C (E 4%nat) (mkSmp p4 true false false) 4 nb _ p5 [OSend (frame (13 :: checkA C ka kb la ra lat rat p4 na nb))] eq_refl); [|discriminate].
    apply rand_runs_plain; try assumption; try reflexivity; try apply HE.
    - repeat split.
    - unfold rlen. now rewrite Hr. }
  set (b := mkBond lt 0 0 false).
  assert (H6 : sstep C (mkSmp p5 true false false) (AMsg (E 5%nat) (frame (13 :: rev (f6 C mk (rev nb) (rev na) (repeat 0 16) (io_op c) opB opA)))) =
    Some (Ret (mkSmp (set_st Finished p5) false true false, [EOut (OSave (rev ra) b); EOut (OStartEnc lt 0 0); EPairRet true]))).
  { cbn [sstep stuck]. f_equal.
    replace (rev (f6 C mk (rev nb) (rev na) (repeat 0 16) (io_op c) opB opA)) with (checkB C ka kb la ra lat rat p5 na nb).
    2:{ unfold checkB, maclt. cbn [fst]. rewrite rev_involutive, (Hr p5) by reflexivity. reflexivity. }
    apply (Handle_runs_end C (E 5%nat) (mkSmp p5 true false false) 13 _ _ (set_st Finished p5) [OSave (rev ra) b; OStartEnc (ltk b) (ediv b) (brand b)] eq_refl);
      [|reflexivity|reflexivity].
    apply dh_runs; try assumption; try reflexivity; try apply HE.
    - repeat split.
    - unfold rlen. now rewrite Hr.
    - cbn [ltk b]. unfold lt. rewrite rev_length. apply HC. }
  eexists. apply srun_cons5. rewrite app_assoc.
  eapply srun_snoc; [|exact H6]. eapply srun_snoc; [|exact H5]. eapply srun_snoc; [|exact H4]. eapply srun_snoc; [|exact H3].
  eapply srun_snoc; [|exact H2]. eapply srun_snoc; [apply srun_nil|exact H1].
Qed.
End R.
