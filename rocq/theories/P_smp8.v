(** Panics and wedging of the Security Manager. *)
Require Import Verif.Base Verif.M_smp Verif.S_smp Verif.P_smp Verif.P_smp2 Verif.P_smp3 Verif.P_smp4 Verif.P_smp5 Verif.P_smp6 Verif.P_smp7.

Section R.
Variable C : prims.
Variable HC : prims_ok C.
Variables (la ra : bytes) (lat rat : Z).
Notation s0 := (smp_new la ra lat rat).

Lemma acts_trace_ok : forall l, Forall (fun x : sact * list ev => act_ok (fst x)) l -> trace_ok l.
Proof.
  intros l H. unfold trace_ok. eapply Forall_impl; [|exact H]. intros [a evs] [Ha _]. cbn [fst] in *.
  destruct (act_env a); [apply Ha|exact I].
Qed.

Theorem panics_only : forall l s e pdu, srun C s0 l s -> Forall (fun x => act_ok (fst x)) l -> act_ok (AMsg e pdu) ->
  length la = 6%nat -> length ra = 6%nat ->
  sstep C s (AMsg e pdu) = Some Panic -> panic_cause C (view_of C l) s e pdu.
Proof.
  intros l s e pdu Hrun Hl Ha Hla Hra H. pose proof (acts_trace_ok _ Hl) as Ht.
  pose proof (run_B C HC _ _ _ _ _ _ Hrun Ht) as HB. pose proof (run_G C HC _ _ _ _ _ _ Hrun Hl) as HG.
  destruct Ha as [[He Hf] Hb]. cbn [act_env] in *.
  cbn [sstep] in H. destruct (stuck s); [discriminate|]. apply Some_inj in H.
  unfold panic_cause. destruct (msg_of pdu) as [[c d]|] eqn:Hm; [|exact I].
  assert (Hpdu : Handle C e s pdu = match dispatch C e c d with
    | None => let! r := send e [5; 5] (ctx s) in
      match r with
      | (p, o, Some _) => Ret (mkSmp p (waiting s) (rclosed s) false, map EOut o)
      | (p, o, None) => Ret (mkSmp p (waiting s) (rclosed s) false, map EOut o ++ [EHandleErr])
      end
    | Some h => let! r := h (ctx s) in
      match r with
      | (p, o, res) => let! r := after_handler s p (match res with None => true | Some _ => false end) in Ret (fst r, map EOut o ++ snd r)
      end end).
  { do 5 (destruct pdu as [|? pdu]; [discriminate Hm|]). cbn in Hm. injection Hm as -> ->. reflexivity. }
  rewrite Hpdu in H. clear Hpdu.
  destruct (dispatch C e c d) as [h|] eqn:Hd.
  2: { unfold send, bind, emit, must in H. destruct (e_write e); cbn in H; discriminate. }
  destruct (h (ctx s)) as [[[p o] r]|] eqn:Hh.
  - cbn [gbind] in H. right. right. right. right. unfold after_handler in H.
    destruct r as [u|].
    + destruct (p_st p); try discriminate. destruct (rclosed s); discriminate.
    + destruct (rclosed s); [|destruct (waiting s); discriminate]. split; [reflexivity|]. exists h, p, o. now split.
  - clear H. 
    assert (D7 : {c = 7 /\ ((length d < 10)%nat \/ p_bond (ctx s) = None)} + {~ (c = 7 /\ ((length d < 10)%nat \/ p_bond (ctx s) = None))}).
    { destruct (Z.eq_dec c 7); [|right; tauto]. destruct (lt_dec (length d) 10); [left; auto|].
      destruct (p_bond (ctx s)); [right|left; auto]. intros (_ & [X|X]); [contradiction|discriminate]. }
    destruct D7 as [X|N7]; [now left|right].
    assert (D12 : {c = 12 /\ length d = 64%nat /\ v_own (view_of C l) = None} + {~ (c = 12 /\ length d = 64%nat /\ v_own (view_of C l) = None)}).
    { destruct (Z.eq_dec c 12); [|right; tauto]. destruct (Nat.eq_dec (length d) 64); [|right; tauto].
      destruct (v_own (view_of C l)); [right|left; auto]. intros (_ & _ & X). discriminate. }
    destruct D12 as [X|N12]; [now left|right].
    assert (D4 : {c = 4 /\ length d = 16%nat /\ p_legacy (ctx s) = false /\ (v_own (view_of C l) = None \/ v_peer (view_of C l) = None)}
      + {~ (c = 4 /\ length d = 16%nat /\ p_legacy (ctx s) = false /\ (v_own (view_of C l) = None \/ v_peer (view_of C l) = None))}).
    { destruct (Z.eq_dec c 4); [|right; tauto]. destruct (Nat.eq_dec (length d) 16); [|right; tauto].
      destruct (p_legacy (ctx s)); [right; intros (_ & _ & X & _); discriminate|].
      destruct (v_own (view_of C l)); [|left; auto]. destruct (v_peer (view_of C l)); [|left; auto].
      right. intros (_ & _ & _ & [X|X]); discriminate. }
    destruct D4 as [X|N4]; [now left|right].
    assert (D2 : {c = 2 /\ v_own (view_of C l) = None /\ e_key e = None} + {~ (c = 2 /\ v_own (view_of C l) = None /\ e_key e = None)}).
    { destruct (Z.eq_dec c 2); [|right; tauto]. destruct (v_own (view_of C l)); [right; intros (_ & X & _); discriminate|].
      destruct (e_key e); [right; intros (_ & _ & X); discriminate|left; auto]. }
    destruct D2 as [X|N2]; [now left|exfalso].
    exact (dispatch_np C HC la ra lat rat (view_of C l) e c d (ctx s) h HB HG He Hf (msg_bytes _ _ _ Hb Hm) Hla Hra Hd N7 N12 N4 N2 Hh).
Qed.

Theorem calls_no_panic : forall l s a, srun C s0 l s -> Forall (fun x => act_ok (fst x)) l -> act_ok a ->
  (forall e pdu, a <> AMsg e pdu) -> sstep C s a <> Some Panic.
Proof.
  intros l s a Hrun Hl Ha Hn H. pose proof (run_G C HC _ _ _ _ _ _ Hrun Hl) as HG.
  destruct a as [e pdu|e k oob| |e]; cbn [sstep] in H.
  - now destruct (Hn e pdu).
  - apply Some_inj in H. unfold Pair in H. destruct (p_st (ctx s)); try discriminate.
    unfold StartPairing, sendPairingRequest, send, bind, modify, get, emit, must in H.
    destruct (0 <? length oob)%nat, (e_write e); cbn in H; discriminate.
  - destruct (waiting s); discriminate.
  - apply Some_inj in H. destruct (StartEncryption e (ctx s)) as [[[p o] r]|] eqn:E; [discriminate|].
    assert (T : tw (StartEncryption e) (ctx s) (fun _ _ _ => True)).
    { unfold StartEncryption. apply tw_bind, tw_ofopt; [intros b E0|exact (fun _ => I)]. cbv iota. apply (tw_mono _ _ (fun p' _ _ => p' = ctx s)); [auto|]. apply conn_encrypt_tw; [|apply HG].
      right. destruct Ha as [[_ Ha] _]. cbn in Ha. unfold find_ok in Ha. rewrite E0 in Ha. exact Ha. }
    exact (tw_np _ _ _ T E).
Qed.

(** ** Wedging *)
Theorem stuck_for_good : forall s l s', srun C s l s' -> stuck s = true ->
  stuck s' = true /\ forall e pdu evs, ~ In (AMsg e pdu, evs) l.
Proof.
  intros s l s' H Hs. induction H as [s|s l s1 a s2 evs H IH Hst].
  - split; [assumption|]. intros e pdu evs X. destruct X.
  - destruct (IH Hs) as [Hs1 Hn]. destruct a as [e pdu|e k oob| |e]; cbn [sstep] in Hst.
    + rewrite Hs1 in Hst. discriminate.
    + split.
      * apply Some_inj in Hst. unfold Pair in Hst. destruct (p_st (ctx s1)); try (injection Hst as <- <-; assumption).
        unfold StartPairing, sendPairingRequest, send, bind, modify, get, emit, must in Hst.
        destruct (0 <? length oob)%nat, (e_write e); cbn in Hst; injection Hst as <- <-; assumption.
      * intros e' pdu' evs' X. apply in_app_or in X. destruct X as [X|[X|[]]]; [now apply (Hn e' pdu' evs')|discriminate].
    + destruct (waiting s1); [|discriminate]. injection Hst as <- <-. split; [assumption|].
      intros e' pdu' evs' X. apply in_app_or in X. destruct X as [X|[X|[]]]; [now apply (Hn e' pdu' evs')|discriminate].
    + apply Some_inj in Hst. destruct (StartEncryption e (ctx s1)) as [[[p o] r]|]; [|discriminate]. injection Hst as <- <-.
      split; [assumption|]. intros e' pdu' evs' X. apply in_app_or in X. destruct X as [X|[X|[]]]; [now apply (Hn e' pdu' evs')|discriminate].
Qed.

(** The receive loop gets stuck by a message whose handling fails, when no call of Pair is waiting and no pairing has completed, and
    only then. *)
Theorem stuck_when : forall s e pdu s' evs, sstep C s (AMsg e pdu) = Some (Ret (s', evs)) ->
  stuck s' = true <->
  waiting s = false /\ rclosed s = false /\
  exists c d h p o, msg_of pdu = Some (c, d) /\ dispatch C e c d = Some h /\ h (ctx s) = Ret (p, o, None).
Proof.
  intros s e pdu s' evs H. cbn [sstep] in H. destruct (stuck s) eqn:Es; [discriminate|]. apply Some_inj in H.
  unfold Handle in H.
  destruct (gfrom pdu 4) as [pl|] eqn:E1; [|discriminate]. cbn [gbind] in H.
  destruct (gidx pl 0) as [c|] eqn:E2; [|discriminate]. cbn [gbind] in H.
  destruct (gfrom pl 1) as [d|] eqn:E3; [|discriminate]. cbn [gbind] in H.
  assert (Hm : msg_of pdu = Some (c, d)).
  { unfold gfrom in E1, E3. destruct (Nat.leb 4 (length pdu)) eqn:L; [|discriminate]. apply Ret_inj in E1.
    do 4 (destruct pdu as [|? pdu]; [discriminate L|]). cbn in E1. subst pl.
    destruct pdu as [|c' d']; [discriminate E2|]. cbn in E2, E3. injection E2 as ->. apply Ret_inj in E3. subst. reflexivity. }
  destruct (dispatch C e c d) as [h|] eqn:Ed.
  - destruct (h (ctx s)) as [[[p o] r]|] eqn:Eh; [|discriminate]. cbn [gbind] in H.
    unfold after_handler in H. destruct r as [u|].
    + assert (stuck s' = false).
      { destruct (p_st p); try (injection H as <- <-; reflexivity). destruct (rclosed s); injection H as <- <-; reflexivity. }
      split; [congruence|]. intros (_ & _ & c' & d' & h' & p' & o' & X1 & X2 & X3).
      assert (c' = c /\ d' = d) as [-> ->] by (split; congruence). assert (h' = h) by congruence. subst. congruence.
    + destruct (rclosed s); [discriminate|]. destruct (waiting s); injection H as <- <-; cbn [stuck].
      * split; [discriminate|]. intros (X & _); discriminate.
      * split; [|reflexivity]. intros _. split; [reflexivity|]. split; [reflexivity|]. exists c, d, h, p, o. now repeat split.
  - unfold send, bind, emit, must in H.
    assert (stuck s' = false) by (destruct (e_write e); cbn in H; injection H as <- <-; reflexivity).
    split; [congruence|]. intros (_ & _ & c' & d' & h' & p' & o' & X1 & X2 & X3).
    assert (c' = c /\ d' = d) as [-> ->] by (split; congruence). congruence.
Qed.

(** While a call of Pair is waiting a failed message ends that call: it does not wedge. *)
Theorem waiting_not_stuck : forall l s, srun C s0 l s -> waiting s = true -> stuck s = false.
Proof.
  intros l s H. remember s0 as z eqn:Hz.
  enough (stuck s = true -> waiting s = false /\ p_st (ctx s) <> Init).
  { intro Hw. destruct (stuck s); [|reflexivity]. destruct H0 as [X _]; [reflexivity|congruence]. }
  induction H as [s|s l s1 a s2 evs H IH Hst]; subst; [discriminate|].
  specialize (IH eq_refl). intro Hs.
  destruct a as [e pdu|e k oob| |e].
  - pose proof (proj1 (stuck_when _ _ _ _ _ Hst) Hs) as (Hw & Hr & c & d & h & p & o & Hm & Hd & Hh).
    cbn [sstep] in Hst. destruct (stuck s1); [discriminate|]. apply Some_inj in Hst.
    destruct (Handle_inv _ _ _ _ _ _ Hst) as (c' & d' & Hm' & Hx).
    assert (c' = c /\ d' = d) as [-> ->] by (split; congruence).
    destruct Hx as [(X & _)|(h' & p' & o' & r' & s1' & evs1 & Hd' & Hh' & Ha & -> & ->)]; [congruence|].
    assert (h' = h) by congruence. subst h'. rewrite Hh in Hh'. injection Hh' as <- <- <-.
    unfold after_handler in Ha. rewrite Hr, Hw in Ha. injection Ha as <- <-. split; [reflexivity|discriminate].
  - cbn [sstep] in Hst. apply Some_inj in Hst. unfold Pair in Hst. destruct (p_st (ctx s1)) eqn:Es; try (injection Hst as <- <-; rewrite Es; apply IH; assumption).
    exfalso. unfold StartPairing, sendPairingRequest, send, bind, modify, get, emit, must in Hst.
    assert (stuck s2 = stuck s1) as X by (destruct (0 <? length oob)%nat, (e_write e); cbn in Hst; injection Hst as <- <-; reflexivity).
    rewrite X in Hs. destruct (IH Hs) as [_ Y]. now apply Y.
  - cbn [sstep] in Hst. destruct (waiting s1); [|discriminate]. injection Hst as <- <-. cbn in *. split; [reflexivity|]. now apply IH.
  - cbn [sstep] in Hst. apply Some_inj in Hst. destruct (StartEncryption e (ctx s1)) as [[[p o] r]|] eqn:E; [|discriminate]. injection Hst as <- <-.
    cbn [stuck waiting ctx] in *.
    assert (Hw : wp (StartEncryption e) (ctx s1) (fun p o _ => p_st p = p_st (ctx s1))) by (wps; sp; reflexivity).
    rewrite (Hw _ _ _ E). now apply IH.
Qed.
End R.
