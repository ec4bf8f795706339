(** What one step of a Security Manager may do to addresses, bonds and keys. *)
Require Import Verif.Base Verif.M_smp Verif.S_smp Verif.P_smp Verif.P_smp2 Verif.P_smp3 Verif.P_smp4 Verif.P_smp7.

Definition key_pad (k : bytes) : bytes := k ++ repeat 0 (16 - length k).
Lemma key_array_ret : forall k x, key_array k = Ret x -> x = key_pad k /\ (length k <= 16)%nat.
Proof. intros k x H. unfold key_array in H. destruct (Nat.leb_spec (length k) 16); [|discriminate]. injection H as <-. split; [reflexivity|assumption]. Qed.
(** A command LE Start Encryption carries the short term key of the context or the key of bond b. *)
Definition uses (p : pctx) (b : option bondinfo) (k : bytes) (ed rn : Z) : Prop :=
  (p_legacy p = true /\ p_stk p <> [] /\ k = key_pad (p_stk p) /\ ed = 0 /\ rn = 0) \/
  (exists x, b = Some x /\ k = key_pad (ltk x) /\ ed = ediv x /\ rn = brand x).
Lemma encrypt_effect : forall e b p, wp (conn_encrypt e b) p (fun p' o r =>
  p' = p /\ (r <> None -> o <> []) /\ (o = [] \/ exists k ed rn, o = [OStartEnc k ed rn] /\ uses p b k ed rn /\ (r <> None <-> e_cmd e = true)) /\
  (p_legacy p = true -> p_stk p <> [] -> o = [OStartEnc (key_pad (p_stk p)) 0 0])).
Proof.
  intros e b p p' o r H.
  assert (NS : p_legacy p && negb (len_is 0 (p_stk p)) = false -> p_legacy p = true -> p_stk p <> [] -> False).
  { intros A B N. rewrite B in A. destruct (p_stk p); [congruence|discriminate]. }
  unfold conn_encrypt, bind, get in H. destruct (p_legacy p && negb (len_is 0 (p_stk p))) eqn:L.
  - apply andb_true_iff in L. destruct L as (L1 & L2).
    assert (N : p_stk p <> []). { intro X. rewrite X in L2. discriminate. }
    unfold lift in H. destruct (key_array (p_stk p)) as [a|] eqn:K; [|discriminate]. destruct (key_array_ret _ _ K) as (-> & _).
    unfold emit, must in H. destruct (e_cmd e) eqn:Ec; cbn in H; injection H as <- <- <-.
    + split; [reflexivity|]. split; [discriminate|]. split; [|reflexivity].
      right. exists (key_pad (p_stk p)), 0, 0. split; [reflexivity|]. split; [left; split; [exact L1|]; split; [exact N|]; split; [reflexivity|]; split; reflexivity|].
      split; [reflexivity|discriminate].
    + split; [reflexivity|]. split; [congruence|]. split; [|reflexivity].
      right. exists (key_pad (p_stk p)), 0, 0. split; [reflexivity|]. split; [left; split; [exact L1|]; split; [exact N|]; split; [reflexivity|]; split; reflexivity|].
      split; [congruence|discriminate].
  - specialize (NS eq_refl).
    destruct b as [b|].
    2:{ cbn in H. injection H as <- <- <-. split; [reflexivity|]. split; [congruence|]. split; [now left|]. intros A B. destruct (NS A B). }
    destruct (blegacy b && negb (len_is 16 (ltk b))).
    { cbn in H. injection H as <- <- <-. split; [reflexivity|]. split; [congruence|]. split; [now left|]. intros A B. destruct (NS A B). }
    destruct (blegacy b && ((ediv b =? 0) || (brand b =? 0))).
    { cbn in H. injection H as <- <- <-. split; [reflexivity|]. split; [congruence|]. split; [now left|]. intros A B. destruct (NS A B). }
    unfold lift in H. destruct (key_array (ltk b)) as [a|] eqn:K; [|discriminate]. destruct (key_array_ret _ _ K) as (-> & _).
    unfold emit, must in H. destruct (e_cmd e) eqn:Ec; cbn in H; injection H as <- <- <-.
    + split; [reflexivity|]. split; [discriminate|]. split.
      * right. exists (key_pad (ltk b)), (ediv b), (brand b). split; [reflexivity|]. split; [right; exists b; split; [reflexivity|]; split; [reflexivity|]; split; reflexivity|].
        split; [reflexivity|discriminate].
      * intros A B. destruct (NS A B).
    + split; [reflexivity|]. split; [congruence|]. split.
      * right. exists (key_pad (ltk b)), (ediv b), (brand b). split; [reflexivity|]. split; [right; exists b; split; [reflexivity|]; split; [reflexivity|]; split; reflexivity|].
        split; [congruence|discriminate].
      * intros A B. destruct (NS A B).
Qed.

(** The effect of one message on addresses, bonds and keys. *)
Record effect (e : env) (c : Z) (p p' : pctx) (o : list out) : Prop := {
  F_addr : p_raddr p' = p_raddr p;
  F_save : forall a b, In (OSave a b) o -> a = p_raddr p;
  F_cmd : forall k ed rn, In (OStartEnc k ed rn) o ->
            (c = 4 /\ k = key_pad (p_stk p') /\ ed = 0 /\ rn = 0) \/
            (c = 13 /\ uses p (p_bond p) k ed rn) \/
            (c = 11 /\ e_find e <> None /\ uses p (e_find e) k ed rn);
  F_stk : p_stk p' = p_stk p \/ (c = 4 /\ In (OStartEnc (key_pad (p_stk p')) 0 0) o) }.
Lemma quiet_effect : forall e c p p' o, p_raddr p' = p_raddr p -> p_stk p' = p_stk p ->
  (forall x, In x o -> match x with OSend _ => True | _ => False end) -> effect e c p p' o.
Proof.
  intros e c p p' o A S Q. split.
  - exact A.
  - intros a b H. destruct (Q _ H).
  - intros k ed rn H. destruct (Q _ H).
  - now left.
Qed.
Ltac silent := apply quiet_effect; [reflexivity|reflexivity|]; intros x Hx; cbn [In] in Hx;
  repeat (destruct Hx as [Hx|Hx]; [rewrite <- Hx; exact Logic.I|]); contradiction.
Section E.
Variable C : prims.
Variable HC : prims_ok C.
Lemma save_only : forall e p, wp (saveBondInfo e) p (fun p' o r => p' = p /\ (o = [] \/ exists b, o = [OSave (p_raddr p) b])).
Proof. intros e p. wps; sp; (split; [reflexivity|]); first [now left|right; eexists; reflexivity]. Qed.
Lemma rsp_eff : forall e b p, wp (smpOnPairingResponse C e b) p (fun p' o _ => effect e 2 p p' o).
Proof. intros e b p. wps; sp; silent. Qed.
Lemma conf_eff : forall e b p, wp (smpOnPairingConfirm e b) p (fun p' o _ => effect e 3 p p' o).
Proof. intros e b p. wps; sp; silent. Qed.
Lemma fail_eff : forall e b p, wp (smpOnPairingFailed e b) p (fun p' o _ => effect e 5 p p' o).
Proof. intros e b p. wps; sp; silent. Qed.
Lemma enc_eff : forall e b p, wp (smpOnEncryptionInformation e b) p (fun p' o _ => effect e 6 p p' o).
Proof. intros e b p. wps; sp; silent. Qed.
Lemma pub_eff : forall e b p, wp (smpOnPairingPublicKey C e b) p (fun p' o _ => effect e 12 p p' o).
Proof. intros e b p. wps; sp; silent. Qed.
Lemma mid_eff : forall e b p, wp (smpOnMasterIdentification e b) p (fun p' o _ => effect e 7 p p' o).
Proof.
  intros e b p. wps; sp; first [silent|
    split; sp; [reflexivity|intros x y Hx; cbn [In] in Hx; repeat (destruct Hx as [Hx|Hx]; [try discriminate Hx; now injection Hx|]); contradiction
               |intros k ed rn Hx; cbn [In] in Hx; repeat (destruct Hx as [Hx|Hx]; [discriminate Hx|]); contradiction|now left]].
Qed.
Lemma dh_eff : forall e b p, wp (smpOnDHKeyCheck C e b) p (fun p' o _ => effect e 13 p p' o).
Proof.
  intros e b p. unfold smpOnDHKeyCheck. apply wp_bind. 
  assert (K : wp (checkDHKeyCheck C b) p (fun p' o _ => p' = p /\ o = [])) by (wps; sp; now split).
  eapply wp_mono; [|exact K]. intros p1 o1 r1 (-> & ->). cbv beta. destruct r1 as [[]|]; [|silent].
  apply wp_bind. eapply wp_mono; [|apply save_only]. intros p2 o2 r2 (-> & S). cbv beta.
  assert (S' : forall o3, (forall x, In x o3 -> match x with OSave _ _ => False | _ => True end) -> forall x y, In (OSave x y) (o2 ++ o3) -> x = p_raddr p).
  { intros o3 N x y Hin. apply in_app_or in Hin. destruct Hin as [Hin|Hin]; [|destruct (N _ Hin)].
    destruct S as [-> | (b' & ->)]; [destruct Hin|]. destruct Hin as [Hin|[]]. now injection Hin as <-. }
  assert (S2 : forall k ed rn, ~ In (OStartEnc k ed rn) o2).
  { intros k ed rn Hin. destruct S as [-> | (b' & ->)]; [destruct Hin|]. destruct Hin as [Hin|[]]. discriminate. }
  destruct r2 as [[]|].
  2:{ cbn [app]. split; [reflexivity| |intros k ed rn Hin; destruct (S2 _ _ _ Hin)|now left].
      intros x y Hin. apply (S' []) with (y := y); [intros z []|]. now rewrite app_nil_r. }
  apply wp_bind, wp_modify. unfold Encrypt. apply wp_bind, wp_get. eapply wp_mono; [|apply encrypt_effect].
  intros p' o r (-> & _ & Eo & _). cbv beta. cbn [app]. split; sp.
  - reflexivity.
  - intros x y. apply S'. intros z Hz. destruct Eo as [-> | (k & ed & rn & -> & _)]; [destruct Hz|]. destruct Hz as [<-|[]]. exact Logic.I.
  - intros k ed rn Hin. apply in_app_or in Hin. destruct Hin as [Hin|Hin]; [destruct (S2 _ _ _ Hin)|].
    destruct Eo as [-> | (k' & ed' & rn' & -> & U & _)]; [destruct Hin|]. destruct Hin as [Hin|[]]. injection Hin as <- <- <-.
    right. left. split; [reflexivity|]. exact U.
  - now left.
Qed.
Lemma sec_eff : forall e b p, wp (smpOnSecurityRequest e b) p (fun p' o _ => effect e 11 p p' o).
Proof.
  intros e b p. unfold smpOnSecurityRequest. destruct b as [|a b]; [wps; silent|].
  assert (Ag : wp (modify (fun p => set_req (mkCfg (io_cap (p_req p)) (oob_flag (p_req p)) a (key_size (p_req p)) (init_dist (p_req p)) (resp_dist (p_req p))) p) ;;
                   sendPairingRequest e) p (fun p' o _ => effect e 11 p p' o)) by (wps; sp; silent).
  cbv zeta. destruct (Z.land a 3 =? 1); [|exact Ag]. destruct (e_find e) as [bi|] eqn:Ef; [|exact Ag]. clear Ag.
  apply wp_bind, wp_modify. unfold Encrypt. apply wp_bind, wp_get. eapply wp_mono; [|apply encrypt_effect].
  intros p' o r (-> & _ & Eo & _). cbv beta. cbn [app]. split; sp.
  - reflexivity.
  - intros x y Hz. destruct Eo as [-> | (k & ed & rn & -> & _)]; [destruct Hz|]. destruct Hz as [Hz|[]]. discriminate.
  - intros k ed rn Hin. destruct Eo as [-> | (k' & ed' & rn' & -> & U & _)]; [destruct Hin|]. destruct Hin as [Hin|[]]. injection Hin as <- <- <-.
    right. right. split; [reflexivity|]. rewrite Ef. split; [discriminate|]. exact U.
  - now left.
Qed.
Lemma rand_eff : forall e b p, wp (smpOnPairingRandom C e b) p (fun p' o _ => effect e 4 p p' o).
Proof.
  intros e b p. unfold smpOnPairingRandom. destruct (len_is 16 b) eqn:L; [|wps; silent].
  apply wp_bind, wp_modify, wp_bind, wp_get. sp. destruct (p_legacy p) eqn:PL.
  2:{ wps; sp; silent. }
  unfold onLegacyRandom. apply wp_bind.
  assert (K : wp (checkLegacyConfirm C) (set_rrand b p) (fun p' o _ => p' = set_rrand b p /\ o = [])) by (wps; sp; now split).
  eapply wp_mono; [|exact K]. intros p1 o1 r1 (-> & ->). cbv beta. destruct r1 as [[]|]; [|silent].
  apply wp_bind, wp_get, wp_bind, wp_liftE; [|intros _; sp; silent].
  intros stk Hs. apply smpS1_len in Hs; [|exact HC]. apply wp_bind, wp_modify, wp_bind.
  assert (Kf : wp (if Z.land (auth_req (p_req (set_rrand b p))) 3 =? 0 then modify (set_st Finished) else ret tt) (set_stk stk (set_rrand b p))
    (fun p' o r => o = [] /\ r <> None /\ p_raddr p' = p_raddr p /\ p_stk p' = stk /\ p_legacy p' = true)).
  { wps; sp; (split; [reflexivity|]); (split; [discriminate|]); (split; [reflexivity|]); (split; [reflexivity|exact PL]). }
  eapply wp_mono; [|exact Kf]. intros p2 o2 r2 (-> & Nr & A2 & S2 & L2). cbv beta. destruct r2 as [[]|]; [|congruence].
  unfold Encrypt. apply wp_bind, wp_get. eapply wp_mono; [|apply encrypt_effect].
  intros p' o r (-> & _ & _ & Eo). cbv beta.
  assert (N : p_stk p2 <> []). { rewrite S2. intro X. rewrite X in Hs. discriminate. }
  specialize (Eo L2 N). cbn [app]. subst o. split.
  - exact A2.
  - intros x y [H|[]]. discriminate.
  - intros k ed rn [H|[]]. injection H as <- <- <-. left. split; [reflexivity|]. split; [reflexivity|]. split; reflexivity.
  - right. split; [reflexivity|]. now left.
Qed.
Lemma dispatch_eff : forall e c d h p, dispatch C e c d = Some h -> wp h p (fun p' o _ => effect e c p p' o).
Proof.
  intros e c d h p Hd. unfold dispatch in Hd.
  repeat match type of Hd with (if ?x =? ?y then _ else _) = _ => destruct (Z.eqb_spec x y) as [->|_]; [apply Some_inj in Hd; subst h|] end.
  - apply rsp_eff. - apply conf_eff. - apply rand_eff. - apply fail_eff. - apply enc_eff. - apply mid_eff. - apply sec_eff. - apply pub_eff. - apply dh_eff.
  - discriminate.
Qed.
(** One step of a Security Manager. *)
Record step_effect (s : smp) (a : sact) (s' : smp) (evs : list ev) : Prop := {
  G_addr : p_raddr (ctx s') = p_raddr (ctx s);
  G_save : forall x b, In (EOut (OSave x b)) evs -> x = p_raddr (ctx s) /\ exists e pdu, a = AMsg e pdu;
  G_cmd : forall k ed rn, In (EOut (OStartEnc k ed rn)) evs -> exists e pdu c d, a = AMsg e pdu /\ msg_of pdu = Some (c, d) /\
            ((c = 4 /\ k = key_pad (p_stk (ctx s')) /\ ed = 0 /\ rn = 0) \/
             (c = 13 /\ uses (ctx s) (p_bond (ctx s)) k ed rn) \/
             (c = 11 /\ e_find e <> None /\ uses (ctx s) (e_find e) k ed rn));
  G_stk : p_stk (ctx s') = p_stk (ctx s) \/
          exists e pdu r, a = AMsg e pdu /\ msg_of pdu = Some (4, r) /\ In (EOut (OStartEnc (key_pad (p_stk (ctx s'))) 0 0)) evs }.
Lemma in_events : forall o evs1 x, Forall (fun x => match x with EOut _ => False | _ => True end) evs1 -> In (EOut x) (map EOut o ++ evs1) -> In x o.
Proof.
  intros o evs1 x F H. apply in_app_or in H. destruct H as [H|H].
  - apply in_map_iff in H. destruct H as (y & Y & H). now injection Y as ->.
  - rewrite Forall_forall in F. destruct (F _ H).
Qed.
Lemma after_events : forall s p err s' evs, after_handler s p err = Ret (s', evs) ->
  Forall (fun x => match x with EOut _ => False | _ => True end) evs /\ p_raddr (ctx s') = p_raddr p /\ p_stk (ctx s') = p_stk p.
Proof.
  intros s p err s' evs H. unfold after_handler in H. destruct err.
  - destruct (rclosed s); [discriminate|]. destruct (waiting s); injection H as <- <-.
    + split; [constructor; [exact Logic.I|constructor; [exact Logic.I|constructor]]|]. split; reflexivity.
    + split; [constructor|]. split; reflexivity.
  - destruct (p_st p); try (injection H as <- <-; split; [constructor|]; split; reflexivity).
    destruct (rclosed s); injection H as <- <-; [split; [constructor|]; split; reflexivity|].
    split; [|split; reflexivity]. destruct (waiting s); [constructor; [exact Logic.I|constructor]|constructor].
Qed.
Lemma sstep_eff : forall s a s' evs, sstep C s a = Some (Ret (s', evs)) -> match a with AStartEncryption _ => False | _ => True end ->
  step_effect s a s' evs.
Proof.
  intros s a s' evs H Na. destruct a as [e pdu|e k oob| |e]; cbn [sstep] in H.
  - destruct (stuck s); [discriminate|]. apply Some_inj in H. destruct (Handle_inv _ _ _ _ _ _ H) as (c & d & Hm & Hh).
    destruct Hh as [(Hd & Hc & evs' & -> & Hf & Hw & Hr)|(h & p & o & r & s1 & evs1 & Hd & Hh & Ha & -> & ->)].
    + assert (No : forall x, In (EOut x) (EOut (OSend (frame [5; 5])) :: evs') -> exists q, x = OSend q).
      { intros x [X|X]; [injection X as <-; eexists; reflexivity|]. rewrite Forall_forall in Hf. specialize (Hf _ X). discriminate. }
      split.
      * now rewrite Hc.
      * intros x b X. destruct (No _ X). discriminate.
      * intros k ed rn X. destruct (No _ X). discriminate.
      * left. now rewrite Hc.
    + destruct (dispatch_eff _ _ _ _ (ctx s) Hd _ _ _ Hh) as [E1 E2 E3 E4]. destruct (after_events _ _ _ _ _ Ha) as (F & A & S).
      split.
      * congruence.
      * intros x b X. apply in_events in X; [|exact F]. split; [exact (E2 _ _ X)|]. exists e, pdu. reflexivity.
      * intros k ed rn X. apply in_events in X; [|exact F]. exists e, pdu, c, d. split; [reflexivity|]. split; [exact Hm|].
        rewrite S. exact (E3 _ _ _ X).
      * rewrite S. destruct E4 as [E4|(-> & E4)]; [now left|]. right. exists e, pdu, d. split; [reflexivity|]. split; [exact Hm|].
        apply in_or_app. left. now apply in_map.
  - apply Some_inj in H. unfold Pair in H.
    assert (Hn : Ret (s, [EPairRet false]) = Ret (s', evs) -> step_effect s (APair e k oob) s' evs).
    { intro X. injection X as <- <-. split; try reflexivity.
      - intros x b [Y|[]]. discriminate. - intros k0 ed rn [Y|[]]. discriminate. - now left. }
    destruct (p_st (ctx s)) eqn:Es; try (exact (Hn H)). clear Hn.
    unfold StartPairing, sendPairingRequest, send, bind, modify, get, emit, must in H.
    destruct (0 <? length oob)%nat, (e_write e); cbn in H; injection H as <- <-;
      (split; cbn; [reflexivity|intros x b X; intuition discriminate|intros x ed rn X; intuition discriminate|now left]).
  - destruct (waiting s); [|discriminate]. injection H as <- <-. split; cbn; [reflexivity|intros x b X; intuition discriminate|intros x ed rn X; intuition discriminate|now left].
  - contradiction.
Qed.
Lemma start_eff : forall e p p' o r, StartEncryption e p = Ret (p', o, r) ->
  p' = p /\ (r <> None -> o <> []) /\
  (o = [] \/ exists k ed rn, o = [OStartEnc k ed rn] /\ e_find e <> None /\ uses p (e_find e) k ed rn /\ (r <> None <-> e_cmd e = true)).
Proof.
  intros e p p' o r H. unfold StartEncryption, bind, ofopt, ret, fail in H. destruct (e_find e) as [b|] eqn:Ef.
  - destruct (conn_encrypt e (Some b) p) as [[[p1 o1] r1]|] eqn:Ec; [|discriminate]. injection H as <- <- <-.
    destruct (encrypt_effect e (Some b) p _ _ _ Ec) as (-> & A & B & _). split; [reflexivity|]. split; [exact A|].
    destruct B as [B|(k & ed & rn & B1 & B2 & B3)]; [now left|]. right. exists k, ed, rn. split; [exact B1|]. split; [congruence|]. split; assumption.
  - injection H as <- <- <-. split; [reflexivity|]. split; [congruence|]. now left.
Qed.
End E.
