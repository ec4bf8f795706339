(** Complete pairings against given peers: total effects of the handlers. *)
Require Import Verif.Base Verif.M_smp Verif.S_smp Verif.P_smp Verif.P_smp2 Verif.P_smp7.

Definition runs {A} (m : M A) (p p' : pctx) (o : list out) (a : A) : Prop := m p = Ret (p', o, Some a).
Lemma r_ret {A} (a : A) p : runs (ret a) p p [] a.
Proof. reflexivity. Qed.
Lemma r_get p : runs get p p [] p.
Proof. reflexivity. Qed.
Lemma r_modify f p : runs (modify f) p (f p) [] tt.
Proof. reflexivity. Qed.
Lemma r_emit x p : runs (emit x) p p [x] tt.
Proof. reflexivity. Qed.
Lemma r_must b p : b = true -> runs (must b) p p [] tt.
Proof. intros ->. reflexivity. Qed.
Lemma r_lift {A} (x : go A) a p : x = Ret a -> runs (lift x) p p [] a.
Proof. intros ->. reflexivity. Qed.
Lemma r_ofopt {A} (x : option A) a p : x = Some a -> runs (ofopt x) p p [] a.
Proof. intros ->. reflexivity. Qed.
Lemma r_liftE {A} (x : go (option A)) a p : x = Ret (Some a) -> runs (liftE x) p p [] a.
Proof. intros ->. reflexivity. Qed.
Lemma r_bind {A D} (m : M A) (k : A -> M D) p p1 p2 o1 o2 a d :
  runs m p p1 o1 a -> runs (k a) p1 p2 o2 d -> runs (bind m k) p p2 (o1 ++ o2) d.
Proof. unfold runs, bind. intros -> ->. reflexivity. Qed.
Lemma r_ignore m p p' o : runs m p p' o tt -> runs (ignore_err m) p p' o tt.
Proof. unfold runs, ignore_err. intros ->. reflexivity. Qed.
Lemma r_conv {A} (m : M A) p p1 p2 o1 o2 a : runs m p p1 o1 a -> p1 = p2 -> o1 = o2 -> runs m p p2 o2 a.
Proof. intros H -> ->. exact H. Qed.
Ltac rstep :=
  lazymatch goal with
  | |- runs (ret _) _ _ _ _ => apply r_ret
  | |- runs get _ _ _ _ => apply r_get
  | |- runs (modify _) _ _ _ _ => apply r_modify
  | |- runs (emit _) _ _ _ _ => apply r_emit
  | |- runs (must _) _ _ _ _ => apply r_must
  | |- runs (lift _) _ _ _ _ => eapply r_lift
  | |- runs (liftE _) _ _ _ _ => eapply r_liftE
  | |- runs (ofopt _) _ _ _ _ => eapply r_ofopt
  | |- runs (ignore_err _) _ _ _ _ => apply r_ignore
  | |- runs (bind _ _) _ _ _ _ => eapply r_bind
  end; cbv beta iota.

Lemma wire_back : forall k, length k = 64%nat -> key_of_wire (key_wire k) = k.
Proof.
  intros k Hk. unfold key_of_wire, key_wire.
  assert (L : length (rev (firstn 32 k)) = 32%nat) by (rewrite rev_length, firstn_length, Hk; reflexivity).
  rewrite firstn_app, skipn_app, L, Nat.sub_diag, (firstn_all2 (n := 32) (rev (firstn 32 k))), (skipn_all2 (n := 32) (rev (firstn 32 k))) by lia. change (skipn 0 (rev (skipn 32 k))) with (rev (skipn 32 k)). change (firstn 0 (rev (skipn 32 k))) with (@nil Z). rewrite app_nil_r, !rev_involutive. cbn [app]. rewrite rev_involutive.
  apply firstn_skipn.
Qed.
Lemma key_x_wire : forall k, length k = 64%nat -> key_x (key_wire k) = firstn 32 k.
Proof.
  intros k Hk. unfold key_x, key_wire.
  assert (L : length (rev (firstn 32 k)) = 32%nat) by (rewrite rev_length, firstn_length, Hk; reflexivity).
  rewrite firstn_app, L, Nat.sub_diag, (firstn_all2 (n := 32) (rev (firstn 32 k))) by lia. change (firstn 0 (rev (skipn 32 k))) with (@nil Z). now rewrite app_nil_r, rev_involutive.
Qed.


Section R.
Variable C : prims.
Variable HC : prims_ok C.
Variable HD : forall k q, length (dh C k q) = 32%nat.

Lemma send_runs : forall e b p, e_write e = true -> runs (send e b) p p [OSend (frame b)] tt.
Proof. intros e b p H. unfold send. eapply r_conv; [rstep; rstep; assumption|reflexivity|reflexivity]. Qed.

Lemma conf_runs : forall e d p na, length d = 16%nat -> e_write e = true -> p_lrand p = Some na ->
  runs (smpOnPairingConfirm e d) p (set_st WaitRandom (set_rconf d p)) [OSend (frame (4 :: na))] tt.
Proof.
  intros e d p na Hd Hw Hna. unfold smpOnPairingConfirm, len_is. rewrite Hd. cbn [Nat.eqb]. unfold sendPairingRandom.
  eapply r_conv.
  - rstep; [rstep|]. rstep; [rstep|]. cbn [set_rconf p_lrand]. rewrite Hna. cbv iota. rstep; [rstep|]. rstep; [rstep|]. rstep; [rstep|].
    apply send_runs; assumption.
  - reflexivity.
  - cbn [app]. unfold lrand. sp. rewrite Hna. reflexivity.
Qed.
Lemma conf_runs1 : forall e d p, length d = 16%nat -> e_write e = true -> e_rand_ok e = true -> p_lrand p = None ->
  runs (smpOnPairingConfirm e d) p (set_st WaitRandom (set_lrand (Some (e_rand e)) (set_rconf d p))) [OSend (frame (4 :: e_rand e))] tt.
Proof.
  intros e d p Hd Hw Hr Hna. unfold smpOnPairingConfirm, len_is. rewrite Hd. cbn [Nat.eqb]. unfold sendPairingRandom.
  eapply r_conv.
  - rstep; [rstep|]. rstep; [rstep|]. cbn [set_rconf p_lrand]. rewrite Hna. cbv iota. rstep; [rstep; [rstep; exact Hr|rstep]|]. rstep; [rstep|]. rstep; [rstep|].
    apply send_runs; assumption.
  - reflexivity.
  - reflexivity.
Qed.

Variables (ka kb : Z).
Notation PA := (pub_of C ka).
Notation PB := (pub_of C kb).
Hypothesis HPB : on_curve C PB = true.
Hypothesis HPne : PA <> PB.

Lemma pub_len : forall k, length (pub_of C k) = 64%nat.
Proof. apply HC. Qed.
Lemma x_len : forall k, length (firstn 32 (pub_of C k)) = 32%nat.
Proof. intro k. rewrite firstn_length, pub_len. reflexivity. Qed.
Lemma wire_len : forall k, length (key_wire (pub_of C k)) = 64%nat.
Proof. intro k. unfold key_wire. rewrite app_length, !rev_length, firstn_length, skipn_length, pub_len. reflexivity. Qed.
Notation conf := (S_smp.conf C).
Lemma F4_keys : forall k1 k2 n z, length n = 16%nat ->
  smpF4 C (swap (firstn 32 (pub_of C k1))) (swap (firstn 32 (pub_of C k2))) n z = Some (conf (firstn 32 (pub_of C k1)) (firstn 32 (pub_of C k2)) n z).
Proof.
  intros k1 k2 n z Hn. unfold swap. rewrite F4_spec; rewrite ?rev_length, ?x_len; try assumption; try reflexivity.
  now rewrite !rev_involutive.
Qed.
Lemma conf_len : forall x1 x2 n z, length (conf x1 x2 n z) = 16%nat.
Proof. intros. unfold conf. rewrite rev_length. unfold f4. apply HC. Qed.

(** Passkey rounds. *)
Lemma cont_runs : forall e p, calm ka e -> p_keys p = Some ka -> p_rpub p = Some PB ->
  runs (continuePassKeyPairing C e) p (set_lrand (Some (e_rand e)) p)
    [OSend (frame (3 :: conf (firstn 32 PA) (firstn 32 PB) (e_rand e) (passkey_bit_op (p_passkey p) (p_iter p))))] tt.
Proof.
  intros e p (Hw & Hlr & Hr & _) Hk Hq. unfold continuePassKeyPairing. eapply r_conv.
  - rstep; [rstep|]. unfold own_public. rewrite Hk, Hq. rstep; [rstep; reflexivity|]. rstep; [rstep; reflexivity|]. rstep; [rstep|].
    rewrite F4_keys by assumption. rstep. apply send_runs. assumption.
  - reflexivity.
  - rewrite passkey_z_spec. reflexivity.
Qed.

Lemma pub_ok : beq_bytes (swap (firstn 32 PA) ++ swap (skipn 32 PA)) (key_wire PB) = false.
Proof.
  destruct (beq_bytes _ _) eqn:E; [|reflexivity]. apply beq_bytes_eq in E. exfalso. apply HPne.
  rewrite <- (wire_back PA), <- (wire_back PB) by apply pub_len. f_equal. exact E.
Qed.
Lemma unm_ok : UnmarshalPublicKey C (key_wire PB) = Some PB.
Proof.
  unfold UnmarshalPublicKey. change (swap (firstn 32 (key_wire PB)) ++ swap (skipn 32 (key_wire PB))) with (key_of_wire (key_wire PB)).
  rewrite wire_back by apply pub_len. now rewrite HPB.
Qed.

Lemma pub_runs_passkey : forall e p, calm ka e -> p_keys p = Some ka -> p_type p = Passkey ->
  runs (smpOnPairingPublicKey C e (key_wire PB)) p (set_lrand (Some (e_rand e)) (set_iter 0%nat (set_rpub (Some PB) p)))
    [OSend (frame (3 :: conf (firstn 32 PA) (firstn 32 PB) (e_rand e) (passkey_bit_op (p_passkey p) 0)))] tt.
Proof.
  intros e p He Hk Ht. unfold smpOnPairingPublicKey, len_is. rewrite wire_len. cbn [Nat.eqb]. eapply r_conv.
  - rstep; [rstep|]. unfold own_public. rewrite Hk, Ht. rstep; [rstep; reflexivity|].
    rewrite pub_ok, unm_ok. rstep; [rstep|]. unfold startPassKeyPairing. rstep; [rstep|]. apply cont_runs; [assumption|exact Hk|reflexivity].
  - reflexivity.
  - reflexivity.
Qed.
Lemma pub_runs_plain : forall e p, p_keys p = Some ka -> p_type p <> Passkey ->
  runs (smpOnPairingPublicKey C e (key_wire PB)) p (set_rpub (Some PB) p) [] tt.
Proof.
  intros e p Hk Ht. unfold smpOnPairingPublicKey, len_is. rewrite wire_len. cbn [Nat.eqb]. eapply r_conv.
  - rstep; [rstep|]. unfold own_public. rewrite Hk. rstep; [rstep; reflexivity|].
    rewrite pub_ok, unm_ok. rstep; [rstep|]. destruct (p_type p); try congruence; rstep.
  - reflexivity.
  - reflexivity.
Qed.

(** One passed round. *)
Lemma rand_runs_round : forall e p nb, calm ka e -> p_keys p = Some ka -> p_rpub p = Some PB -> p_type p = Passkey -> p_legacy p = false ->
  length nb = 16%nat -> (S (p_iter p) < 20)%nat ->
  p_rconf p = conf (firstn 32 PB) (firstn 32 PA) nb (passkey_bit_op (p_passkey p) (p_iter p)) ->
  runs (smpOnPairingRandom C e nb) p (set_lrand (Some (e_rand e)) (set_iter (S (p_iter p)) (set_rrand nb p)))
    [OSend (frame (3 :: conf (firstn 32 PA) (firstn 32 PB) (e_rand e) (passkey_bit_op (p_passkey p) (S (p_iter p)))))] tt.
Proof.
  intros e p nb He Hk Hq Ht Hl Hn Hi Hc. unfold smpOnPairingRandom, len_is. rewrite Hn. cbn [Nat.eqb]. eapply r_conv.
  - rstep; [rstep|]. rstep; [rstep|]. cbn [set_rrand p_legacy]. rewrite Hl. unfold onSecureRandom. rstep; [rstep|]. cbn [set_rrand p_type]. rewrite Ht.
    rstep; [|].
    + unfold handlePassKeyRandom. rstep.
      { unfold checkPasskeyConfirm. rstep; [rstep|]. unfold own_public. sp. rewrite Hk, Hq. rstep; [rstep; reflexivity|]. rstep; [rstep; reflexivity|].
        rstep; [rstep; apply F4_keys; assumption|]. rstep. rewrite Hc, passkey_z_spec. apply beq_bytes_refl. }
      rstep; [rstep|]. rstep; [rstep|]. change passkeyIterationCount with 20%nat. 
      cbn [p_iter set_rrand]. rewrite (proj2 (Nat.ltb_lt _ _) Hi). rstep; [apply cont_runs; [exact He|exact Hk|exact Hq]|rstep].
    + cbv iota. rstep.
  - reflexivity.
  - reflexivity.
Qed.

Variables (la ra : bytes) (lat rat : Z).
Hypothesis Hla : length la = 6%nat.
Hypothesis Hra : length ra = 6%nat.
Definition opA := addr_op lat la.
Definition opB := addr_op rat ra.
(** What both sides derive. *)
Definition maclt (na nb : bytes) : bytes * bytes :=
  (rev (f5_mackey C (dh C ka PB) (rev na) (rev nb) opA opB), rev (f5_ltk C (dh C ka PB) (rev na) (rev nb) opA opB)).
Definition addrs_ok (p : pctx) : Prop := p_laddr p = rev la /\ p_raddr p = rev ra /\ p_lat p = lat /\ p_rat p = rat.
Definition rlen (p : pctx) : Prop := length (check_r p) = 16%nat.

Definition checkA (p : pctx) (na nb : bytes) : bytes :=
  rev (f6 C (rev (fst (maclt na nb))) (rev na) (rev nb) (rev (check_r p)) (io_op (p_req p)) opA opB).
Definition checkB (p : pctx) (na nb : bytes) : bytes :=
  rev (f6 C (rev (fst (maclt na nb))) (rev nb) (rev na) (rev (check_r p)) (io_op (p_rsp p)) opB opA).
Definition agreed (na nb : bytes) (p : pctx) : pctx :=
  set_st WaitDhKeyCheck (set_mac (fst (maclt na nb)) (set_bond (Some (mkBond (snd (maclt na nb)) 0 0 false)) (set_dhkey (rev (dh C ka PB)) p))).

Lemma maclt_len : forall na nb, length (fst (maclt na nb)) = 16%nat.
Proof. intros. cbn [maclt fst]. rewrite rev_length. apply HC. Qed.

Lemma agree_runs : forall e p na nb, calm ka e -> p_keys p = Some ka -> p_rpub p = Some PB -> addrs_ok p -> rlen p ->
  p_lrand p = Some na -> p_rrand p = nb -> length na = 16%nat -> length nb = 16%nat ->
  runs (calcMacLtk C ;; sendDHKeyCheck C e) p (agreed na nb p) [OSend (frame (13 :: checkA p na nb))] tt.
Proof.
  intros e p na nb He Hk Hq (A1 & A2 & A3 & A4) Hr Hna Hnb Lna Lnb. 
  eapply r_conv.
  - rstep.
    + unfold calcMacLtk. rstep.
      { unfold generateDHKey. rstep; [rstep|]. rewrite Hk, Hq. rstep. }
      rstep; [rstep|]. rstep.
      { rstep. unfold lrand. sp. rewrite Hna, Hnb, A1, A2, A3, A4. unfold swap.
        rewrite F5_spec by (rewrite ?app_length, ?rev_length, ?Hla, ?Hra, ?HD; first [assumption|reflexivity]).
        rewrite !rev_app_distr, !rev_involutive. reflexivity. }
      rstep; [rstep|]. rstep.
    + unfold sendDHKeyCheck. rstep; [rstep|]. rstep.
      { rstep. unfold lrand. sp. rewrite Hna, Hnb, A1, A2, A3, A4.
        rewrite F6_spec; rewrite ?app_length, ?rev_length, ?Hla, ?Hra; try assumption; try reflexivity; apply HC. }
      rstep; [rstep|]. apply send_runs. apply He.
  - reflexivity.
  - cbn [app]. unfold checkA, maclt. cbn [fst]. rewrite !rev_app_distr, !rev_involutive. reflexivity.
Qed.

Lemma rand_runs_last : forall e p na nb, calm ka e -> p_keys p = Some ka -> p_rpub p = Some PB -> p_type p = Passkey -> p_legacy p = false ->
  addrs_ok p -> p_lrand p = Some na -> length na = 16%nat ->
  length nb = 16%nat -> p_iter p = 19%nat ->
  p_rconf p = conf (firstn 32 PB) (firstn 32 PA) nb (passkey_bit_op (p_passkey p) 19) ->
  runs (smpOnPairingRandom C e nb) p (agreed na nb (set_iter 20%nat (set_rrand nb p)))
    [OSend (frame (13 :: checkA p na nb))] tt.
Proof.
  intros e p na nb He Hk Hq Ht Hl Ha Hna Lna Hn Hi Hc. unfold smpOnPairingRandom, len_is. rewrite Hn. cbn [Nat.eqb]. eapply r_conv.
  - rstep; [rstep|]. rstep; [rstep|]. cbn [set_rrand p_legacy]. rewrite Hl. unfold onSecureRandom. rstep; [rstep|]. cbn [set_rrand p_type]. rewrite Ht.
    rstep; [|].
    + unfold handlePassKeyRandom. rstep.
      { unfold checkPasskeyConfirm. rstep; [rstep|]. unfold own_public. sp. rewrite Hk, Hq. rstep; [rstep; reflexivity|]. rstep; [rstep; reflexivity|].
        rstep; [rstep; apply F4_keys; assumption|]. rstep. rewrite Hc, passkey_z_spec, Hi. apply beq_bytes_refl. }
      rstep; [rstep|]. rstep; [rstep|]. change passkeyIterationCount with 20%nat. 
      cbn [p_iter set_rrand]. rewrite Hi. change (20 <? 20)%nat with false. cbv iota. rstep.
    + cbv iota. eapply (agree_runs _ _ na nb); try assumption; try reflexivity. unfold rlen, check_r. sp. rewrite Ht. apply tk_len.
  - reflexivity.
  - reflexivity.
Qed.
Lemma rand_runs_plain : forall e p na nb, calm ka e -> p_keys p = Some ka -> p_rpub p = Some PB -> p_type p <> Passkey -> p_legacy p = false ->
  addrs_ok p -> rlen p -> p_lrand p = Some na -> length na = 16%nat ->
  length nb = 16%nat ->
  p_rconf p = conf (firstn 32 PB) (firstn 32 PA) nb 0 ->
  runs (smpOnPairingRandom C e nb) p (agreed na nb (set_rrand nb p)) [OSend (frame (13 :: checkA p na nb))] tt.
Proof.
  intros e p na nb He Hk Hq Ht Hl Ha Hr Hna Lna Hn Hc. unfold smpOnPairingRandom, len_is. rewrite Hn. cbn [Nat.eqb].
  assert (Hcheck : runs (checkConfirm C ;; ret false) (set_rrand nb p) (set_rrand nb p) [] false).
  { apply (r_bind _ _ _ (set_rrand nb p) _ [] [] tt); [|apply r_ret]. eapply r_conv; [|reflexivity|]. 
    unfold checkConfirm. rstep; [rstep|]. unfold own_public. sp. rewrite Hk, Hq. rstep; [rstep; reflexivity|]. rstep; [rstep; reflexivity|].
        rstep; [rstep; apply F4_keys; assumption|]. rstep. rewrite Hc. apply beq_bytes_refl. reflexivity. }
  eapply r_conv.
  - rstep; [rstep|]. rstep; [rstep|]. cbn [set_rrand p_legacy]. rewrite Hl. unfold onSecureRandom. rstep; [rstep|].
    rstep.
    + cbn [set_rrand p_type]. destruct (p_type p); try congruence; exact Hcheck.
    + cbv iota. eapply (agree_runs _ _ na nb); try assumption; reflexivity.
  - reflexivity.
  - reflexivity.
Qed.

(** The DHKey check of the peer: the bond is saved and encryption starts. *)
Lemma dh_runs : forall e p na nb b, calm ka e -> addrs_ok p -> rlen p -> p_legacy p = false ->
  p_mac p = fst (maclt na nb) -> p_lrand p = Some na -> p_rrand p = nb -> length na = 16%nat -> length nb = 16%nat ->
  p_bond p = Some b -> Z.land (auth_req (p_req p)) 3 = 1 -> blegacy b = false -> length (ltk b) = 16%nat ->
  runs (smpOnDHKeyCheck C e (checkB p na nb)) p (set_st Finished p) [OSave (rev ra) b; OStartEnc (ltk b) (ediv b) (brand b)] tt.
Proof.
  intros e p na nb b (Hw & Hlr & Hro & Hke & Hsa & Hcm) (A1 & A2 & A3 & A4) Hr Hl Hm Hna Hnb Lna Lnb Hb Hau Hbl Hlt.
  unfold smpOnDHKeyCheck. eapply r_conv.
  - rstep.
    { unfold checkDHKeyCheck. rstep; [rstep|]. rstep.
      - rstep. unfold lrand. rewrite Hm, Hna, Hnb, A1, A2, A3, A4.
        rewrite F6_spec; rewrite ?app_length, ?rev_length, ?Hla, ?Hra; try assumption; try reflexivity; apply maclt_len.
      - rstep. unfold checkB. rewrite !rev_app_distr, !rev_involutive. apply beq_bytes_refl. }
    rstep.
    { unfold saveBondInfo. rstep; [rstep|]. rewrite Hau. cbn [Z.eqb Pos.eqb negb]. cbv iota. rewrite Hb. rstep; [rstep|]. rstep. exact Hsa. }
    rstep; [rstep|]. unfold Encrypt. rstep; [rstep|]. unfold conn_encrypt. rstep; [rstep|]. sp. rewrite Hl. cbn [andb]. cbv iota. rewrite Hb.
    cbv iota. rewrite Hbl. cbn [andb]. cbv iota. rstep; [rstep; unfold key_array; rewrite Hlt; reflexivity|].
    rstep; [rstep|]. rstep. exact Hcm.
  - reflexivity.
  - cbn [app]. change (blank (16 - 16)) with (@nil Z). rewrite app_nil_r. sp. rewrite A2. reflexivity.
Qed.

(** Message level. *)
Lemma Handle_runs : forall e s c d h p o, dispatch C e c d = Some h -> runs h (ctx s) p o tt -> p_st p <> Finished ->
  Handle C e s (frame (c :: d)) = Ret (mkSmp p (waiting s) (rclosed s) false, map EOut o).
Proof.
  intros e s c d h p o Hd Hr Hp.
  assert (E : Handle C e s (frame (c :: d)) = match dispatch C e c d with
    | None => let! r := send e [5; 5] (ctx s) in
      match r with
      | (p, o, Some _) => Ret (mkSmp p (waiting s) (rclosed s) false, map EOut o)
      | (p, o, None) => Ret (mkSmp p (waiting s) (rclosed s) false, map EOut o ++ [EHandleErr])
      end
    | Some h => let! r := h (ctx s) in
      match r with
      | (p, o, res) => let! r := after_handler s p (match res with None => true | Some _ => false end) in Ret (fst r, map EOut o ++ snd r)
      end end) by reflexivity.
  rewrite E, Hd, Hr. cbn [gbind]. unfold after_handler.
  destruct (p_st p); try congruence; cbn [gbind fst snd]; now rewrite app_nil_r.
Qed.
Lemma Handle_runs_end : forall e s c d h p o, dispatch C e c d = Some h -> runs h (ctx s) p o tt -> p_st p = Finished -> rclosed s = false ->
  Handle C e s (frame (c :: d)) = Ret (mkSmp p false true false, map EOut o ++ (if waiting s then [EPairRet true] else [])).
Proof.
  intros e s c d h p o Hd Hr Hp Hc.
  assert (E : Handle C e s (frame (c :: d)) = match dispatch C e c d with
    | None => let! r := send e [5; 5] (ctx s) in
      match r with
      | (p, o, Some _) => Ret (mkSmp p (waiting s) (rclosed s) false, map EOut o)
      | (p, o, None) => Ret (mkSmp p (waiting s) (rclosed s) false, map EOut o ++ [EHandleErr])
      end
    | Some h => let! r := h (ctx s) in
      match r with
      | (p, o, res) => let! r := after_handler s p (match res with None => true | Some _ => false end) in Ret (fst r, map EOut o ++ snd r)
      end end) by reflexivity.
  rewrite E, Hd, Hr. cbn [gbind]. unfold after_handler. rewrite Hp, Hc. reflexivity.
Qed.
End R.
