(** Recombination of damaged fragment sequences. *)
Require Import Verif.Base Verif.M_l2cap Verif.S_l2cap Verif.P_l2cap.

Lemma recombine_pre : forall rxmps h ps fss tail r, 0 <= h < 4096 -> Forall (good_pdu rxmps) ps -> Forall2 (rx_frags h) ps fss ->
  (forall fuel, (length tail < fuel)%nat -> recombine_all fuel rxmps tail = Ret r) ->
  forall fuel, (length (concat fss ++ tail) < fuel)%nat -> recombine_all fuel rxmps (concat fss ++ tail) = Ret (ps ++ fst r, snd r).
Proof.
  intros rxmps h ps fss tail r Hh Hg HF HT. induction HF as [|p fs ps fss Hp HF IH]; intros fuel Hf.
  - cbn [concat app] in *. rewrite HT by exact Hf. now destruct r.
  - inversion Hg as [|? ? Hg1 Hg2]; subst. destruct fuel as [|fuel]; [lia|]. cbn [concat recombine_all]. rewrite <- app_assoc.
    rewrite (recombine_one rxmps h p fs (concat fss ++ tail) Hh Hg1 Hp). cbn [gbind].
    cbn [concat] in Hf. rewrite <- app_assoc, app_length in Hf. assert (L := rx_frags_len h p fs Hp).
    rewrite IH by (auto; lia). reflexivity.
Qed.

Lemma rc_loop_short : forall fs h a b tail, 0 <= h < 4096 -> rx_conts h b fs ->
  (exists d, pdu_dlen a = Ret d /\ (4 <= length a)%nat /\ (length (a ++ b) < 4 + d)%nat) ->
  rc_loop a (fs ++ tail) = rc_loop (a ++ b) tail.
Proof.
  induction fs as [|f fs IH]; intros h a b tail Hh Hc (d & Hd & H4 & Hl).
  - inversion Hc; subst. now rewrite app_nil_r.
  - inversion Hc as [|a1 b1 fs1 Hne Hc1]; subst. cbn [app rc_loop]. rewrite Hd. cbn [gbind].
    rewrite !app_length in Hl. replace (Nat.ltb (length a) (4 + d)) with true by lia.
    rewrite acl_pbf by lia. cbn [gbind]. cbn [Z.modulo]. replace (1 mod 2 =? 0) with false by reflexivity.
    rewrite acl_data. cbn [gbind]. rewrite app_assoc. apply (IH h); auto. exists d.
    rewrite (proj1 (dlen_prefix a a1 H4)). split; [exact Hd|]. rewrite !app_length. split; lia.
Qed.
Lemma recombine_short : forall rxmps h p q fs tail, 0 <= h < 4096 -> good_pdu rxmps (p ++ q) -> q <> [] -> rx_frags h p fs ->
  recombine rxmps (fs ++ tail) = rc_loop p tail /\ exists d, pdu_dlen p = Ret d /\ (length p < 4 + d)%nat.
Proof.
  intros rxmps h p q fs tail Hh (c & d & Ep & Hc & Hd & Hm) Hq (a & b & fs' & st & H4 & Hst & -> & -> & Hct).
  assert (D : pdu_dlen a = Ret (length d)).
  { rewrite <- (proj1 (dlen_prefix a (b ++ q) H4)), app_assoc, Ep. now apply b_frame_dlen. }
  assert (C : pdu_cid a = Ret c).
  { rewrite <- (proj2 (dlen_prefix a (b ++ q) H4)), app_assoc, Ep. now apply b_frame_cid. }
  assert (L : (length (a ++ b) < 4 + length d)%nat).
  { apply (f_equal (@length _)) in Ep. unfold b_frame in Ep. rewrite !app_length, !le16_length in Ep. rewrite app_length. destruct q; [congruence|]. cbn [length] in Ep. lia. }
  split.
  - cbn [app recombine]. rewrite acl_data. cbn [gbind]. rewrite C, D. cbn [gbind].
    replace ((c =? 4) && Nat.ltb rxmps (length d))%bool with false.
    2:{ symmetry. destruct (Z.eqb_spec c 4) as [->|N]; [|reflexivity]. specialize (Hm eq_refl). cbn [andb]. lia. }
    unfold pdu_payload. rewrite gfrom_ok by lia. cbn [gbind]. apply (rc_loop_short fs' h); auto. eauto.
  - exists (length d). split; [|exact L]. now rewrite (proj1 (dlen_prefix a b H4)).
Qed.

Theorem recombine_cut : forall rxmps h ps fss p q fs, 0 <= h < 4096 -> Forall (good_pdu rxmps) ps -> Forall2 (rx_frags h) ps fss ->
  good_pdu rxmps (p ++ q) -> q <> [] -> rx_frags h p fs ->
  recombine_run rxmps (concat fss ++ fs) = Ret (ps, true) /\
  (forall st x rest, st = 0 \/ st = 2 -> recombine_run rxmps (concat fss ++ fs ++ acl h st x :: rest) = Ret (ps, false)).
Proof.
  intros rxmps h ps fss p q fs Hh Hg HF Hp Hq Hfr. split.
  - unfold recombine_run. rewrite (recombine_pre rxmps h ps fss fs ([], true) Hh Hg HF); [now rewrite app_nil_r| |lia].
    intros [|fuel] Hf; [lia|]. cbn [recombine_all]. destruct (recombine_short rxmps h p q fs [] Hh Hp Hq Hfr) as [E (d & D & L)].
    rewrite app_nil_r in E. rewrite E. cbn [rc_loop]. rewrite D. cbn [gbind]. replace (Nat.ltb (length p) (4 + d)) with true by lia. reflexivity.
  - intros st x rest Hst. unfold recombine_run. rewrite (recombine_pre rxmps h ps fss (fs ++ acl h st x :: rest) ([], false) Hh Hg HF); [now rewrite app_nil_r| |lia].
    intros [|fuel] Hf; [lia|]. cbn [recombine_all]. destruct (recombine_short rxmps h p q fs (acl h st x :: rest) Hh Hp Hq Hfr) as [E (d & D & L)].
    rewrite E. cbn [rc_loop]. rewrite D. cbn [gbind]. replace (Nat.ltb (length p) (4 + d)) with true by lia.
    rewrite acl_pbf by lia. cbn [gbind]. replace (st mod 2 =? 0) with true; [reflexivity|]. destruct Hst; subst; reflexivity.
Qed.
Theorem recombine_too_big : forall rxmps h ps fss d a b st rest, 0 <= h < 4096 -> Forall (good_pdu rxmps) ps -> Forall2 (rx_frags h) ps fss ->
  (rxmps < length d)%nat -> Z.of_nat (length d) <= 65535 -> b_frame 4 d = a ++ b -> (4 <= length a)%nat ->
  recombine_run rxmps (concat fss ++ acl h st a :: rest) = Ret (ps, false).
Proof.
  intros rxmps h ps fss d a b st rest Hh Hg HF Hb Hd E H4. unfold recombine_run.
  rewrite (recombine_pre rxmps h ps fss (acl h st a :: rest) ([], false) Hh Hg HF); [now rewrite app_nil_r| |lia].
  intros [|fuel] Hf; [lia|]. cbn [recombine_all recombine]. rewrite acl_data. cbn [gbind].
  rewrite <- (proj1 (dlen_prefix a b H4)), <- (proj2 (dlen_prefix a b H4)), <- E, b_frame_dlen, b_frame_cid by lia. cbn [gbind].
  replace (Nat.ltb rxmps (length d)) with true by lia. reflexivity.
Qed.
