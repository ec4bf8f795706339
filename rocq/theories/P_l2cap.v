Require Import Verif.Base Verif.M_l2cap Verif.S_l2cap.

Lemma lor_flag : forall h, 0 <= h < 4096 -> Z.lor h (16 * 256) = h + 4096 * 1.
Proof.
  intros h H. rewrite Z.lor_comm. change (16 * 256) with (1 * 2 ^ 12).
  rewrite <- Z.shiftl_mul_pow2 by lia.
  assert (HZ : Z.land (Z.shiftl 1 12) h = 0).
  2:{ rewrite <- (Z.lxor_lor _ _ HZ), <- (Z.add_nocarry_lxor _ _ HZ). change (Z.shiftl 1 12) with 4096. lia. }
  apply Z.bits_inj'. intros n Hn. rewrite Z.land_spec, Z.bits_0.
  destruct (Z.testbit h n) eqn:E; [|apply andb_false_r]. rewrite andb_true_r.
  assert (n < 12). { destruct (Z.lt_ge_cases n 12); [assumption|]. exfalso.
    rewrite (Z.bits_above_log2 h n) in E; [discriminate|lia|].
    destruct (Z.eq_dec h 0) as [->|Hh]; [cbn; lia|]. apply Z.log2_lt_pow2; [lia|].
    eapply Z.lt_le_trans; [apply H|]. change 4096 with (2 ^ 12). apply Z.pow_le_mono_r; lia. }
  rewrite Z.shiftl_spec_low by lia. reflexivity.
Qed.
Lemma lor_noflag : forall h, Z.lor h (0 * 256) = h + 4096 * 0.
Proof. intro h. change (0 * 256) with 0. rewrite Z.lor_0_r. lia. Qed.

Lemma write_conts : forall fuel h n pdu, 0 <= h < 4096 -> (1 <= n)%nat -> (length pdu < fuel)%nat ->
  exists fs, write_loop fuel h n 16 pdu = Ret (map (cons 2) fs) /\ conts n h pdu fs.
Proof.
  induction fuel as [|fuel IH]; intros h n pdu Hh Hn Hf; [lia|]. cbn [write_loop].
  destruct pdu as [|x r]; [exists []; split; [reflexivity|constructor]|]. set (pdu := x :: r) in *.
  set (flen := if Nat.ltb n (length pdu) then n else length pdu).
  assert (HL : (1 <= length pdu)%nat) by (cbn; lia).
  assert (HF : (1 <= flen <= n)%nat /\ (flen <= length pdu)%nat) by (unfold flen; destruct (Nat.ltb n (length pdu)) eqn:E; lia).
  rewrite gslice_ok by lia. cbn [gbind skipn]. rewrite Nat.sub_0_r. rewrite gfrom_ok by lia. cbn [gbind].
  destruct (IH h n (skipn flen pdu) Hh Hn) as (fs & E1 & E2); [rewrite skipn_length; lia|].
  rewrite E1. cbn [gbind]. exists (acl h 1 (firstn flen pdu) :: fs). split.
  - cbn [map]. unfold acl. rewrite lor_flag by assumption. rewrite firstn_length, Nat.min_l by lia. reflexivity.
  - rewrite <- (firstn_skipn flen pdu) at 1. constructor; [rewrite firstn_length; lia|exact E2].
Qed.
Lemma writePDU_frags : forall h n pdu, 0 <= h < 4096 -> (1 <= n)%nat -> pdu <> [] ->
  exists fs, writePDU h n pdu = Ret (map (cons 2) fs) /\ frags n h pdu fs.
Proof.
  intros h n pdu Hh Hn Hp. unfold writePDU. cbn [write_loop].
  destruct pdu as [|x r]; [congruence|]. set (pdu := x :: r) in *.
  set (flen := if Nat.ltb n (length pdu) then n else length pdu).
  assert (HL : (1 <= length pdu)%nat) by (cbn; lia).
  assert (HF : (1 <= flen <= n)%nat /\ (flen <= length pdu)%nat) by (unfold flen; destruct (Nat.ltb n (length pdu)) eqn:E; lia).
  rewrite gslice_ok by lia. cbn [gbind skipn]. rewrite Nat.sub_0_r. rewrite gfrom_ok by lia. cbn [gbind].
  destruct (write_conts (length pdu) h n (skipn flen pdu) Hh Hn) as (fs & E1 & E2); [rewrite skipn_length; lia|].
  rewrite E1. cbn [gbind]. exists (acl h 0 (firstn flen pdu) :: fs). split.
  - cbn [map]. unfold acl. rewrite lor_noflag. rewrite firstn_length, Nat.min_l by lia. reflexivity.
  - exists (firstn flen pdu), (skipn flen pdu), fs. split; [rewrite firstn_length; lia|]. split; [now rewrite firstn_skipn|]. auto.
Qed.
Lemma b_frame_nonempty : forall c p, b_frame c p <> []. Proof. discriminate. Qed.
Lemma conn_write_spec : forall mtu h n sdu, 0 <= h < 4096 -> (1 <= n)%nat ->
  ((mtu < length sdu)%nat /\ conn_write mtu h n sdu = Ret None) \/
  ((length sdu <= mtu)%nat /\ exists fs, conn_write mtu h n sdu = Ret (Some (map (cons 2) fs)) /\ frags n h (b_frame 4 sdu) fs).
Proof.
  intros mtu h n sdu Hh Hn. unfold conn_write. destruct (Nat.ltb mtu (length sdu)) eqn:E; [left; split; [lia|reflexivity]|].
  right. split; [lia|]. destruct (writePDU_frags h n (b_frame 4 sdu) Hh Hn (b_frame_nonempty 4 sdu)) as (fs & E1 & E2).
  exists fs. split; [|exact E2]. change (le16 (Z.of_nat (length sdu)) ++ le16 4 ++ sdu) with (b_frame 4 sdu). rewrite E1. reflexivity.
Qed.
Lemma write_zero_diverges : forall fuel h fl pdu, pdu <> [] -> write_loop fuel h 0 fl pdu = Panic.
Proof.
  induction fuel as [|fuel IH]; intros h fl pdu H; [reflexivity|]. cbn [write_loop]. destruct pdu as [|x r]; [congruence|].
  cbn [length Nat.ltb Nat.leb]. rewrite gslice_ok by lia. cbn [gbind]. rewrite gfrom_ok by lia. cbn [gbind skipn].
  rewrite IH by discriminate. reflexivity.
Qed.

(** ---- receive ---- *)
Lemma acl_pbf : forall h st d, 0 <= h < 4096 -> 0 <= st < 4 -> pk_pbf (acl h st d) = Ret st.
Proof. intros h st d Hh Hs. unfold pk_pbf, acl, le16. cbn [app]. unfold gidx. cbn [nth_error gbind]. f_equal. unfold u8. lia. Qed.
Lemma acl_data : forall h st d, pk_data (acl h st d) = Ret d.
Proof. intros. unfold pk_data, acl, le16. cbn [app]. unfold gfrom. cbn [length Nat.leb skipn]. reflexivity. Qed.

Lemma dlen_app : forall a b x y z w r, a = x :: y :: z :: w :: r -> pdu_dlen (a ++ b) = Ret (Z.to_nat (de16 x y)).
Proof. intros a b x y z w r ->. reflexivity. Qed.
Lemma rc_loop_frags : forall fs h a b pkts, 0 <= h < 4096 -> rx_conts h b fs ->
  (exists d, pdu_dlen a = Ret d /\ (4 <= length a)%nat /\ length (a ++ b) = (4 + d)%nat /\ all_bytes (firstn 2 a)) ->
  rc_loop a (fs ++ pkts) = Ret (RcPdu (a ++ b) pkts).
Proof.
  induction fs as [|f fs IH]; intros h a b pkts Hh Hc (d & Hd & H4 & Hl & Hb).
  - inversion Hc; subst. rewrite app_nil_r in *. cbn [app].
    destruct pkts as [|k pkts]; cbn [rc_loop]; rewrite Hd; cbn [gbind]; replace (Nat.ltb (length a) (4 + d)) with false by lia; reflexivity.
  - inversion Hc as [|c b' fs' Hne Hc']; subst. cbn [app rc_loop]. rewrite Hd. cbn [gbind].
    assert (HL : (1 <= length c)%nat) by (destruct c; [congruence|cbn; lia]).
    rewrite !app_length in Hl. replace (Nat.ltb (length a) (4 + d)) with true by lia.
    rewrite acl_pbf by lia. cbn [gbind]. change (1 mod 2 =? 0) with false. cbv iota. rewrite acl_data. cbn [gbind].
    rewrite (app_assoc a c b'). apply IH with (h := h); auto. exists d. split; [|split; [rewrite app_length; lia|split; [rewrite !app_length; lia|]]].
    + destruct a as [|x [|y [|z [|w r]]]]; cbn [length] in H4; try lia. exact Hd.
    + destruct a as [|x [|y [|z [|w r]]]]; cbn [length] in H4; try lia. exact Hb.
Qed.
Lemma b_frame_dlen : forall c p, Z.of_nat (length p) <= 65535 -> pdu_dlen (b_frame c p) = Ret (length p).
Proof.
  intros c p H. unfold b_frame, pdu_dlen. unfold le16 at 1. cbn [app]. unfold gslice. cbn [Nat.leb length andb skipn firstn Nat.sub gbind gle16].
  f_equal. rewrite de16_le16 by lia. lia.
Qed.
Lemma b_frame_cid : forall c p, 0 <= c < 65536 -> pdu_cid (b_frame c p) = Ret c.
Proof.
  intros c p H. unfold b_frame, pdu_cid, le16. cbn [app]. unfold gslice. cbn [Nat.leb length andb skipn firstn Nat.sub gle16 gbind].
  f_equal. now apply de16_le16.
Qed.
Lemma dlen_prefix : forall a b, (4 <= length a)%nat -> pdu_dlen (a ++ b) = pdu_dlen a /\ pdu_cid (a ++ b) = pdu_cid a.
Proof. intros a b H. destruct a as [|x [|y [|z [|w r]]]]; cbn [length] in H; try lia. split; reflexivity. Qed.

Lemma recombine_one : forall rxmps h p fs pkts, 0 <= h < 4096 -> good_pdu rxmps p -> rx_frags h p fs ->
  recombine rxmps (fs ++ pkts) = Ret (RcPdu p pkts).
Proof.
  intros rxmps h p fs pkts Hh (c & d & -> & Hc & Hd & Hm) (a & b & fs' & st & H4 & Hst & Ep & -> & Hct).
  cbn [app recombine]. rewrite acl_data. cbn [gbind].
  destruct (dlen_prefix a b H4) as [D1 D2]. rewrite <- Ep in D1, D2.
  rewrite b_frame_dlen in D1 by assumption. rewrite b_frame_cid in D2 by assumption.
  rewrite <- D1, <- D2. cbn [gbind].
  replace ((c =? 4) && Nat.ltb rxmps (length d))%bool with false.
  2:{ destruct (c =? 4) eqn:E; [|reflexivity]. apply Z.eqb_eq in E. specialize (Hm E). cbn [andb]. lia. }
  unfold pdu_payload. rewrite gfrom_ok by lia. cbn [gbind].
  rewrite (rc_loop_frags fs' h a b pkts Hh Hct); [now rewrite Ep|].
  exists (length d). split; [now rewrite <- D1|]. split; [exact H4|]. split.
  - rewrite <- Ep. unfold b_frame. rewrite !app_length, !le16_length. lia.
  - apply (f_equal (firstn 2)) in Ep. unfold b_frame, le16 in Ep. cbn [app firstn] in Ep.
    destruct a as [|x [|y a']]; cbn [length] in H4; try lia. cbn [app firstn] in *. injection Ep as <- <-.
    constructor; [apply u8_byte|]. constructor; [apply u8_byte|constructor].
Qed.
Lemma rx_frags_len : forall h p fs, rx_frags h p fs -> (1 <= length fs)%nat.
Proof. intros h p fs (a & b & fs' & st & _ & _ & _ & -> & _). cbn. lia. Qed.
Lemma recombine_seq : forall rxmps h ps fss, 0 <= h < 4096 -> Forall (good_pdu rxmps) ps -> Forall2 (rx_frags h) ps fss ->
  forall fuel, (length (concat fss) < fuel)%nat -> recombine_all fuel rxmps (concat fss) = Ret (ps, true).
Proof.
  intros rxmps h ps fss Hh Hg HF. induction HF as [|p fs ps fss Hp HF IH]; intros fuel Hf.
  - destruct fuel; [cbn in Hf; lia|]. reflexivity.
  - inversion Hg as [|? ? Hg1 Hg2]; subst. destruct fuel as [|fuel]; [lia|]. cbn [concat recombine_all].
    rewrite (recombine_one rxmps h p fs (concat fss) Hh Hg1 Hp). cbn [gbind].
    cbn [concat] in Hf. rewrite app_length in Hf. assert (L := rx_frags_len h p fs Hp).
    rewrite IH by (auto; lia). reflexivity.
Qed.
(** our own fragments are receivable provided the first one holds the header *)
Lemma conts_rx : forall n h b fs, conts n h b fs -> rx_conts h b fs.
Proof. intros n h b fs H. induction H as [|a b fs HL H IH]; constructor; auto. destruct a; [cbn in HL; lia|discriminate]. Qed.
Lemma frags_rx : forall n h p fs, (4 <= n)%nat -> (4 <= length p)%nat -> frags n h p fs ->
  (forall a fs', fs = acl h 0 a :: fs' -> (length a = n \/ fs' = [])) -> rx_frags h p fs.
Proof.
  intros n h p fs Hn Hp (a & b & fs' & HL & -> & -> & Hc) Hfull. exists a, b, fs', 0.
  split; [|split; [auto|split; [reflexivity|split; [reflexivity|now apply conts_rx with (n := n)]]]].
  destruct (Hfull a fs' eq_refl) as [H|H]; [lia|]. subst fs'. inversion Hc; subst. rewrite app_nil_r in Hp. exact Hp.
Qed.
Lemma write_full : forall h n pdu fs, (1 <= n)%nat -> writePDU h n pdu = Ret (map (cons 2) fs) ->
  forall a fs', fs = acl h 0 a :: fs' -> length a = n \/ fs' = [].
Proof.
  intros h n pdu fs Hn E a fs' ->. unfold writePDU in E. cbn [write_loop] in E. destruct pdu as [|x r]; [discriminate|].
  set (pdu := x :: r) in *. destruct (Nat.ltb n (length pdu)) eqn:En.
  - left. rewrite gslice_ok in E by lia. cbn [gbind skipn] in E. rewrite Nat.sub_0_r in E. rewrite gfrom_ok in E by lia. cbn [gbind] in E.
    destruct (write_loop (length pdu) h n 16 (skipn n pdu)) as [m|]; [|discriminate]. cbn [gbind map] in E.
    apply (f_equal (fun g => match g with Ret (x :: _) => length x | _ => 0%nat end)) in E. cbv beta iota in E. unfold acl in E.
    cbn [length] in E. rewrite !app_length, !le16_length, firstn_length in E. cbn [length] in E. lia.
  - right. rewrite gslice_ok in E by lia. cbn [gbind skipn] in E. rewrite gfrom_ok in E by lia. cbn [gbind] in E.
    rewrite skipn_all in E. destruct (length pdu) eqn:El; [discriminate|]. cbn [write_loop gbind map] in E.
    apply (f_equal (fun g => match g with Ret (_ :: y) => length y | _ => 1%nat end)) in E. cbv beta iota in E. destruct fs'; [reflexivity|discriminate].
Qed.
