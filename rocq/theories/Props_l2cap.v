(** Property C32: L2CAP fragmentation and recombination. *)
Require Import Verif.Base Verif.M_l2cap Verif.S_l2cap Verif.P_l2cap Verif.P_l2cap2.

(** Writing: larger than the MTU is rejected and sends nothing; otherwise the length/channel header and the payload go out as
    fragments of at most the buffer size, first one flagged start, the rest continuing. *)
Theorem C32_write : forall mtu h n sdu, 0 <= h < 4096 -> (1 <= n)%nat ->
  ((mtu < length sdu)%nat /\ conn_write mtu h n sdu = Ret None) \/
  ((length sdu <= mtu)%nat /\ exists fs, conn_write mtu h n sdu = Ret (Some (map (cons 2) fs)) /\ frags n h (b_frame 4 sdu) fs).
Proof. exact conn_write_spec. Qed.
Print Assumptions C32_write.
(** the same for any PDU (signalling, security manager, channels) *)
Theorem C32_write_pdu : forall h n pdu, 0 <= h < 4096 -> (1 <= n)%nat -> pdu <> [] ->
  exists fs, writePDU h n pdu = Ret (map (cons 2) fs) /\ frags n h pdu fs.
Proof. exact writePDU_frags. Qed.
Print Assumptions C32_write_pdu.

(** Receiving: the fragments of any sequence of PDUs, cut anywhere after the header, give those PDUs in order and the
    receiver keeps waiting for more. *)
Theorem C32_recombine : forall rxmps h ps fss, 0 <= h < 4096 -> Forall (good_pdu rxmps) ps -> Forall2 (rx_frags h) ps fss ->
  recombine_run rxmps (concat fss) = Ret (ps, true).
Proof. intros rxmps h ps fss Hh Hg HF. apply (recombine_seq rxmps h ps fss Hh Hg HF). lia. Qed.
Print Assumptions C32_recombine.

(** A PDU that is not complete is never delivered: the receiver waits for the rest; and if the next PDU starts before the rest
    has come, the receive loop ends with an error, having delivered exactly the PDUs before. *)
Theorem C32_incomplete : forall rxmps h ps fss p q fs, 0 <= h < 4096 -> Forall (good_pdu rxmps) ps -> Forall2 (rx_frags h) ps fss ->
  good_pdu rxmps (p ++ q) -> q <> [] -> rx_frags h p fs ->
  recombine_run rxmps (concat fss ++ fs) = Ret (ps, true) /\
  (forall st x rest, st = 0 \/ st = 2 -> recombine_run rxmps (concat fss ++ fs ++ acl h st x :: rest) = Ret (ps, false)).
Proof. exact recombine_cut. Qed.
Print Assumptions C32_incomplete.
(** An ATT PDU longer than the receive MTU ends the receive loop with an error as soon as its first fragment arrives. *)
Theorem C32_too_big : forall rxmps h ps fss d a b st rest, 0 <= h < 4096 -> Forall (good_pdu rxmps) ps -> Forall2 (rx_frags h) ps fss ->
  (rxmps < length d)%nat -> Z.of_nat (length d) <= 65535 -> b_frame 4 d = a ++ b -> (4 <= length a)%nat ->
  recombine_run rxmps (concat fss ++ acl h st a :: rest) = Ret (ps, false).
Proof. exact recombine_too_big. Qed.
Print Assumptions C32_too_big.
Example C32_ex3 : recombine_run 23 [acl 1 2 [1;0;4;0;9]; acl 1 2 [3;0;4;0;1]; acl 1 1 [2]; acl 1 2 [1;0;4;0;9]] = Ret ([[1;0;4;0;9]], false).
Proof. reflexivity. Qed.

(** What one end writes the other end recombines, for every sequence of writes and every buffer size of at least 4. *)
Theorem C32_round_trip : forall n h rxmps sdus, (4 <= n)%nat -> 0 <= h < 4096 ->
  Forall (fun s => (length s <= rxmps)%nat /\ Z.of_nat (length s) <= 65535) sdus ->
  exists out, Forall2 (fun s o => conn_write rxmps h n s = Ret (Some o)) sdus out /\
  recombine_run rxmps (map (@tl Z) (concat out)) = Ret (map (b_frame 4) sdus, true).
Proof.
  intros n h rxmps sdus Hn Hh HF.
  assert (H : exists fss, Forall2 (fun s o => conn_write rxmps h n s = Ret (Some (map (cons 2) o))) sdus fss /\
                          Forall2 (rx_frags h) (map (b_frame 4) sdus) fss).
  { induction HF as [|s sdus [H1 H2] HF IH]; [exists []; split; constructor|].
    destruct IH as (fss & F1 & F2). destruct (conn_write_spec rxmps h n s Hh ltac:(lia)) as [[C _]|[_ (fs & E1 & E2)]]; [lia|].
    exists (fs :: fss). split; constructor; auto.
    apply frags_rx with (n := n); auto.
    - unfold b_frame. rewrite !app_length, !le16_length. lia.
    - apply (write_full h n (b_frame 4 s) fs ltac:(lia)).
      unfold conn_write in E1. replace (Nat.ltb rxmps (length s)) with false in E1 by lia.
      change (le16 (Z.of_nat (length s)) ++ le16 4 ++ s) with (b_frame 4 s) in E1.
      destruct (writePDU h n (b_frame 4 s)) as [pk|]; [|discriminate]. cbn [gbind] in E1. congruence. }
  destruct H as (fss & F1 & F2). exists (map (map (cons 2)) fss). split.
  - clear F2 HF. induction F1; cbn; constructor; auto.
  - replace (map (@tl Z) (concat (map (map (cons 2)) fss))) with (concat fss).
    + apply (C32_recombine rxmps h); auto. rewrite Forall_forall in *. intros p Hp. apply in_map_iff in Hp.
      destruct Hp as (s & <- & Hs). destruct (HF s Hs) as [A B]. exists 4, s. repeat split; auto; lia.
    + rewrite <- concat_map, map_map. cbn [tl]. symmetry. apply map_id.
Qed.
Print Assumptions C32_round_trip.

(** Read hands over exactly the payload of a frame when the caller's buffer can hold it, an error otherwise. *)
Theorem C32_read : forall cap stale c d, Z.of_nat (length d) <= 65535 ->
  conn_read cap stale (b_frame c d) = Ret (if Nat.leb (length d) cap then Some d else None).
Proof.
  intros cap stale c d H. unfold conn_read. replace (Nat.eqb (length (b_frame c d)) 0) with false by reflexivity.
  rewrite b_frame_dlen by exact H. cbn [gbind]. unfold pdu_payload.
  rewrite gfrom_ok by (unfold b_frame; rewrite !app_length, !le16_length; lia). cbn [gbind].
  replace (skipn 4 (b_frame c d)) with d by reflexivity.
  destruct (Nat.leb (length d) cap) eqn:E.
  - replace (Nat.ltb cap (length d)) with false by lia. now rewrite firstn_all.
  - replace (Nat.ltb cap (length d)) with true by lia. reflexivity.
Qed.
Print Assumptions C32_read.

(** Whatever the packets, a PDU that is queued for Read has at least the length it announces, and reading it does not crash: it
    yields the announced number of bytes, or an error when they do not fit the caller's buffer. *)
Lemma rc_loop_long : forall pkts p q rest, rc_loop p pkts = Ret (RcPdu q rest) -> exists d, pdu_dlen q = Ret d /\ (4 + d <= length q)%nat.
Proof.
  induction pkts as [|k r IH]; intros p q rest H; cbn [rc_loop] in H; destruct (pdu_dlen p) as [d|] eqn:D; try discriminate; cbn [gbind] in H; destruct (Nat.ltb_spec (length p) (4 + d)) as [L|L]; try discriminate.
  - assert (p = q) by congruence. subst q. now exists d.
  - destruct (pk_pbf k) as [f|]; [cbn [gbind] in H|discriminate]. destruct (f mod 2 =? 0); [discriminate|]. destruct (pk_data k) as [b|]; [cbn [gbind] in H|discriminate]. exact (IH _ _ _ H).
  - assert (p = q) by congruence. subst q. now exists d.
Qed.
Lemma recombine_long : forall f rxmps pkts pdus w, recombine_all f rxmps pkts = Ret (pdus, w) -> Forall (fun p => exists d, pdu_dlen p = Ret d /\ (4 + d <= length p)%nat) pdus.
Proof.
  induction f as [|f IH]; intros rxmps pkts pdus w H; cbn [recombine_all] in H; [discriminate|].
  destruct (recombine rxmps pkts) as [[p rest|rest|q]|] eqn:R; cbn [gbind] in H; [|injection H as <- _; constructor|injection H as <- _; constructor|discriminate].
  destruct (recombine_all f rxmps rest) as [[l w']|] eqn:E; [cbn [gbind fst snd] in H|discriminate]. injection H as <- _. constructor; [|exact (IH _ _ _ _ E)].
  unfold recombine in R. destruct pkts as [|k r]; [discriminate|]. destruct (pk_data k) as [x|]; [cbn [gbind] in R|discriminate]. destruct (pdu_cid x) as [cid|]; [cbn [gbind] in R|discriminate].
  destruct (pdu_dlen x) as [d|]; [cbn [gbind] in R|discriminate]. destruct ((cid =? 4) && Nat.ltb rxmps d)%bool; [discriminate|]. destruct (pdu_payload x) as [y|]; [cbn [gbind] in R|discriminate].
  exact (rc_loop_long _ _ _ _ R).
Qed.
Theorem C32_read_any : forall rxmps pkts pdus w p cap stale, recombine_run rxmps pkts = Ret (pdus, w) -> In p pdus -> (cap <= length stale)%nat ->
  exists d, pdu_dlen p = Ret d /\ (4 + d <= length p)%nat /\
    if Nat.ltb cap d then conn_read cap stale p = Ret None else exists x, conn_read cap stale p = Ret (Some x) /\ length x = d.
Proof.
  intros rxmps pkts pdus w p cap stale H I S. apply recombine_long in H. rewrite Forall_forall in H. destruct (H p I) as (d & D & L). exists d. split; [exact D|split; [exact L|]].
  unfold conn_read. replace (Nat.eqb (length p) 0) with false by (symmetry; apply Nat.eqb_neq; lia). rewrite D. cbn [gbind]. unfold pdu_payload. rewrite gfrom_ok by lia. cbn [gbind].
  destruct (Nat.ltb_spec cap d) as [C|C]; [reflexivity|]. destruct (Nat.ltb_spec cap (length (skipn 4 p))) as [Q|Q]; eexists; (split; [reflexivity|]); rewrite firstn_length; [lia|rewrite skipn_length; lia].
Qed.
Print Assumptions C32_read_any.

(** PDUs reach the layer of their channel. *)
Theorem C32_dispatch : forall cid, 0 <= cid < 65536 ->
  (dispatch cid = ToAtt <-> cid = 4) /\ (dispatch cid = ToSignal <-> cid = 5) /\ (dispatch cid = ToSmp <-> cid = 6) /\
  (dispatch cid = ToCoc <-> 64 <= cid).
Proof.
  intros cid H. unfold dispatch. destruct (cid =? 4) eqn:E1, (cid =? 5) eqn:E2, (cid =? 6) eqn:E3, ((64 <=? cid) && (cid <=? 65535))%bool eqn:E4;
  repeat split; intro X; try discriminate; try reflexivity; lia.
Qed.
Print Assumptions C32_dispatch.

(** A peer that sends a first fragment shorter than the 4-byte header crashes the receiver. *)
Theorem C91_short_first_fragment_refuted : exists fs, Forall (fun f => exists st d, f = acl 1 st d /\ d <> []) fs /\
  concat (map (skipn 4) fs) = b_frame 4 [10] /\ recombine_run 23 fs = Panic.
Proof.
  exists [acl 1 2 [1;0]; acl 1 1 [4;0;10]]. split; [|split; reflexivity].
  constructor; [exists 2, [1;0]; split; [reflexivity|discriminate]|]. constructor; [|constructor].
  exists 1, [4;0;10]; split; [reflexivity|discriminate].
Qed.
Print Assumptions C91_short_first_fragment_refuted.

(** A controller announcing zero-length buffers makes every write loop for ever. *)
Theorem C91_zero_buffer_refuted : forall fuel h fl pdu, pdu <> [] -> write_loop fuel h 0 fl pdu = Panic.
Proof. exact write_zero_diverges. Qed.
Print Assumptions C91_zero_buffer_refuted.

(** A packet longer than the frame it announces is not cut: the reader can then get the stale content of its own buffer. *)
Theorem C91_overlong_frame_refuted : exists p rest stale, recombine_run 23 [acl 1 2 p] = Ret (rest, true) /\ rest = [p] /\
  conn_read 23 stale p = Ret (Some [99]).
Proof. exists (le16 1 ++ le16 4 ++ repeat 7 30), [le16 1 ++ le16 4 ++ repeat 7 30], (repeat 99 23). repeat split. Qed.
Print Assumptions C91_overlong_frame_refuted.

Example C32_ex : conn_write 23 0x40 27 [1;2;3] = Ret (Some [[2; 0x40; 0; 7; 0; 3; 0; 4; 0; 1; 2; 3]]). Proof. reflexivity. Qed.
Example C32_ex2 : exists out, conn_write 23 0x40 5 [1;2;3;4] = Ret (Some out) /\ recombine_run 23 (map (@tl Z) out) = Ret ([[4;0;4;0;1;2;3;4]], true).
Proof. eexists. split; reflexivity. Qed.
