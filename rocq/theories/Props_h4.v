(** Property C09: HCI UART (H4) framing. *)
Require Import Verif.Base Verif.M_h4 Verif.S_h4 Verif.P_h4.

(** Any stream of packets (with non-indicator bytes in between), however cut into reads: exactly those packets, in order,
    no crash, and nothing left over. *)
Theorem C09_packets_delivered : forall chunks ps, Forall (fun c => all_bytes (snd c)) chunks ->
  packet_stream (timed chunks) ps ->
  exists f, rx_run new_frame chunks = Ret (f, ps) /\ fr_b f = [].
Proof.
  intros chunks ps Hb Hs. destruct (rx_run_refines chunks new_frame dec0 corr0 (Forall_nil _) Hb) as (f & E & C).
  destruct (packet_stream_decodes _ _ Hs 0) as [t1 D]. fold dec0 in D. rewrite D in *. exists f. split; [exact E|apply C].
Qed.
Print Assumptions C09_packets_delivered.

(** With any byte stream at all (garbage, timeouts): what is delivered depends only on the bytes and their arrival times,
    not on how they are grouped into reads, and is what the byte-at-a-time decoder yields. *)
Theorem C09_decodes_like_byte_decoder : forall chunks, Forall (fun c => all_bytes (snd c)) chunks ->
  exists f, rx_run new_frame chunks = Ret (f, snd (dec_run dec0 (timed chunks))).
Proof.
  intros chunks Hb. destruct (rx_run_refines chunks new_frame dec0 corr0 (Forall_nil _) Hb) as (f & E & C). eauto.
Qed.
Print Assumptions C09_decodes_like_byte_decoder.
Theorem C09_chunking_irrelevant : forall c1 c2, Forall (fun c => all_bytes (snd c)) c1 -> Forall (fun c => all_bytes (snd c)) c2 ->
  timed c1 = timed c2 ->
  exists f1 f2 o, rx_run new_frame c1 = Ret (f1, o) /\ rx_run new_frame c2 = Ret (f2, o).
Proof.
  intros c1 c2 H1 H2 E. destruct (C09_decodes_like_byte_decoder c1 H1) as [f1 E1].
  destruct (C09_decodes_like_byte_decoder c2 H2) as [f2 E2]. rewrite E in E1. eauto.
Qed.
Print Assumptions C09_chunking_irrelevant.

(** Whatever arrives, everything delivered is one whole well-formed packet. *)
Lemma announced_h4 : forall q, all_bytes q -> announced q = Some (length q) -> h4_packet q.
Proof.
  intros q Hb Ha. destruct (announced_head _ _ Ha) as (x & r & -> & [->| ->]).
  - rewrite announced_4 in Ha. destruct r as [|c [|n r]]; try discriminate. injection Ha as Ha.
    assert (Hn : is_byte n) by (inversion Hb as [|? ? _ H1]; inversion H1 as [|? ? _ H2]; now inversion H2).
    unfold is_byte in Hn. cbn [length] in Ha. replace n with (Z.of_nat (length r)) by lia. constructor. lia.
  - rewrite announced_2 in Ha. destruct r as [|h0 [|h1 [|l0 [|l1 r]]]]; try discriminate. apply (f_equal (fun o => match o with Some n => n | None => 0%nat end)) in Ha. cbv beta iota in Ha.
    assert (Hl : is_byte l0 /\ is_byte l1).
    { unfold all_bytes in Hb. rewrite Forall_forall in Hb. split; apply Hb; cbn; auto 10. }
    destruct Hl as [Hl0 Hl1]. cbn [length] in Ha.
    assert (E : Z.of_nat (length r) = de16 l0 l1) by (unfold de16, is_byte in *; lia).
    assert (E2 : [l0; l1] = le16 (Z.of_nat (length r))) by (rewrite E, le16_de16 by assumption; reflexivity).
    change (l0 :: l1 :: r) with ([l0; l1] ++ r). rewrite E2. constructor. rewrite E. unfold de16, is_byte in *. lia.
Qed.
Lemma dec_run_whole : forall s d, all_bytes (d_part d) -> Forall (fun tx => is_byte (snd tx)) s ->
  Forall h4_packet (snd (dec_run d s)).
Proof.
  induction s as [|[t x] s IH]; intros d Hd Hs; cbn [dec_run]; [constructor|].
  inversion Hs as [|? ? Hx Hs']; subst. cbn [snd] in Hx.
  unfold dec_byte. set (p := if d_since d + 500 <? t then [] else d_part d).
  assert (Hp : all_bytes p) by (unfold p; destruct (d_since d + 500 <? t); [constructor|exact Hd]).
  assert (HQ : all_bytes (p ++ [x])) by (apply Forall_app; split; [exact Hp|constructor; [exact Hx|constructor]]).
  destruct p as [|y r].
  - destruct ((x =? 4) || (x =? 2))%bool;
      [specialize (IH (mkDec [x] t) HQ Hs'); destruct (dec_run (mkDec [x] t) s)|
       specialize (IH (mkDec [] t) (Forall_nil _) Hs'); destruct (dec_run (mkDec [] t) s)]; exact IH.
  - destruct (announced ((y :: r) ++ [x])) as [n|] eqn:Ea.
    + destruct (Nat.eqb n (length ((y :: r) ++ [x]))) eqn:En.
      * apply Nat.eqb_eq in En. subst n. specialize (IH (mkDec [] t) (Forall_nil _) Hs'). destruct (dec_run (mkDec [] t) s).
        cbn [snd app] in *. constructor; [now apply announced_h4|exact IH].
      * specialize (IH (mkDec ((y :: r) ++ [x]) (d_since d)) HQ Hs'). destruct (dec_run (mkDec ((y :: r) ++ [x]) (d_since d)) s). exact IH.
    + specialize (IH (mkDec ((y :: r) ++ [x]) (d_since d)) HQ Hs'). destruct (dec_run (mkDec ((y :: r) ++ [x]) (d_since d)) s). exact IH.
Qed.
Theorem C09_only_whole_packets : forall chunks, Forall (fun c => all_bytes (snd c)) chunks ->
  exists f out, rx_run new_frame chunks = Ret (f, out) /\ Forall h4_packet out.
Proof.
  intros chunks Hb. destruct (C09_decodes_like_byte_decoder chunks Hb) as [f E]. eexists _, _. split; [exact E|].
  apply dec_run_whole; [constructor|].
  clear E f. unfold timed. induction chunks as [|[t b] cs IH]; [constructor|]. cbn [flat_map fst snd]. inversion Hb as [|? ? H1 H2]; subst.
  apply Forall_app. split; [|apply IH; exact H2].
  cbn [snd] in H1. clear -H1. induction H1; cbn; constructor; auto.
Qed.
Print Assumptions C09_only_whole_packets.

(** When one packet takes more than 500 ms, the remainder of it can be delivered as a packet nobody sent. *)
Theorem C68_stalled_packet_refuted : exists c1 c2 t1 t2 f out,
  h4_packet (c1 ++ c2) /\ rx_run new_frame [(t1, c1); (t2, c2)] = Ret (f, out) /\ out <> [c1 ++ c2] /\ out <> [].
Proof.
  exists [4;62;4], [4;14;1;7], 0, 501. eexists _, _. split; [apply (h4_event 62 [4;14;1;7]); cbn; lia|].
  split; [vm_compute; reflexivity|]. split; discriminate.
Qed.
Print Assumptions C68_stalled_packet_refuted.

Example C09_ex : exists f, rx_run new_frame [(0,[9;4;14]); (10,[2;1]); (20,[2;2;0;0]); (30,[1;0;7;4;5;0])] = Ret (f, [[4;14;2;1;2]; [2;0;0;1;0;7]; [4;5;0]]).
Proof. eexists. vm_compute. reflexivity. Qed.
Example C09_ex_stream : packet_stream (timed [(0,[9;4;14]); (10,[2;1;2])]) [[4;14;2;1;2]].
Proof.
  apply (ps_cons [(0,9)] [(0,4);(0,14);(10,2);(10,1);(10,2)] _ [] []).
  - constructor; [cbn; lia|constructor].
  - apply (h4_event 14 [1;2]). cbn. lia.
  - reflexivity.
  - intros t0 x0 s' E. injection E as <- <- <-. repeat (constructor; [cbn; lia|]). constructor.
  - apply ps_end. constructor.
Qed.
