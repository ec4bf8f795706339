(** Property C165: what is written on one end of a connection is what the other end reads. *)
Require Import Verif.Base Verif.M_l2cap Verif.S_l2cap Verif.P_l2cap Verif.P_l2cap2 Verif.S_link Verif.P_link Verif.Props_l2cap.
Require Import Verif.M_hci Verif.S_hci Verif.P_link2 Verif.Props_hci.

(** [sdus] are written one after the other on one end (handle hA, controller buffers of n bytes); the controllers carry the packets
    over, cutting them anew, as packets of handle hB; and the other host, in any execution, has received some of them so far for its
    connection c. Then its receive loop is running, and reading the PDUs it has recombined gives exactly the first k payloads written,
    in order and unchanged; all of them once everything has arrived and been taken. *)
Theorem C165_end_to_end : forall mtu hA n hB rxmps cap stale sdus sent recvd smp l s c later,
  0 <= hA < 4096 -> 0 <= hB < 4096 -> (1 <= n)%nat ->
  Forall2 (fun d out => conn_write mtu hA n d = Ret (Some out)) sdus sent ->
  Forall (fun d => (length d <= rxmps)%nat /\ (length d <= cap)%nat /\ Z.of_nat (length d) <= 65535) sdus ->
  Forall2 (air hB) sent recvd ->
  runs smp l s -> addressed smp host0 l c ++ later = concat recvd ->
  exists k pdus, recombine_run rxmps (taken smp host0 l c) = Ret (pdus, true) /\ reads cap stale pdus (firstn k sdus) /\ (k <= length sdus)%nat /\
    (exists part, taken smp host0 l c = concat (firstn k recvd) ++ part /\
       (part = [] \/ exists fs more, nth_error recvd k = Some fs /\ fs = part ++ more /\ more <> [])) /\
    (later = [] -> queued s c = [] -> in_hand s c = [] -> reads cap stale pdus sdus).
Proof.
  intros mtu hA n hB rxmps cap stale sdus sent recvd smp l s c later HA HB Hn HW HL HR R E.
  assert (HF : Forall2 (rx_frags hB) (map (b_frame 4) sdus) recvd).
  { clear - HA Hn HW HR. revert recvd HR. induction HW as [|d out sdus sent W HW IH]; intros recvd HR; inversion HR as [|? r ? rs A1 A2]; subst; [constructor|].
    cbn [map]. constructor; [|now apply IH]. unfold air in A1. rewrite (write_body mtu hA n d out HA Hn W) in A1. exact A1. }
  assert (HG : Forall (good_pdu rxmps) (map (b_frame 4) sdus)).
  { apply Forall_map. revert HL. apply Forall_impl. cbv beta. intros d (H1 & H2 & H3). exists 4, d. repeat (split; [reflexivity || assumption || lia|]). auto. }
  assert (HRd : forall j, reads cap stale (firstn j (map (b_frame 4) sdus)) (firstn j sdus)).
  { clear - HL. induction HL as [|d sdus (H1 & H2 & H3) HL IH]; intros [|j]; [constructor|constructor|constructor|]. cbn [map firstn]. constructor; [|apply IH].
    rewrite (C32_read cap stale 4 d H3). now replace (Nat.leb (length d) cap) with true by lia. }
  rewrite (C55_data_in_order smp l s c R), <- !app_assoc in E.
  destruct (recombine_prefix rxmps hB _ recvd HB HG HF _ _ E) as (k & part & RR & Hk & EP & D). rewrite map_length in Hk.
  exists k, (firstn k (map (b_frame 4) sdus)). split; [exact RR|]. split; [apply HRd|]. split; [exact Hk|]. split; [exists part; split; assumption|].
  intros -> Q1 Q2. rewrite Q1, Q2, !app_nil_r in E. rewrite E in RR. rewrite (C32_recombine rxmps hB _ recvd HB HG HF) in RR.
  assert (X : map (b_frame 4) sdus = firstn k (map (b_frame 4) sdus)) by congruence. rewrite <- X.
  specialize (HRd (length sdus)). rewrite firstn_all in HRd. replace (length sdus) with (length (map (b_frame 4) sdus)) in HRd by apply map_length. now rewrite firstn_all in HRd.
Qed.
Print Assumptions C165_end_to_end.

(** The packets a connection is given are all the packets of its handle since the event that made it, as long as it is registered. *)
Theorem C165_all_packets : forall smp l s c k, runs smp l s -> nth_error (objs s) c = Some k -> live s c ->
  exists l1 b l2, l = l1 ++ APkt b :: l2 /\ length (conns_of l1) = c /\ new_conns (APkt b) = [(k_handle k, k_role k, k_addr k)] /\
    addressed smp host0 l c = of_handle (k_handle k) l2.
Proof. exact addressed_all. Qed.
Print Assumptions C165_all_packets.

(** Both together: connection event b (the c-th of the trace) gives the receiving host its connection, with handle hB; the controller
    hands over, under that handle, (a first part of) what the sender's writes became; the connection is still registered. Then the
    receiver reads a first part of what was written, and everything if everything has been handed over and consumed. *)
Theorem C165_delivery : forall mtu hA n hB r ad rxmps cap stale sdus sent recvd smp l1 b l2 s c later,
  0 <= hA < 4096 -> 0 <= hB < 4096 -> (1 <= n)%nat ->
  Forall2 (fun d out => conn_write mtu hA n d = Ret (Some out)) sdus sent ->
  Forall (fun d => (length d <= rxmps)%nat /\ (length d <= cap)%nat /\ Z.of_nat (length d) <= 65535) sdus ->
  Forall2 (air hB) sent recvd ->
  runs smp (l1 ++ APkt b :: l2) s -> length (conns_of l1) = c -> new_conns (APkt b) = [(hB, r, ad)] -> live s c ->
  of_handle hB l2 ++ later = concat recvd ->
  exists k pdus, recombine_run rxmps (taken smp host0 (l1 ++ APkt b :: l2) c) = Ret (pdus, true) /\ reads cap stale pdus (firstn k sdus) /\ (k <= length sdus)%nat /\
    (later = [] -> queued s c = [] -> in_hand s c = [] -> reads cap stale pdus sdus).
Proof.
  intros mtu hA n hB r ad rxmps cap stale sdus sent recvd smp l1 b l2 s c later HA HB Hn HW HL HR R HC NC LV E.
  assert (LV' := LV). destruct LV' as (k & K & _). destruct (C165_all_packets smp _ s c k R K LV) as (l1' & b' & l2' & E1 & E2 & E3 & E4).
  assert (l2 = l2') as <-.
  { apply (born_unique l1 b l2 l1' b' l2' E1); [congruence|now rewrite NC|now rewrite E3]. }
  assert (HK : k_handle k = hB).
  { assert (X := C56_one_connection_per_event smp _ s R). apply (f_equal (fun x => nth_error x c)) in X. rewrite (map_nth_error _ _ _ K) in X.
    unfold conns_of in *. rewrite flat_map_app, nth_error_app2 in X by lia. rewrite <- HC, Nat.sub_diag in X. cbn [flat_map] in X. rewrite NC in X. cbn [app nth_error] in X. congruence. }
  rewrite HK in E4. rewrite <- E4 in E.
  destruct (C165_end_to_end mtu hA n hB rxmps cap stale sdus sent recvd smp _ s c later HA HB Hn HW HL HR R E) as (j & pdus & X1 & X2 & X3 & _ & X5).
  exists j, pdus. auto.
Qed.
Print Assumptions C165_delivery.

(** The hypotheses are met: two writes, of 3 and 1 bytes, sent in packets of up to 5 bytes on handle 7, arriving on handle 64 of the
    session of C55 in packets cut after 6 bytes; the last packet has not been taken yet. *)
Definition ex_trace : list act :=
  [APkt evA; AAccept; APkt (2 :: acl 64 2 [3; 0; 4; 0; 10; 11]); AAclPut; APkt (2 :: acl 64 1 [12]); AAclPut; APkt (2 :: acl 64 2 [1; 0; 4; 0; 13]); AAclPut; ARxTake 0; ARxTake 0].
Example C165_writes : conn_write 23 7 5 [10; 11; 12] = Ret (Some [2 :: acl 7 0 [3; 0; 4; 0; 10]; 2 :: acl 7 1 [11; 12]]) /\
  conn_write 23 7 5 [13] = Ret (Some [2 :: acl 7 0 [1; 0; 4; 0; 13]]).
Proof. split; vm_compute; reflexivity. Qed.
Example C165_air : air 64 [2 :: acl 7 0 [3; 0; 4; 0; 10]; 2 :: acl 7 1 [11; 12]] [acl 64 2 [3; 0; 4; 0; 10; 11]; acl 64 1 [12]].
Proof.
  unfold air. change (flat_map (skipn 5) _) with [3; 0; 4; 0; 10; 11; 12]. exists [3; 0; 4; 0; 10; 11], [12], [acl 64 1 [12]], 2.
  split; [cbn; lia|]. split; [now right|]. split; [reflexivity|]. split; [reflexivity|]. apply (rc_cons 64 [12] [] []); [discriminate|constructor].
Qed.
Example C165_runs : runs false ex_trace (after false ex_trace) /\ live (after false ex_trace) 0 /\
  new_conns (APkt evA) = [(64, 1, peerA)] /\
  of_handle 64 (tl ex_trace) ++ [] = concat [[acl 64 2 [3; 0; 4; 0; 10; 11]; acl 64 1 [12]]; [acl 64 2 [1; 0; 4; 0; 13]]] /\
  queued (after false ex_trace) 0 = [acl 64 2 [1; 0; 4; 0; 13]] /\
  recombine_run 23 (taken false host0 ex_trace 0) = Ret ([b_frame 4 [10; 11; 12]], true).
Proof.
  split; [apply possible_runs; vm_compute; reflexivity|]. split; [eexists; split; vm_compute; reflexivity|].
  split; [vm_compute; reflexivity|]. split; [vm_compute; reflexivity|]. split; vm_compute; reflexivity.
Qed.
