(** Properties C55 to C63: the HCI host - routing of data, life of connections, Dial and Accept. *)
Require Import Verif.Base Verif.M_uuid Verif.M_advrep Verif.P_uuid Verif.P_advrep2 Verif.M_hci Verif.S_hci Verif.P_hci Verif.P_hci2 Verif.P_hci3 Verif.P_hci4 Verif.P_hci5
  Verif.P_hci6 Verif.P_hci7.

(** A small session used in the examples: an incoming connection with handle 64, an outgoing one with handle 65. *)
Definition peerA : bytes := [1; 2; 3; 4; 5; 192].
Definition peerB : bytes := [9; 8; 7; 6; 5; 4].
Definition evA : bytes := ev_connected 0 64 1 0 peerA 24 0 72 0.
Definition evB : bytes := ev_connected 0 65 0 0 peerB 24 0 72 0.
Definition dataA (n : Z) : bytes := acl_packet 64 2 0 [n].
Definition dataB (n : Z) : bytes := acl_packet 65 2 0 [n].
Definition session : list act :=
  [APkt evA; AAccept; APkt (dataA 1); AAclPut; ADial peerB; APkt evB; AMasterPut; ADialTake 0; APkt (dataB 2); AAclPut; APkt (dataA 3); AAclPut; ARxTake 0; APkt (dataA 4)].
Definition after (smp : bool) (l : list act) : host := match exec_all smp host0 l with Ret (Some s) => s | _ => host0 end.
Definition possible (smp : bool) (l : list act) : bool := match exec_all smp host0 l with Ret (Some _) => true | _ => false end.
Lemma possible_runs : forall smp l, possible smp l = true -> runs smp l (after smp l).
Proof. intros smp l H. unfold possible, after, runs in *. destruct (exec_all smp host0 l) as [[s|]|]; [reflexivity|discriminate H|discriminate H]. Qed.
Lemma session_runs : forall smp, runs smp session (after smp session).
Proof. intros []; apply possible_runs; vm_compute; reflexivity. Qed.

(** * C55: received data goes to the right connection *)

(** The ACL packets that arrived for a connection are, in order and unchanged, those its receive loop has taken, then those
    in its queue, then possibly one the event loop is about to queue.  Nothing is lost, duplicated or reordered. *)
Theorem C55_data_in_order : forall smp l s c, runs smp l s ->
  addressed smp host0 l c = taken smp host0 l c ++ queued s c ++ in_hand s c.
Proof.
  intros smp l s c R. destruct (trace_data smp l host0 s c inv0 R) as (A & B & _). cbn [in_hand host0 loop app] in A.
  replace (qin host0 c) with (@nil bytes) in B by (now destruct c). cbn [app] in B. rewrite A, B, <- app_assoc. reflexivity.
Qed.
Print Assumptions C55_data_in_order.

Lemma arrivals_cons : forall smp l s s' c p, inv s -> exec_all smp s l = Ret (Some s') -> In p (addressed smp s l c) ->
  exists k', nth_error (objs s') c = Some k' /\ acl_handle p = k_handle k'.
Proof.
  intros smp l. induction l as [|a l IH]; intros s s' c p I E H; cbn [addressed] in H; [destruct H|]. cbn [exec_all] in E.
  destruct (exec smp s a) as [[s1|]|] eqn:X; try discriminate E. cbn [gbind] in E. apply in_app_or in H.
  destruct H as [H|H]; [|apply (IH s1 s' c p (exec_inv _ _ _ _ I X) E H)]. destruct (arrivals1_handle s a c p I H) as (h & k & A & K & HK).
  assert (E2 : exec_all smp s (a :: l) = Ret (Some s')) by (cbn; rewrite X; exact E).
  destruct (trace_flags _ _ _ _ _ _ I E2 K) as (k' & K' & F & _). exists k'. split; [exact K'|].
  unfold idof in F. replace (k_handle k') with h by congruence. unfold arrivals1 in A. destruct a; try discriminate A.
  destruct (dec_pkt b) as [[]|] eqn:D; try discriminate A. injection A as -> ->. clear - D. unfold dec_pkt in D.
  destruct (gidx b 0) as [t|]; [|discriminate D]. cbn [gbind] in D. destruct (gfrom b 1) as [q|]; [|discriminate D]. cbn [gbind] in D.
  destruct (t =? 2).
  - unfold dec_acl in D. destruct q as [|x [|y q]]; try discriminate D. cbn in D. injection D as <- <-. reflexivity.
  - destruct (t =? 4); [|discriminate D]. exfalso. unfold dec_evt in D.
    destruct (gidx q 0) as [cd|]; [|discriminate D]. destruct (gidx q 1) as [pl|]; [|discriminate D]. cbn [gbind] in D. destruct (gfrom q 2) as [r|]; [|discriminate D]. cbn [gbind] in D.
    destruct (negb _); [discriminate D|]. destruct (cd =? 62).
    + unfold dec_meta, dec_conn, dec_refresh in D. destruct (gidx r 0) as [x|]; [|discriminate D]. cbn [gbind] in D. destruct (x =? 2); [discriminate D|].
      destruct (x =? 1).
      * destruct (gidx r 1) as [st|]; [|discriminate D]. cbn [gbind] in D. destruct (negb (st =? 0)); [discriminate D|]. destruct (gfrom r 6) as [ad|]; [|discriminate D]. cbn [gbind] in D.
        destruct (gfrom r 2) as [z|]; [|discriminate D]. cbn [gbind] in D. destruct (gle16 z); [|discriminate D]. cbn [gbind] in D. destruct (gidx r 4); discriminate D.
      * destruct (x =? 48); [|discriminate D]. destruct (gfrom r 1) as [z|]; [|discriminate D]. cbn [gbind] in D. destruct (gle16 z); [|discriminate D]. cbn [gbind] in D.
        destruct (gidx r 0); discriminate D.
    + destruct ((cd =? 14) || (cd =? 15) || (cd =? 255))%bool; [discriminate D|]. destruct (cd =? 5).
      * unfold dec_disc in D. destruct (gfrom r 1) as [z|]; [|discriminate D]. cbn [gbind] in D. destruct (gle16 z); [|discriminate D]. cbn [gbind] in D. destruct (gidx r 3); discriminate D.
      * destruct (cd =? 19); [discriminate D|]. destruct (cd =? 8); [|discriminate D]. unfold dec_enc in D.
        destruct (gfrom r 1) as [z|]; [|discriminate D]. cbn [gbind] in D. destruct (gle16 z); discriminate D.
Qed.
(** A connection receives only packets with its own handle. *)
Theorem C55_only_own_handle : forall smp l s c p, runs smp l s -> In p (taken smp host0 l c) ->
  exists k, nth_error (objs s) c = Some k /\ acl_handle p = k_handle k.
Proof.
  intros smp l s c p R H. apply (arrivals_cons smp l host0 s c p inv0 R). rewrite (C55_data_in_order smp l s c R). apply in_or_app. now left.
Qed.
Print Assumptions C55_only_own_handle.

(** An ACL packet whose handle is registered is taken for that connection, and queued for it in the next step unless its
    queue is full; one with an unknown handle changes nothing. *)
Theorem C55_packet_accepted : forall smp l s h pb bc data, runs smp l s -> loop s = LIdle -> 0 <= h < 4096 -> 0 <= pb < 4 -> 0 <= bc < 4 ->
  let pkt := acl_packet h pb bc data in
  match tab s h with
  | None => exec smp s (APkt pkt) = Ret (Some s)
  | Some c => exists s', exec smp s (APkt pkt) = Ret (Some s') /\ in_hand s' c = [skipn 1 pkt] /\ queued s' c = queued s c /\
      ((length (queued s c) < 16)%nat -> exists s'', exec smp s' AAclPut = Ret (Some s'') /\ loop s'' = LIdle /\ queued s'' c = queued s c ++ [skipn 1 pkt])
  end.
Proof.
  intros smp l s h pb bc data R L H P B pkt. assert (I := runs_inv _ _ _ R). unfold pkt. destruct (tab s h) as [c|] eqn:T.
  - destruct (i_tab _ I _ _ T) as (k & K & _ & IC & _).
    eexists. split; [cbn [exec]; rewrite L, dec_acl_ok by assumption; cbn [gbind]; rewrite T; reflexivity|].
    split; [unfold in_hand; fields; now rewrite Nat.eqb_refl|]. split; [reflexivity|]. intros Q. unfold queued in Q. rewrite K in Q.
    eexists. split; [cbn [exec]; fields; rewrite K, IC; rewrite (proj2 (Nat.ltb_lt (length (k_in k)) in_cap) Q); reflexivity|]. split; [reflexivity|].
    unfold queued. fields. rewrite (nth_upd_same _ _ _ _ K), K. reflexivity.
  - cbn [exec]. rewrite L, dec_acl_ok by assumption. cbn [gbind]. now rewrite T.
Qed.
Print Assumptions C55_packet_accepted.

Definition latest (s : host) : Prop := forall h c c' k', tab s h = Some c -> (c < c')%nat -> nth_error (objs s) c' = Some k' -> k_handle k' <> h.
(** The connection registered under a handle is the one of the last connection event with that handle. *)
Theorem C55_latest_connection : forall smp l s h c, runs smp l s -> tab s h = Some c ->
  exists k, nth_error (objs s) c = Some k /\ k_handle k = h /\ forall c' k', (c < c')%nat -> nth_error (objs s) c' = Some k' -> k_handle k' <> h.
Proof.
  intros smp l s h c R T. destruct (i_tab _ (runs_inv _ _ _ R) _ _ T) as (k & K & HK & _). exists k. split; [exact K|]. split; [exact HK|].
  assert (L : latest s); [|intros c' k' X Y; eapply L; eauto]. clear - R. revert R. revert l s. apply (exec_all_snoc_ind smp (fun _ s => latest s)).
  - intros h c c' k' X. discriminate X.
  - intros l s a s' R F E h c c' k' T X K'. assert (I := runs_inv _ _ _ R). destruct (step_life _ _ _ _ I E) as (_ & TT & _ & _). rewrite TT in T.
    destruct (nth_error (objs s) c') as [k|] eqn:K.
    + destruct (step_flags _ _ _ _ _ _ I E K) as (k2 & K2 & G & _). rewrite K' in K2. injection K2 as <-. unfold idof in G. replace (k_handle k') with (k_handle k) by congruence.
      destruct (new_conns a) as [|[[h2 r] ad] m].
      * destruct (oeqz _ _); [discriminate T|]. eapply F; eauto.
      * destruct (Z.eqb_spec h h2) as [->|N]; [|eapply F; eauto]. injection T as <-. assert (c' < length (objs s))%nat by (apply nth_error_Some; congruence). lia.
    + destruct (new_index _ _ _ _ _ _ I E K' K) as (-> & h2 & r & ad & NC & ->). rewrite NC in T. cbn. intros ->. rewrite Z.eqb_refl in T. injection T as <-. lia.
Qed.
Print Assumptions C55_latest_connection.

Example C55_ex : let s := after false session in
  addressed false host0 session 0 = [[64; 32; 1; 0; 1]; [64; 32; 1; 0; 3]; [64; 32; 1; 0; 4]] /\
  taken false host0 session 0 = [[64; 32; 1; 0; 1]] /\ queued s 0 = [[64; 32; 1; 0; 3]] /\ in_hand s 0 = [[64; 32; 1; 0; 4]] /\
  queued s 1 = [[65; 32; 1; 0; 2]] /\ tab s 64 = Some 0%nat /\ tab s 65 = Some 1%nat.
Proof. vm_compute. repeat split. Qed.

(** * C56: connection objects match the controller's events; each is handed to the application at most once *)

Theorem C56_one_connection_per_event : forall smp l s, runs smp l s ->
  map (fun k => (k_handle k, k_role k, k_addr k)) (objs s) = conns_of l.
Proof. intros smp l s R. destruct (trace_data smp l host0 s 0%nat inv0 R) as (_ & _ & M). exact M. Qed.
Print Assumptions C56_one_connection_per_event.

Theorem C56_event_decoded : forall st handle role ptype addr i la t ac, 0 <= handle < 65536 -> length addr = 6%nat ->
  new_conns (APkt (ev_connected st handle role ptype addr i la t ac)) = if st =? 0 then [(handle, role, addr)] else [].
Proof.
  intros st handle role ptype addr i la t ac H L. unfold new_conns. destruct (Z.eqb_spec st 0) as [->|N].
  - now rewrite dec_connected_ok.
  - now rewrite dec_failed_ok.
Qed.
Print Assumptions C56_event_decoded.

(** RemoteAddr shows the bytes of the event's address, most significant first. *)
Theorem C56_remote_address : forall k, all_bytes (k_addr k) -> addr_bytes (remote_addr k) = rev (k_addr k).
Proof. intros k H. unfold remote_addr. apply hw_string_bytes. apply all_bytes_rev. exact H. Qed.
Print Assumptions C56_remote_address.

(** No connection is returned twice, by whatever mix of Dial and Accept; Dial returns only connections in which this host is
    central, Accept only others. *)
Theorem C56_handed_out_once : forall smp l s, runs smp l s ->
  NoDup (given_by_dial s ++ accepted s) /\
  (forall c, In c (given_by_dial s) -> exists k, nth_error (objs s) c = Some k /\ k_role k = 0) /\
  (forall c, In c (accepted s) -> exists k, nth_error (objs s) c = Some k /\ k_role k <> 0).
Proof.
  intros smp l s R. assert (H := runs_handinv _ _ _ R). split; [|split; [apply (h_d _ H)|apply (h_a _ H)]].
  assert (X := h_nodup _ H). unfold out in X. rewrite app_assoc in X. revert X. generalize (inloop s ++ master s). induction l0 as [|x r IH]; cbn [app]; [auto|].
  intros X. inversion X; subst. auto.
Qed.
Print Assumptions C56_handed_out_once.

Example C56_ex : let s := after true session in given_by_dial s = [1%nat] /\ accepted s = [0%nat] /\ conns_of session = [(64, 1, peerA); (65, 0, peerB)]
  /\ match nth_error (objs s) 0 with Some k => addr_bytes (remote_addr k) = [192; 5; 4; 3; 2; 1] | None => False end.
Proof. vm_compute. repeat split. Qed.

(** * C57: the host itself never misuses its channels *)

(** Whatever the interleaving of packets, Close, Dial, Accept, receive failures, time-outs and shutdown, the only steps that
    panic are the handling of a packet that is too short for the fields read from it (or of a failed encryption with
    security disabled), and the grace period of a cancelled Dial cut off by the end of the event loop (C58).  In
    particular no channel is closed twice and nothing is sent on a closed channel. *)
Theorem C57_crashes_exactly_on : forall smp l s a, runs smp l s ->
  (exec smp s a = Panic <->
   (exists b, a = APkt b /\ loop s = LIdle /\ too_short b (fun h => exists c, tab s h = Some c) smp) \/
   (exists i, a = ADialMClosed i /\ abandoned s i)).
Proof. intros smp l s a R. exact (exec_panic_iff smp s a (runs_inv _ _ _ R)). Qed.
Print Assumptions C57_crashes_exactly_on.

(** Well-formed packets are survived: ACL packets, connection and disconnection events and every event not examined further. *)
Theorem C57_wellformed_survived : forall smp l s p, runs smp l s ->
  (exists h pb bc data, 0 <= h < 4096 /\ 0 <= pb < 4 /\ 0 <= bc < 4 /\ p = acl_packet h pb bc data) \/
  (exists st h role pt addr i la t ac, length addr = 6%nat /\ p = ev_connected st h role pt addr i la t ac) \/
  (exists st h reason, p = ev_disconnected st h reason) ->
  exec smp s (APkt p) <> Panic.
Proof.
  intros smp l s p R H E. apply (C57_crashes_exactly_on _ _ _ _ R) in E. destruct E as [(b & Q & _ & X)|(i & Q & _)]; [|discriminate Q]. injection Q as <-.
  destruct H as [(h & pb & bc & data & H1 & H2 & H3 & ->)|[(st & h & role & pt & addr & i & la & t & ac & H1 & ->)|(st & h & reason & ->)]].
  - cbn in X. lia.
  - do 6 (destruct addr as [|? addr]; [discriminate H1|]). destruct addr; [|discriminate H1]. cbn in X.
    destruct X as (_ & [(_ & _ & X)|[(X & _)|(X & _)]]); [lia|discriminate X|discriminate X].
  - cbn in X. destruct X as (_ & [(X & _)|[(_ & X)|(X & _)]]); [discriminate X|lia|discriminate X].
Qed.
Print Assumptions C57_wellformed_survived.
Example C57_ex : runs false session (after false session) /\ exec false (after false [APkt evA; AAccept]) (APkt (ev_disconnected 0 64 19)) <> Panic.
Proof. split; [apply session_runs|]. vm_compute. discriminate. Qed.

(** * C58: no packet from the controller, and no call, crashes the host - refuted *)

(** A Disconnection Complete event without its reason byte. *)
Theorem C58_short_event_refuted : ~ (forall smp l s b, runs smp l s -> exec smp s (APkt b) <> Panic).
Proof. intros H. apply (H false [] host0 (event 5 [0; 64; 0]) eq_refl). reflexivity. Qed.
Print Assumptions C58_short_event_refuted.
(** An ordinary, well-formed Encryption Change event that reports a failure, with security not enabled. *)
Theorem C58_failed_encryption_refuted : exists l s, runs false l s /\ exec false s (APkt (event 8 ([6] ++ le16 64 ++ [0]))) = Panic.
Proof. exists [APkt evA; AAccept]. eexists. split; [vm_compute; reflexivity|]. reflexivity. Qed.
Print Assumptions C58_failed_encryption_refuted.
(** Dial cancelled after the connection was made; the event loop ends during the 50 ms grace period. *)
Theorem C58_abandoned_dial_refuted : exists l s, runs true l s /\ dial_ok true None host0 l /\ exec true s (ADialMClosed 0) = Panic.
Proof.
  exists [ADial peerB; APkt evB; AMasterLate; ADialGiveUp 0; ACancelDisallowed 0; ALoopExit]. eexists. split; [vm_compute; reflexivity|].
  split; [|reflexivity]. vm_compute. repeat split.
Qed.
Print Assumptions C58_abandoned_dial_refuted.

(** * C59: the life of a connection *)

(** From its event until it is removed, a connection is registered; once removed it is never registered again (no matter
    which later connections use its handle). *)
Theorem C59_live_until_removed : forall smp l s c, runs smp l s -> fresh_handles smp host0 l -> (c < length (objs s))%nat ->
  (live s c <-> ~ gone s c).
Proof. exact live_gone. Qed.
Print Assumptions C59_live_until_removed.
Theorem C59_never_back : forall smp l l' s s' c, runs smp l s -> exec_all smp s l' = Ret (Some s') -> gone s c -> gone s' c /\ ~ live s' c.
Proof.
  intros smp l l' s s' c R E G. assert (I := runs_inv _ _ _ R). assert (G' := gone_forever _ _ _ _ _ I E G). split; [exact G'|].
  intros L. exact (live_not_gone _ _ (exec_all_inv _ _ _ _ I E) L G').
Qed.
Print Assumptions C59_never_back.
(** Only four things remove a live connection: a Disconnection Complete event for its handle (except with reason 16 hex,
    "terminated by local host"), the end of its receive loop, the end of a call of Close on a connection with the same
    handle, and shutdown - or, if the controller reuses a handle that is still registered, the new connection. *)
Theorem C59_causes_of_removal : forall smp l s a s' c k, runs smp l s -> exec smp s a = Ret (Some s') -> nth_error (objs s) c = Some k -> live s c -> ~ live s' c ->
  removes s a = Some (k_handle k) \/ exists r ad, new_conns a = [(k_handle k, r, ad)].
Proof.
  intros smp l s a s' c k R E K (k2 & K2 & T) NL. assert (I := runs_inv _ _ _ R). rewrite K in K2. injection K2 as <-.
  destruct (step_life _ _ _ _ I E) as (_ & TT & _ & _). destruct (step_flags _ _ _ _ _ _ I E K) as (k' & K' & F & _). unfold idof in F.
  assert (HK : k_handle k' = k_handle k) by congruence.
  destruct (new_conns a) as [|[[h r] ad] m] eqn:NC.
  - left. destruct (removes s a) as [h|] eqn:RM; cbn [oeqz] in TT.
    + destruct (Z.eqb_spec h (k_handle k)) as [->|N]; [reflexivity|]. exfalso. apply NL. exists k'. split; [exact K'|]. rewrite HK, TT. destruct (Z.eqb_spec h (k_handle k)); [contradiction|exact T].
    + exfalso. apply NL. exists k'. split; [exact K'|]. now rewrite HK, TT.
  - assert (m = []) as ->. { unfold new_conns in NC. destruct a; try discriminate NC. destruct (dec_pkt b) as [[]|]; try discriminate NC. now injection NC. }
    right. exists r, ad. destruct (Z.eq_dec h (k_handle k)) as [->|N]; [reflexivity|]. exfalso. apply NL. exists k'. split; [exact K'|]. rewrite HK, TT.
    destruct (Z.eqb_spec (k_handle k) h); [congruence|exact T].
Qed.
Print Assumptions C59_causes_of_removal.
(** A Disconnection Complete event ends the connection of its handle, and Disconnected fires (unless the host is
    peripheral and HCI was closed, C60); with reason 16 hex it changes nothing. *)
Theorem C59_disconnection_event : forall smp l s st h reason, runs smp l s -> loop s = LIdle -> 0 <= h < 65536 ->
  exists s', exec smp s (APkt (ev_disconnected st h reason)) = Ret (Some s') /\
  (reason = 22 -> s' = s) /\
  (reason <> 22 -> forall c k, tab s h = Some c -> nth_error (objs s) c = Some k -> gone s' c /\ (isopen s = true \/ k_role k <> 1 -> disconnected s' c)) /\
  (forall c k, tab s h <> Some c -> nth_error (objs s) c = Some k -> nth_error (objs s') c = Some k).
Proof.
  intros smp l s st h reason R L H. assert (I := runs_inv _ _ _ R). cbn [exec]. rewrite L, dec_disconnected_ok by exact H. cbn [gbind].
  destruct (Z.eqb_spec reason 22) as [->|N].
  - exists s. split; [reflexivity|]. split; [auto|]. split; [intros X; contradiction|auto].
  - destruct (cleanup_no_panic s h I) as [s' C]. rewrite C. exists s'. split; [reflexivity|]. split; [intros; contradiction|].
    destruct (cleanup_effect _ _ _ I C) as (_ & M & _ & _ & _ & _ & _ & _ & _ & _ & _ & G).
    assert (EX : forall c k, nth_error (objs s) c = Some k -> exists k', nth_error (objs s') c = Some k').
    { intros c k K. destruct (nth_error (objs s') c) eqn:Y; [eauto|]. apply nth_error_None in Y.
      assert (L2 : (c < length (map idof (objs s)))%nat) by (rewrite map_length; apply nth_error_Some; congruence). rewrite <- M, map_length in L2. lia. }
    split.
    + intros _ c k T K. destruct (EX _ _ K) as [k' K']. destruct (G _ _ K') as (k2 & K2 & _ & _ & _ & G1 & _). rewrite K in K2. injection K2 as <-. destruct (G1 T) as [G2 G3].
      split; [exists k'; auto|]. intros Q. exists k'. split; [exact K'|]. rewrite G3. destruct Q as [->|Q]; [reflexivity|].
      destruct (Z.eqb_spec (k_role k) 1); [contradiction|apply orb_true_r].
    + intros c k T K. destruct (EX _ _ K) as [k' K']. destruct (G _ _ K') as (k2 & K2 & _ & _ & _ & _ & G1). rewrite K in K2. injection K2 as <-. now rewrite K', (G1 T).
Qed.
Print Assumptions C59_disconnection_event.
(** Disconnected fires only for connections that are gone, stays fired, and has fired for every connection that is gone -
    except peripheral ones after HCI was closed (C60). *)
Theorem C59_disconnected_iff_gone : forall smp l s c k, runs smp l s -> nth_error (objs s) c = Some k ->
  (disconnected s c -> gone s c) /\ (gone s c -> disconnected s c \/ (k_role k = 1 /\ isopen s = false)) /\
  (forall l' s', exec_all smp s l' = Ret (Some s') -> disconnected s c -> disconnected s' c).
Proof.
  intros smp l s c k R K. assert (F := runs_flaginv _ _ _ R). destruct (F _ _ K) as [F1 F2]. split; [|split].
  - intros (k2 & K2 & D). rewrite K in K2. injection K2 as <-. exists k. auto.
  - intros (k2 & K2 & D). rewrite K in K2. injection K2 as <-. destruct (F2 D) as [X|X]; [left; exists k; auto|now right].
  - intros l' s' E D. eapply disconnected_forever; eauto. eapply runs_inv; eauto.
Qed.
Print Assumptions C59_disconnected_iff_gone.
(** When Close has returned, the connection is gone. *)
Theorem C59_after_close : forall smp l s i c, runs smp l s -> fresh_handles smp host0 l -> nth_error (closers s) i = Some (ClRet c) -> gone s c.
Proof. intros smp l s i c R F H. eapply close_gone; eauto. Qed.
Print Assumptions C59_after_close.
(** When the event loop has ended (HCI closed, or the transport failed), no connection is left. *)
Theorem C59_after_the_loop : forall smp l s c, runs smp l s -> fresh_handles smp host0 l -> loop s = LEnd -> (c < length (objs s))%nat -> gone s c.
Proof.
  intros smp l s c R F L Q. assert (N := runs_endinv _ _ _ R L). destruct (nth_error (objs s) c) as [k|] eqn:K; [|apply nth_error_None in K; lia].
  destruct (k_inclosed k) eqn:IC; [exists k; auto|]. assert (G := trace_reg _ _ _ _ inv0 reg0 F R _ _ K IC). rewrite N in G. discriminate G.
Qed.
Print Assumptions C59_after_the_loop.

Definition closing : list act :=
  session ++ [AAclPut; AClose 0; AClCheck 0; AClSent 0; AClClean 0; APkt (ev_disconnected 0 65 19); APkt (ev_connected 0 65 1 0 peerA 24 0 72 0); AAccept; ALoopExit; ALoopClean 65; ALoopEnd].
Fixpoint fresh_b (s : host) (l : list act) : bool :=
  match l with
  | [] => true
  | a :: r =>
      match new_conns a with [(h, _, _)] => match tab s h with None => true | Some _ => false end | _ => true end
      && match exec true s a with Ret (Some s') => fresh_b s' r | _ => true end
  end.
Lemma fresh_check : forall l s, fresh_b s l = true -> fresh_handles true s l.
Proof.
  induction l as [|a l IH]; intros s H; [exact Logic.I|]. cbn [fresh_b] in H. apply andb_true_iff in H. destruct H as [H1 H2]. cbn [fresh_handles]. split.
  - intros h r ad NC. rewrite NC in H1. destruct (tab s h); [discriminate H1|reflexivity].
  - destruct (exec true s a) as [[s'|]|]; auto.
Qed.
Lemma closing_fresh : fresh_handles true host0 closing.
Proof. apply fresh_check. vm_compute. reflexivity. Qed.
Example C59_ex : runs true closing (after true closing) /\ fresh_handles true host0 closing /\ loop (after true closing) = LEnd /\
  map k_done (objs (after true closing)) = [true; true; true] /\ nth_error (closers (after true closing)) 0 = Some (ClRet 0%nat).
Proof. split; [apply possible_runs; vm_compute; reflexivity|]. split; [exact closing_fresh|]. vm_compute. auto. Qed.

(** * C60: every connection's Disconnected fires once it is gone - refuted *)

(** Closing HCI while a central is connected: the connection is dropped, but Disconnected never fires, whatever follows. *)
Theorem C60_disconnected_after_hci_close_refuted : exists l s, runs true l s /\ fresh_handles true host0 l /\ loop s = LEnd /\ gone s 0 /\
  forall l' s', exec_all true s l' = Ret (Some s') -> ~ disconnected s' 0.
Proof.
  set (l := [APkt evA; AAccept; AShut; ALoopExit; ALoopClean 64; ALoopEnd]). exists l. exists (after true l).
  assert (R : runs true l (after true l)) by (apply possible_runs; vm_compute; reflexivity). split; [exact R|].
  split; [apply fresh_check; vm_compute; reflexivity|]. split; [reflexivity|]. split; [eexists; split; vm_compute; reflexivity|].
  intros l' s' E. eapply silent_forever; [exact (runs_inv _ _ _ R)|exact E|vm_compute; reflexivity|reflexivity].
Qed.
Print Assumptions C60_disconnected_after_hci_close_refuted.

(** * C61: closing one connection never ends another - refuted *)

(** The peer disconnects while Close is under way and the controller reuses the handle: the last step of the old Close
    removes the new connection, of which no disconnection was ever reported and on which nobody called Close. *)
Theorem C61_close_hits_another_refuted : exists l s, runs true l s /\ fresh_handles true host0 l /\ gone s 1 /\
  (forall c, In (AClose c) l -> c = 0%nat) /\ ~ In (ARxFail 1) l /\
  length (filter (fun a => match removes host0 a with Some 64 => true | _ => false end) l) = 1%nat.
Proof.
  set (l := [APkt evA; AAccept; AClose 0; AClCheck 0; AClSent 0; APkt (ev_disconnected 0 64 19); APkt (ev_connected 0 64 1 0 peerB 24 0 72 0); AAccept; AClClean 0]).
  exists l, (after true l). split; [apply possible_runs; vm_compute; reflexivity|].
  split; [apply fresh_check; vm_compute; reflexivity|]. split; [eexists; split; vm_compute; reflexivity|].
  split; [|split]; [| |vm_compute; reflexivity].
  - intros c X. unfold l in X. cbn [In] in X. repeat (destruct X as [X|X]; [try discriminate X; try (injection X as <-; reflexivity)|]). destruct X.
  - intros X. unfold l in X. cbn [In] in X. repeat (destruct X as [X|X]; [discriminate X|]). destruct X.
Qed.
Print Assumptions C61_close_hits_another_refuted.
(** The usual case - the controller confirms the disconnection this host asked for (reason 16 hex) and immediately reports a
    new connection with the same handle - ends the new connection in the same way. *)
Theorem C61_close_hits_successor_refuted : exists l s, runs true l s /\ gone s 1 /\ (forall c, In (AClose c) l -> c = 0%nat).
Proof.
  set (l := [APkt evA; AAccept; AClose 0; AClCheck 0; AClSent 0; APkt (ev_disconnected 0 64 22); APkt (ev_connected 0 64 1 0 peerB 24 0 72 0); AAccept; AClClean 0]).
  exists l, (after true l). split; [apply possible_runs; vm_compute; reflexivity|]. split; [eexists; split; vm_compute; reflexivity|].
  intros c X. unfold l in X. cbn [In] in X. repeat (destruct X as [X|X]; [try discriminate X; try (injection X as <-; reflexivity)|]). destruct X.
Qed.
Print Assumptions C61_close_hits_successor_refuted.

(** * C62: the event loop never stops for good - refuted *)

(** The peer sends data that the receive loop cannot reassemble and keeps sending: the receive loop waits for the table's
    lock, the event loop holds it waiting for room in that receive loop's queue.  Whatever happens then - including
    closing HCI - no further packet is ever handled. *)
Theorem C62_peer_jams_event_loop_refuted : exists l s, runs true l s /\ (forall a, In a l -> exists n, a = APkt (dataA n) \/ a = APkt evA \/ a = AAccept \/ a = AAclPut \/ a = ARxFail 0) /\
  forall l' s' b, exec_all true s l' = Ret (Some s') -> exec true s' (APkt b) = Ret None.
Proof.
  set (fill := flat_map (fun n => [APkt (dataA (Z.of_nat n)); AAclPut]) (seq 0 16)).
  set (l := [APkt evA; AAccept; ARxFail 0] ++ fill ++ [APkt (dataA 16)]). exists l, (after true l).
  assert (R : runs true l (after true l)) by (apply possible_runs; vm_compute; reflexivity). split; [exact R|]. split.
  - intros a X. unfold l in X. apply in_app_or in X. destruct X as [X|X].
    + destruct X as [<-|[<-|[<-|[]]]]; exists 0; tauto.
    + apply in_app_or in X. destruct X as [X|[<-|[]]]; [|exists 16; tauto]. apply in_flat_map in X. destruct X as (n & _ & [<-|[<-|[]]]); exists (Z.of_nat n); tauto.
  - intros l' s' b E. assert (J : jammed (after true l) 0 (skipn 1 (dataA 16))).
    { split; [vm_compute; reflexivity|]. eexists. split; [vm_compute; reflexivity|]. split; reflexivity. }
    destruct (jammed_forever _ _ _ _ _ _ (runs_inv _ _ _ R) J E) as [L _]. cbn [exec]. now rewrite L.
Qed.
Print Assumptions C62_peer_jams_event_loop_refuted.
(** A central connects while the application is not in Accept: until it calls Accept, no packet of any connection is
    handled, not even if HCI is closed. *)
Theorem C62_accept_blocks_everything_refuted : exists l s, runs true l s /\
  forall l' s' b, exec_all true s l' = Ret (Some s') -> ~ In AAccept l' -> exec true s' (APkt b) = Ret None.
Proof.
  set (l := [ADial peerB; APkt evB; AMasterPut; ADialTake 0; APkt evA]). exists l, (after true l).
  assert (R : runs true l (after true l)) by (apply possible_runs; vm_compute; reflexivity). split; [exact R|].
  intros l' s' b E N. assert (L : loop (after true l) = LSlave 1) by reflexivity.
  cbn [exec]. now rewrite (waiting_forever _ _ _ _ _ (runs_inv _ _ _ R) L N E).
Qed.
Print Assumptions C62_accept_blocks_everything_refuted.

(** * C63: Dial returns a connection to the address it was given *)

(** If calls of Dial do not overlap, the controller creates only connections it was asked for and reports a cancellation
    correctly, and the grace period covers the hand-over of a connection that was just made, a connection returned by Dial
    has the dialled address. *)
Theorem C63_dialled_address_partial : forall smp l s t a c, runs smp l s -> dial_ok smp None host0 l -> dial_wire t = Some a -> all_bytes a -> In (DGot a c) (dials s) ->
  exists k, nth_error (objs s) c = Some k /\ k_addr k = a /\ addr_bytes (remote_addr k) = addr_bytes (new_addr t).
Proof.
  intros smp l s t a c R OK W AB H. destruct (trace_dinv _ _ _ _ _ inv0 dinv0 OK R) as [p D]. destruct (d_got _ _ D _ _ H) as (k & K & A).
  exists k. split; [exact K|]. split; [exact A|]. rewrite C56_remote_address by (now rewrite A). rewrite A. unfold dial_wire in W.
  destruct (Nat.eqb _ 6); [|discriminate W]. injection W as <-. apply rev_involutive.
Qed.
Print Assumptions C63_dialled_address_partial.
Example C63_ex : let s := after true session in dial_ok true None host0 session /\ In (DGot peerB 1) (dials s) /\
  dial_wire [48;52;58;48;53;58;48;54;58;48;55;58;48;56;58;48;57] = Some peerB.
Proof. vm_compute. repeat split. now left. Qed.
(** Without the last condition: Dial to A is cancelled just as the connection to A is made, gives up after 50 ms, and the
    next Dial, to B, returns the connection to A. *)
Theorem C63_late_connection_refuted : exists l s, runs true l s /\ In (DGot peerB 0) (dials s) /\
  match nth_error (objs s) 0 with Some k => k_addr k = peerA | None => False end.
Proof.
  set (l := [ADial peerA; ADialGiveUp 0; ACancelDisallowed 0; AGraceOver 0; APkt (ev_connected 0 64 0 0 peerA 24 0 72 0); AMasterPut; ADial peerB; ADialTake 1]).
  exists l, (after true l). split; [apply possible_runs; vm_compute; reflexivity|]. split; [vm_compute; tauto|]. reflexivity.
Qed.
Print Assumptions C63_late_connection_refuted.
