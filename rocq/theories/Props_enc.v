(** C125-C130: encryption of connections, reports to the application, bonds and keys. *)
Require Import Verif.Base Verif.M_smp Verif.P_smp Verif.P_smp2 Verif.P_smp7.
Require Import Verif.M_enc Verif.S_enc Verif.P_enc Verif.P_enc2 Verif.P_enc3 Verif.P_enc4 Verif.P_enc5 Verif.P_enc6 Verif.P_enc7 Verif.P_enc8.
Require Verif.M_hci Verif.S_smp.

(** ** C125 *)
(** An encryption event of connection i: the bond is forgotten if it must be, and the channel that listens for i is told exactly what the event says *)
Theorem C125_event : forall C, S_smp.prims_ok C -> forall t cap l w b del o i v, run C (world0 t cap) (l ++ [(TPacket b del, o)]) w -> event_for l b i = Some v ->
  exists cr o0 o1, conn_of l i = Some cr /\ o = o0 ++ o1 /\ forgotten t l cr v del o0 /\ told cap l i (ev_info v) o1.
Proof.
  intros C HC t cap l w b del o i v H Hv. destruct (run_last _ _ _ _ _ _ H) as (w1 & Hr & _ & Hs). cbn [step] in Hs. injection Hs as Hs.
  exact (event_ok C t cap l w1 b del w o i v (run_inv C HC t cap l w1 Hr) Hv Hs).
Qed.
(** Any other packet has no effect on encryption *)
Theorem C125_no_event : forall C, S_smp.prims_ok C -> forall t cap l w b del o, run C (world0 t cap) (l ++ [(TPacket b del, o)]) w -> (forall i, event_for l b i = None) -> o = [].
Proof.
  intros C HC t cap l w b del o H N. destruct (run_last _ _ _ _ _ _ H) as (w1 & Hr & _ & Hs). cbn [step] in Hs. injection Hs as Hs.
  exact (no_event_ok C t cap l w1 b del w o (run_inv C HC t cap l w1 Hr) N Hs).
Qed.
(** Nothing else is ever put into a channel of the application: a value comes from an event of the connection while the channel listens, or from a call of StartEncryption
    on a connection that was encrypted already, and then it is what the last event before some moment after the call said *)
Theorem C125_only_these_values : forall C, S_smp.prims_ok C -> forall t cap l w a o i k v, run C (world0 t cap) (l ++ [(a, o)]) w -> In (OReport i k v) o \/ In (OLost i k v) o ->
  (exists b del u, a = TPacket b del /\ event_for l b i = Some u /\ v = ev_info u /\ listener l i = Some k) \/
  (exists l0 e l1 l2, l = (l0 ++ (TStart i (Some k) e, [OStartRet i RNil]) :: l1) ++ l2 /\ encrypted l0 i = true /\
     v = last_info (l0 ++ (TStart i (Some k) e, [OStartRet i RNil]) :: l1) i).
Proof.
  intros C HC t cap l w a o i k v H Hx. destruct (run_last _ _ _ _ _ _ H) as (w1 & Hr & _ & Hs). pose proof (run_inv C HC t cap l w1 Hr) as J.
  assert (X : (exists b del u, a = TPacket b del /\ event_for l b i = Some u /\ v = ev_info u /\ listener l i = Some k) \/
      (exists j g, a = TGoEnd j g /\ sender_ok l (mkSender i k (Some v)))) by (destruct Hx as [Hx|Hx]; exact (obs_of_step C HC t cap l w1 a w o _ J Hs Hx)).
  destruct X as [X|(j & g & _ & l0 & e & l1 & -> & En & l2 & l3 & -> & ->)]; [now left|]. cbn [s_conn s_chan s_val] in *. right. exists l0, e, l2, l3.
  split; [now rewrite <- app_assoc|]. split; [exact En|reflexivity].
Qed.
(** A channel of capacity n hands over, in order and once each, what was put into it; at most n values are waiting in it *)
Theorem C125_in_order : forall C, S_smp.prims_ok C -> forall t cap l w k, run C (world0 t cap) l w -> exists kept, put_in l k = taken_out l k ++ kept /\ (length kept <= cap k)%nat.
Proof.
  intros C HC t cap l w k H. destruct (J_chan _ _ _ _ _ (run_inv C HC t cap l w H) k) as [_ E _ B _]. exists (ch_buf (chans w k)). split; [exact E|exact B].
Qed.
(** StartEncryption on an encrypted connection returns at once, without a command: nil if there is a channel to tell, ErrEncryptionAlreadyEnabled otherwise *)
Theorem C125_start_when_encrypted : forall C, S_smp.prims_ok C -> forall t cap l w i ch e o, run C (world0 t cap) (l ++ [(TStart i ch e, o)]) w -> encrypted l i = true ->
  o = [OStartRet i (match ch with Some _ => RNil | None => RAlready end)].
Proof.
  intros C HC t cap l w i ch e o H En. destruct (run_last _ _ _ _ _ _ H) as (w1 & Hr & _ & Hs). cbn [step] in Hs.
  destruct (start_cases C t cap l w1 i ch e w o (run_inv C HC t cap l w1 Hr) Hs) as [(_ & E)|(E & _)]; [exact E|congruence].
Qed.
(** Otherwise its channel listens from now on, and it issues at most one command *)
Theorem C125_start_listens : forall C, S_smp.prims_ok C -> forall t cap l w i ch e o, run C (world0 t cap) (l ++ [(TStart i ch e, o)]) w -> encrypted l i = false ->
  listener (l ++ [(TStart i ch e, o)]) i = ch /\ (o = [] \/ exists h k ed rn, o = [OCmd i h k ed rn]).
Proof.
  intros C HC t cap l w i ch e o H En. destruct (run_last _ _ _ _ _ _ H) as (w1 & Hr & _ & Hs). cbn [step] in Hs.
  destruct (start_cases C t cap l w1 i ch e w o (run_inv C HC t cap l w1 Hr) Hs) as [(E & _)|(_ & E)]; [congruence|]. split; [|exact E].
  rewrite listener_snoc. cbn [listener_step]. rewrite Nat.eqb_refl. destruct E as [-> | (h & k & ed & rn & ->)]; reflexivity.
Qed.
(** Among the calls that have to wait, those that return nil are those whose command the controller accepted: never more, and as many when all calls have returned *)
Theorem C125_results : forall C, S_smp.prims_ok C -> forall t cap l w i, run C (world0 t cap) l w ->
  (nil_of l i <= accepted_of l i)%nat /\ (returns_of l i <= starts_of l i)%nat /\ (returns_of l i = starts_of l i -> nil_of l i = accepted_of l i).
Proof.
  intros C HC t cap l w i H. pose proof (accepted_count C t cap l w H i) as A. pose proof (J_count _ _ _ _ _ (run_inv C HC t cap l w H) i) as B.
  pose proof (okcalls_le cap i (calls w)). split; [lia|]. split; [lia|]. intro E. lia.
Qed.
(** A call that has not returned can (once the controller has answered: C02) *)
Theorem C125_calls_return : forall C, S_smp.prims_ok C -> forall t cap l w i, run C (world0 t cap) l w -> (returns_of l i < starts_of l i)%nat ->
  exists j w' r, step C w (TFinish j) = Some (Ret (w', [OStartRet i r])).
Proof.
  intros C HC t cap l w i H L. pose proof (J_count _ _ _ _ _ (run_inv C HC t cap l w H) i) as B. destruct (pending_call cap i (calls w)) as (j & c & Hj & <-); [lia|].
  exists j. cbn [step]. unfold finish. rewrite Hj. destruct (l_ok c); eexists _, _; reflexivity.
Qed.
Print Assumptions C125_event.
Print Assumptions C125_no_event.
Print Assumptions C125_only_these_values.
Print Assumptions C125_in_order.
Print Assumptions C125_start_when_encrypted.
Print Assumptions C125_start_listens.
Print Assumptions C125_results.
Print Assumptions C125_calls_return.

(** ** C126 *)
(** A bond is stored only by a message of the peer of a connection with security, under the address of that peer *)
Theorem C126_stored_for_the_peer : forall C, S_smp.prims_ok C -> forall t cap l w a o y b, run C (world0 t cap) (l ++ [(a, o)]) w -> In (OSaved y b) o ->
  exists i e pdu cr, a = TSmp i (AMsg e pdu) /\ conn_of l i = Some cr /\ cr_sec cr = true /\ y = rev (cr_peer cr).
Proof.
  intros C HC t cap l w a o y b H Hx. destruct (run_last _ _ _ _ _ _ H) as (w1 & Hr & _ & Hs).
  exact (obs_of_step C HC t cap l w1 a w o _ (run_inv C HC t cap l w1 Hr) Hs Hx).
Qed.
(** A bond is deleted only by an encryption event with a failure status, and it is the bond of the peer of that connection *)
Theorem C126_deleted_for_the_peer : forall C, S_smp.prims_ok C -> forall t cap l w a o y, run C (world0 t cap) (l ++ [(a, o)]) w -> In (ODeleted y) o ->
  exists b del i v cr, a = TPacket b del /\ event_for l b i = Some v /\ ev_status v <> 0 /\ conn_of l i = Some cr /\ y = rev (cr_peer cr) /\ stored t l y <> None.
Proof.
  intros C HC t cap l w a o y H Hx. destruct (run_last _ _ _ _ _ _ H) as (w1 & Hr & _ & Hs).
  exact (obs_of_step C HC t cap l w1 a w o _ (run_inv C HC t cap l w1 Hr) Hs Hx).
Qed.
(** The command of a call of StartEncryption names the connection's handle and carries the key of the bond stored for its peer, or the short term key of this connection's pairing *)
Theorem C126_key_of_start : forall C, S_smp.prims_ok C -> forall t cap l w i ch e o i' h k ed rn, run C (world0 t cap) (l ++ [(TStart i ch e, o)]) w -> In (OCmd i' h k ed rn) o ->
  exists cr b, conn_of l i = Some cr /\ i' = i /\ h = cr_handle cr /\ stored t l (rev (cr_peer cr)) = Some b /\
    (key_of b k ed rn \/ (short_term_key l i k /\ ed = 0 /\ rn = 0)).
Proof.
  intros C HC t cap l w i ch e o i' h k ed rn H Hx. destruct (run_last _ _ _ _ _ _ H) as (w1 & Hr & He & Hs). cbn [step] in Hs.
  exact (start_key C t cap l w1 i ch e w o i' h k ed rn (run_inv C HC t cap l w1 Hr) He Hs Hx).
Qed.
(** A command caused by a message of a peer names that connection's handle; on a Security Request (11) it carries the key of the bond stored for this peer or the short term key of this
    connection; otherwise the message is a Pairing Random (4) or a DHKey Check (13) *)
Theorem C126_key_of_message : forall C, S_smp.prims_ok C -> forall t cap l w i a o i' h k ed rn, run C (world0 t cap) (l ++ [(TSmp i a, o)]) w -> In (OCmd i' h k ed rn) o ->
  exists e pdu c d cr, a = AMsg e pdu /\ S_smp.msg_of pdu = Some (c, d) /\ conn_of l i = Some cr /\ cr_sec cr = true /\ i' = i /\ h = cr_handle cr /\
   ((c = 4 /\ ed = 0 /\ rn = 0) \/ c = 13 \/
    (c = 11 /\ exists b, stored t l (rev (cr_peer cr)) = Some b /\ (key_of b k ed rn \/ (short_term_key l i k /\ ed = 0 /\ rn = 0)))).
Proof.
  intros C HC t cap l w i a o i' h k ed rn H Hx. destruct (run_last _ _ _ _ _ _ H) as (w1 & Hr & He & Hs). cbn [step] in Hs.
  assert (Na : match a with AStartEncryption _ => False | _ => True end) by (destruct a; try exact Logic.I; discriminate).
  assert (H' : smp_step C i a w1 = Some (Ret (w, o))) by (destruct a; try exact Hs; discriminate).
  exact (smp_key C HC t cap l w1 i a w o i' h k ed rn (run_inv C HC t cap l w1 Hr) He Na H' Hx).
Qed.
(** There is no other cause of an encryption command *)
Theorem C126_only_these_commands : forall C, S_smp.prims_ok C -> forall t cap l w a o i h k ed rn, run C (world0 t cap) (l ++ [(a, o)]) w -> In (OCmd i h k ed rn) o ->
  (exists ch e, a = TStart i ch e) \/ (exists e pdu, a = TSmp i (AMsg e pdu)).
Proof.
  intros C HC t cap l w a o i h k ed rn H Hx. destruct (run_last _ _ _ _ _ _ H) as (w1 & Hr & _ & Hs).
  exact (obs_of_step C HC t cap l w1 a w o _ (run_inv C HC t cap l w1 Hr) Hs Hx).
Qed.
(** With security enabled neither an encryption event nor StartEncryption crashes, whatever was stored by earlier pairings *)
Theorem C126_event_does_not_crash : forall C, S_smp.prims_ok C -> forall t cap l w b del v, run C (world0 t cap) l w -> enc_event b = Some v ->
  (forall i cr, owner l (ev_handle v) = Some i -> conn_of l i = Some cr -> cr_sec cr = true) -> step C w (TPacket b del) <> Some Panic.
Proof.
  intros C HC t cap l w b del v H Ev Hs X. cbn [step] in X. injection X as X.
  refine (event_no_crash C t cap l w b del v (run_inv C HC t cap l w H) Ev _ X). intros i cr A B. right. exact (Hs i cr A B).
Qed.
Theorem C126_start_does_not_crash : forall C, S_smp.prims_ok C -> forall t cap l w i ch e cr, run C (world0 t cap) l w -> (forall a b, find_bond a t = Some b -> fits b) ->
  env_ok w (TStart i ch e) -> conn_of l i = Some cr -> cr_sec cr = true -> exists w' o, step C w (TStart i ch e) = Some (Ret (w', o)).
Proof.
  intros C HC t cap l w i ch e cr H Ht He Hcr Hsec. exact (start_no_crash C t cap l w i ch e cr (run_inv C HC t cap l w H) (run_small C HC t cap l w H Ht) He Hcr Hsec).
Qed.
Print Assumptions C126_stored_for_the_peer.
Print Assumptions C126_deleted_for_the_peer.
Print Assumptions C126_key_of_start.
Print Assumptions C126_key_of_message.
Print Assumptions C126_only_these_commands.
Print Assumptions C126_event_does_not_crash.
Print Assumptions C126_start_does_not_crash.

(** ** Concrete runs *)
Definition beq_bond (x y : bondinfo) : bool := beq_bytes (ltk x) (ltk y) && (ediv x =? ediv y) && (brand x =? brand y) && Bool.eqb (blegacy x) (blegacy y).
Lemma beq_bond_eq : forall x y, beq_bond x y = true -> x = y.
Proof.
  intros [a b c d] [a' b' c' d'] H. unfold beq_bond in H. cbn in H. apply andb_true_iff in H. destruct H as (H & D). apply andb_true_iff in H. destruct H as (H & B). apply andb_true_iff in H.
  destruct H as (A & A'). apply beq_bytes_eq in A. apply Z.eqb_eq in A', B. apply Bool.eqb_prop in D. now subst.
Qed.
Definition env_b (w : world) (a : act) : bool :=
  let chk i e := match nth_error (conns w) i with
                 | Some c => match c_smp c with
                             | Some s => match e_find e, find_bond (p_raddr (ctx s)) (bonds w) with None, _ => true | Some x, Some y => beq_bond x y | _, _ => false end
                             | None => true end
                 | None => true end in
  match a with TSmp i a => match M_enc.act_env a with Some e => chk i e | None => true end | TStart i _ e => chk i e | _ => true end.
Lemma env_b_ok : forall w a, env_b w a = true -> env_ok w a.
Proof.
  intros w a H.
  assert (K : forall i e, (match nth_error (conns w) i with
                 | Some c => match c_smp c with
                             | Some s => match e_find e, find_bond (p_raddr (ctx s)) (bonds w) with None, _ => true | Some x, Some y => beq_bond x y | _, _ => false end
                             | None => true end
                 | None => true end) = true -> match nth_error (conns w) i with Some c => match c_smp c with Some s => find_ok e s w | None => True end | None => True end).
  { intros i e. destruct (nth_error (conns w) i) as [c|]; [|exact (fun _ => Logic.I)]. destruct (c_smp c) as [s|]; [|exact (fun _ => Logic.I)]. unfold find_ok.
    destruct (e_find e) as [x|]; [|now left]. destruct (find_bond (p_raddr (ctx s)) (bonds w)) as [y|]; [|discriminate]. intro E. apply beq_bond_eq in E. subst. now right. }
  destruct a; try exact Logic.I; cbn [env_ok env_b] in *.
  - destruct (M_enc.act_env a) as [e|]; [|exact Logic.I]. specialize (K i e H). destruct (nth_error (conns w) i) as [c|]; [|exact Logic.I]. exact K.
  - exact (K i e H).
Qed.
Fixpoint exec (C : prims) (w : world) (l : list act) : option (world * history) :=
  match l with
  | [] => Some (w, [])
  | a :: r => if env_b w a then match step C w a with Some (Ret (w', o)) => match exec C w' r with Some (w'', h) => Some (w'', (a, o) :: h) | None => None end | _ => None end else None
  end.
Lemma exec_run : forall C acts w0 l0 w h w', run C w0 l0 w -> exec C w acts = Some (w', h) -> run C w0 (l0 ++ h) w'.
Proof.
  intros C. induction acts as [|a acts IH]; intros w0 l0 w h w' R H; cbn [exec] in H.
  - injection H as <- <-. now rewrite app_nil_r.
  - destruct (env_b w a) eqn:E; [|discriminate]. destruct (step C w a) as [[[w1 o]|]|] eqn:S; try discriminate. destruct (exec C w1 acts) as [[w2 h2]|] eqn:X; [|discriminate].
    injection H as <- <-. change ((a, o) :: h2) with ([(a, o)] ++ h2). rewrite app_assoc. apply (IH w0 _ w1 h2 w2); [|exact X]. apply run_snoc with w; [exact R|now apply env_b_ok|exact S].
Qed.
Lemma exec_start : forall C t cap acts h, option_map snd (exec C (world0 t cap) acts) = Some h -> exists w, run C (world0 t cap) h w /\ exec C (world0 t cap) acts = Some (w, h).
Proof.
  intros C t cap acts h H. destruct (exec C (world0 t cap) acts) as [[w h']|] eqn:E; [|discriminate]. injection H as ->. exists w. split; [|reflexivity].
  exact (exec_run C acts (world0 t cap) [] (world0 t cap) h w (run_nil C _) E).
Qed.

Definition peer : bytes := [1; 2; 3; 4; 5; 6].
Definition other : bytes := [6; 6; 6; 6; 6; 6].
Definition bond1 : bondinfo := mkBond (repeat 7 16) 0 0 false.
Definition store1 : list (bytes * bondinfo) := [(rev peer, bond1); (rev other, mkBond (repeat 9 16) 5 6 true)].
Definition e_ok : env := mkEnv true (repeat 0 16) true (Some 1) (Some bond1) true true.
Definition e_no : env := mkEnv true (repeat 0 16) true (Some 1) None true true.
Definition conn1 : act := TConnect 64 other peer 0 0 true.
Definition changed (st en : Z) : act := TPacket [4; 8; 4; st; 64; 0; en] true.

(** StartEncryption, the event arrives, the waiting receiver is told; a second call on the encrypted connection *)
Definition acts1 : list act := [conn1; TStart 0 (Some 0%nat) e_ok; TFinish 0; TRecv 0; changed 0 1; TStart 0 (Some 1%nat) e_ok; TGoEval 0; TRecv 1; TGoEnd 0 false].
Definition on_info : info := mkInfo 0 None true.
Example C125_example : forall C, exists w, run C (world0 store1 (fun _ => O))
  [(conn1, []); (TStart 0 (Some 0%nat) e_ok, [OCmd 0 64 (repeat 7 16) 0 0]); (TFinish 0, [OStartRet 0 RNil]); (TRecv 0, []);
   (changed 0 1, [OReport 0 0 on_info; OGot 0 on_info]); (TStart 0 (Some 1%nat) e_ok, [OStartRet 0 RNil]); (TGoEval 0, []); (TRecv 1, []);
   (TGoEnd 0 false, [OReport 0 1 on_info; OGot 1 on_info])] w.
Proof. intro C. destruct (exec_start C store1 (fun _ => O) acts1 _ ltac:(vm_compute; reflexivity)) as (w & R & _). exists w. exact R. Qed.
Example C125_example_hyps : event_for [(conn1, []); (TStart 0 (Some 0%nat) e_ok, [OCmd 0 64 (repeat 7 16) 0 0]); (TFinish 0, [OStartRet 0 RNil]); (TRecv 0, [])] [4; 8; 4; 0; 64; 0; 1] 0
    = Some (Change 64 0 1) /\
  listener [(conn1, []); (TStart 0 (Some 0%nat) e_ok, [OCmd 0 64 (repeat 7 16) 0 0]); (TFinish 0, [OStartRet 0 RNil]); (TRecv 0, [])] 0 = Some 0%nat /\
  waits [(conn1, []); (TStart 0 (Some 0%nat) e_ok, [OCmd 0 64 (repeat 7 16) 0 0]); (TFinish 0, [OStartRet 0 RNil]); (TRecv 0, [])] 0.
Proof. split; [reflexivity|]. split; [reflexivity|]. unfold waits. cbn. lia. Qed.
(** A failure: the bond of this peer, and only that, is deleted; the next call finds none and returns an error *)
Definition acts2 : list act := [conn1; TStart 0 (Some 0%nat) e_ok; TFinish 0; changed 6 0; TStart 0 (Some 0%nat) e_no; TFinish 0].
Definition missing : info := mkInfo 6 (Some 6) false.
Definition hist2 : history := [(conn1, []); (TStart 0 (Some 0%nat) e_ok, [OCmd 0 64 (repeat 7 16) 0 0]); (TFinish 0, [OStartRet 0 RNil]);
   (changed 6 0, [ODeleted (rev peer); OReport 0 0 missing]); (TStart 0 (Some 0%nat) e_no, []); (TFinish 0, [OStartRet 0 RError])].
Example C126_example : forall C, (exists w, run C (world0 store1 (fun _ => 1%nat)) hist2 w) /\ stored store1 hist2 (rev peer) = None /\ stored store1 hist2 (rev other) <> None /\
  (forall a b, find_bond a store1 = Some b -> fits b).
Proof.
  intro C. split.
  - destruct (exec_start C store1 (fun _ => 1%nat) acts2 hist2 ltac:(vm_compute; reflexivity)) as (w & R & _). exists w. exact R.
  - split; [reflexivity|]. split; [vm_compute; discriminate|]. intros a b H. unfold store1 in H. cbn [find_bond] in H. destruct (beq_bytes _ a); [injection H as <-; right; cbn; lia|].
    destruct (beq_bytes _ a); [injection H as <-; now left|discriminate].
Qed.

(** ** C127 (ideal): nothing about encryption can crash the program.  Without security enabled it can: any encryption event with a failure status, StartEncryption, Pair *)
Theorem C127_failed_event_crashes_refuted : forall C t cap l w h b st en del i cr, S_smp.prims_ok C -> run C (world0 t cap) l w -> enc_event b = Some (Change h st en) -> st <> 0 ->
  owner l h = Some i -> conn_of l i = Some cr -> cr_sec cr = false -> step C w (TPacket b del) = Some Panic.
Proof.
  intros C t cap l w h b st en del i cr HC H Ev N Ho Hcr Hsec. pose proof (run_inv C HC t cap l w H) as J. cbn [step]. rewrite (packet_event _ _ _ _ Ev). cbn [ev_handle].
  rewrite (J_tab _ _ _ _ _ J), Ho. assert (Li : (i < length (conns w))%nat) by (rewrite (J_len _ _ _ _ _ J); unfold conn_of in Hcr; apply nth_error_Some; congruence).
  apply nth_error_Some in Li. destruct (nth_error (conns w) i) as [c|] eqn:Hi; [|congruence]. destruct (K_cr _ _ _ _ (J_conn _ _ _ _ _ J _ _ Hi)) as (cr' & Hcr' & _ & S).
  rewrite Hcr in Hcr'. injection Hcr' as <-. unfold apply_event, on_failure, ev_status. cbn [ev_info i_status]. destruct (Z.eqb_spec st 0); [contradiction|].
  destruct (c_smp c) as [s|]; [|reflexivity]. destruct S as (S & _). congruence.
Qed.
Theorem C127_calls_crash_refuted : forall C t cap l w i ch e k oob cr, S_smp.prims_ok C -> run C (world0 t cap) l w -> conn_of l i = Some cr -> cr_sec cr = false -> encrypted l i = false ->
  step C w (TStart i ch e) = Some Panic /\ step C w (TSmp i (APair e k oob)) = Some Panic.
Proof.
  intros C t cap l w i ch e k oob cr HC H Hcr Hsec Hen. pose proof (run_inv C HC t cap l w H) as J.
  assert (Li : (i < length (conns w))%nat) by (rewrite (J_len _ _ _ _ _ J); unfold conn_of in Hcr; apply nth_error_Some; congruence).
  apply nth_error_Some in Li. destruct (nth_error (conns w) i) as [c|] eqn:Hi; [|congruence]. destruct (J_conn _ _ _ _ _ J _ _ Hi) as [(cr' & Hcr' & _ & S) _ En _ _].
  rewrite Hcr in Hcr'. injection Hcr' as <-. cbn [step]. unfold start, smp_step. rewrite Hi, En, Hen. destruct (c_smp c) as [s|]; [destruct S as (S & _); congruence|]. split; reflexivity.
Qed.
Definition conn0 : act := TConnect 64 other peer 0 0 false.
Example C127_example : forall C, (exists w, run C (world0 [] (fun _ => O)) [(conn0, [])] w) /\ enc_event [4; 8; 4; 6; 64; 0; 0] = Some (Change 64 6 0) /\
  owner [(conn0, [])] 64 = Some 0%nat /\ conn_of [(conn0, [])] 0 = Some (mkCr 64 peer false) /\ encrypted [(conn0, [])] 0 = false.
Proof.
  intro C. split; [|split; [reflexivity|]; split; [reflexivity|]; split; reflexivity].
  destruct (exec_start C [] (fun _ => O) [conn0] _ ltac:(vm_compute; reflexivity)) as (w & R & _). exists w. exact R.
Qed.

(** ** C128 (ideal): a refreshed key is reported.  Encryption Key Refresh Complete (event 0x30) has no effect whatever it says: its handler is registered for a subevent of LE Meta *)
Theorem C128_key_refresh_ignored_refuted : forall C, S_smp.prims_ok C -> forall t cap l w p del o n, run C (world0 t cap) (l ++ [(TPacket (4 :: 48 :: n :: p) del, o)]) w -> o = [].
Proof.
  intros C HC t cap l w p del o n H. apply (C125_no_event C HC t cap l w _ _ o H). intro i. unfold event_for. destruct (enc_event (4 :: 48 :: n :: p)) as [v|] eqn:E; [|reflexivity].
  destruct (enc_event_inv _ _ E) as (n' & p' & _ & [(X & _)|(X & _)]); discriminate.
Qed.
(** while the reserved LE Meta subevent 0x30 is reported as encryption switched on, with an error, and the bond of the peer is deleted *)
Theorem C128_reserved_subevent_refuted : forall C, exists w, run C (world0 store1 (fun _ => 1%nat))
  [(conn1, []); (TStart 0 (Some 0%nat) e_ok, [OCmd 0 64 (repeat 7 16) 0 0]); (TFinish 0, [OStartRet 0 RNil]);
   (TPacket [4; 62; 3; 48; 64; 0] true, [ODeleted (rev peer); OReport 0 0 (mkInfo 48 (Some 48) true)])] w.
Proof.
  intro C. destruct (exec_start C store1 (fun _ => 1%nat) [conn1; TStart 0 (Some 0%nat) e_ok; TFinish 0; TPacket [4; 62; 3; 48; 64; 0] true] _ ltac:(vm_compute; reflexivity)) as (w & R & _).
  exists w. exact R.
Qed.

(** ** C129 (ideal): a caller of StartEncryption learns the outcome.  The report is lost if nobody is receiving at that moment from an unbuffered channel *)
Theorem C129_report_lost_refuted : forall C, exists w, run C (world0 store1 (fun _ => O))
  [(conn1, []); (TStart 0 (Some 0%nat) e_ok, [OCmd 0 64 (repeat 7 16) 0 0]); (TFinish 0, [OStartRet 0 RNil]); (changed 0 1, [OLost 0 0 on_info]); (TRecv 0, [])] w.
Proof.
  intro C. destruct (exec_start C store1 (fun _ => O) [conn1; TStart 0 (Some 0%nat) e_ok; TFinish 0; changed 0 1; TRecv 0] _ ltac:(vm_compute; reflexivity)) as (w & R & _). exists w. exact R.
Qed.
(** and a second call that fails takes away the channel of the first, which has returned nil *)
Definition e_refused : env := mkEnv true (repeat 0 16) true (Some 1) (Some bond1) true false.
Theorem C129_other_call_forgets_refuted : forall C, exists w, run C (world0 store1 (fun _ => 1%nat))
  [(conn1, []); (TStart 0 (Some 0%nat) e_ok, [OCmd 0 64 (repeat 7 16) 0 0]); (TFinish 0, [OStartRet 0 RNil]);
   (TStart 0 (Some 1%nat) e_refused, [OCmd 0 64 (repeat 7 16) 0 0]); (TFinish 0, [OStartRet 0 RError]); (TRecv 0, []); (changed 0 1, [])] w.
Proof.
  intro C. destruct (exec_start C store1 (fun _ => 1%nat) [conn1; TStart 0 (Some 0%nat) e_ok; TFinish 0; TStart 0 (Some 1%nat) e_refused; TFinish 0; TRecv 0; changed 0 1] _ ltac:(vm_compute; reflexivity)) as (w & R & _).
  exists w. exact R.
Qed.

(** ** C130 (ideal): a connection whose encryption has failed is not taken for encrypted.  Whatever the status, "enabled" is believed: StartEncryption then does nothing and returns nil *)
Theorem C130_failed_but_on_refuted : forall C, exists w, run C (world0 store1 (fun _ => 1%nat))
  [(conn1, []); (TStart 0 (Some 0%nat) e_ok, [OCmd 0 64 (repeat 7 16) 0 0]); (TFinish 0, [OStartRet 0 RNil]);
   (changed 6 1, [ODeleted (rev peer); OReport 0 0 (mkInfo 6 (Some 6) true)]); (TStart 0 (Some 1%nat) e_no, [OStartRet 0 RNil])] w.
Proof.
  intro C. destruct (exec_start C store1 (fun _ => 1%nat) [conn1; TStart 0 (Some 0%nat) e_ok; TFinish 0; changed 6 1; TStart 0 (Some 1%nat) e_no] _ ltac:(vm_compute; reflexivity)) as (w & R & _). exists w. exact R.
Qed.
Print Assumptions C127_failed_event_crashes_refuted.
Print Assumptions C127_calls_crash_refuted.
Print Assumptions C128_key_refresh_ignored_refuted.
Print Assumptions C128_reserved_subevent_refuted.
Print Assumptions C129_report_lost_refuted.
Print Assumptions C129_other_call_forgets_refuted.
Print Assumptions C130_failed_but_on_refuted.
