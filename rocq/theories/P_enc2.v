(** The invariant relating the state to the history. *)
Require Import Verif.Base Verif.M_smp Verif.M_enc Verif.S_enc Verif.P_enc.
Require Verif.M_hci Verif.S_smp.

Section Inv.
Variable C : prims.
Variables (t : list (bytes * bondinfo)) (cap : nat -> nat).

(** The Security Manager of a connection has only taken steps of M_smp. *)
Definition smp_at (cr : created) (s : smp) : Prop :=
  cr_sec cr = true /\ p_raddr (ctx s) = rev (cr_peer cr) /\
  exists la lat rat ls, srun C (smp_new la (cr_peer cr) lat rat) ls s.
Record conn_ok (l : history) (i : nat) (c : conn) : Prop := {
  K_cr : exists cr, conn_of l i = Some cr /\ c_handle c = cr_handle cr /\
           match c_smp c with Some s => smp_at cr s | None => cr_sec cr = false end;
  K_stk : forall s, c_smp c = Some s -> p_stk (ctx s) <> [] -> short_term_key l i (key_field (p_stk (ctx s)));
  K_en : c_enabled c = encrypted l i;
  K_info : c_info c = last_info l i;
  K_ch : c_ch c = listener l i }.
Definition virgin (l : history) (i : nat) : Prop := encrypted l i = false /\ last_info l i = info0 /\ listener l i = None.
Record chan_ok (l : history) (k : nat) (c : chan) : Prop := {
  H_cap : ch_cap c = cap k;
  H_fifo : put_in l k = taken_out l k ++ ch_buf c;
  H_wait : receives l k = (length (taken_out l k) + leaves l k + ch_wait c)%nat;
  H_buf : (length (ch_buf c) <= cap k)%nat;
  H_excl : (0 < ch_wait c)%nat -> ch_buf c = [] }.
Definition ncalls (i : nat) (l : list call) : nat := length (filter (fun c => Nat.eqb (l_conn c) i) l).
(** The goroutine of a call of StartEncryption on a connection that was encrypted already. *)
Definition sender_ok (l : history) (s : sender) : Prop :=
  exists l0 e l1, l = l0 ++ (TStart (s_conn s) (Some (s_chan s)) e, [OStartRet (s_conn s) RNil]) :: l1 /\
    encrypted l0 (s_conn s) = true /\
    match s_val s with
    | None => True
    | Some v => exists l2 l3, l1 = l2 ++ l3 /\ v = last_info (l0 ++ (TStart (s_conn s) (Some (s_chan s)) e, [OStartRet (s_conn s) RNil]) :: l2) (s_conn s)
    end.
Record Inv (l : history) (w : world) : Prop := {
  J_len : length (conns w) = length (created_in l);
  J_conn : forall i c, nth_error (conns w) i = Some c -> conn_ok l i c;
  J_new : forall i, (length (conns w) <= i)%nat -> virgin l i;
  J_tab : forall h, assoc h (tab w) = owner l h;
  J_tabv : forall h i, assoc h (tab w) = Some i -> (i < length (conns w))%nat;
  J_store : forall a, find_bond a (bonds w) = stored t l a;
  J_chan : forall k, chan_ok l k (chans w k);
  J_calls : forall c, In c (calls w) -> (l_conn c < length (conns w))%nat;
  J_count : forall i, starts_of l i = (returns_of l i + ncalls i (calls w))%nat;
  J_send : forall s, In s (senders w) -> sender_ok l s }.

Lemma inv0 : Inv [] (world0 t cap).
Proof.
  split; cbn; try reflexivity.
  - intros i c H. now destruct i.
  - intros i _. split; [reflexivity|]. split; reflexivity.
  - intros; discriminate.
  - intro k. split; cbn; try reflexivity. lia.
  - intros c [].
  - intros s [].
Qed.

(** What a new entry of the history changes for a connection. *)
Lemma encrypted_snoc : forall l a o i, encrypted (l ++ [(a, o)]) i = on_step i (encrypted l i) l a o.
Proof. intros. unfold encrypted. now rewrite fold_hist_snoc. Qed.
Lemma info_snoc : forall l a o i, last_info (l ++ [(a, o)]) i = info_step i (last_info l i) l a o.
Proof. intros. unfold last_info. now rewrite fold_hist_snoc. Qed.
Lemma listener_snoc : forall l a o i, listener (l ++ [(a, o)]) i = listener_step i (listener l i) l a o.
Proof. intros. unfold listener. now rewrite fold_hist_snoc. Qed.

(** Entries that say nothing about connections. *)
Definition dull (l : history) (a : act) (o : list obs) : Prop :=
  (forall i e, on_step i e l a o = e) /\ (forall i v, info_step i v l a o = v) /\ (forall i c, listener_step i c l a o = c).
Definition no_conn (a : act) : Prop := match a with TConnect _ _ _ _ _ _ => False | _ => True end.
Lemma conn_of_old : forall l a o i cr, conn_of l i = Some cr -> conn_of (l ++ [(a, o)]) i = Some cr.
Proof.
  intros l a o i cr H. unfold conn_of in *. rewrite created_snoc. rewrite nth_error_app1; [exact H|]. apply nth_error_Some. congruence.
Qed.
Lemma stk_snoc : forall l x i k, short_term_key l i k -> short_term_key (l ++ [x]) i k.
Proof.
  intros l x i k (l1 & e & pdu & o & l2 & r & h & -> & A & B). exists l1, e, pdu, o, (l2 ++ [x]), r, h.
  split; [now rewrite <- app_assoc|]. split; assumption.
Qed.
Lemma conn_ok_dull : forall l a o i c, dull l a o -> conn_ok l i c -> conn_ok (l ++ [(a, o)]) i c.
Proof.
  intros l a o i c (D1 & D2 & D3) [(cr & A & B & S) K E I L]. split.
  - exists cr. split; [now apply conn_of_old|]. split; assumption.
  - intros s Hs N. now apply stk_snoc, K.
  - now rewrite encrypted_snoc, D1.
  - now rewrite info_snoc, D2.
  - now rewrite listener_snoc, D3.
Qed.
Lemma virgin_dull : forall l a o i, dull l a o -> virgin l i -> virgin (l ++ [(a, o)]) i.
Proof.
  intros l a o i (D1 & D2 & D3) (E & I & L). split; [now rewrite encrypted_snoc, D1|]. split; [now rewrite info_snoc, D2|now rewrite listener_snoc, D3].
Qed.
Lemma sender_ok_snoc : forall l x s, sender_ok l s -> sender_ok (l ++ [x]) s.
Proof.
  intros l x s (l0 & e & l1 & -> & E & V). exists l0, e, (l1 ++ [x]). split; [now rewrite <- app_assoc|]. split; [exact E|].
  destruct (s_val s) as [v|]; [|exact Logic.I]. destruct V as (l2 & l3 & -> & V). exists l2, (l3 ++ [x]). split; [now rewrite app_assoc|exact V].
Qed.
(** An entry that touches no channel. *)
Definition quiet_chan (a : act) (o : list obs) : Prop :=
  (forall k, puts o k = []) /\ (forall k, gots o k = []) /\ match a with TRecv _ | TLeave _ => False | _ => True end.
Lemma chan_ok_quiet : forall l a o k c, quiet_chan a o -> chan_ok l k c -> chan_ok (l ++ [(a, o)]) k c.
Proof.
  intros l a o k c (P & G & A) [H1 H2 H3 H4 H5].
  assert (R : receives (l ++ [(a, o)]) k = receives l k) by (rewrite receives_snoc; destruct a; cbn in A; try contradiction; lia).
  assert (L : leaves (l ++ [(a, o)]) k = leaves l k) by (rewrite leaves_snoc; destruct a; cbn in A; try contradiction; lia).
  assert (PI : put_in (l ++ [(a, o)]) k = put_in l k) by (rewrite put_snoc, P; apply app_nil_r).
  assert (TO : taken_out (l ++ [(a, o)]) k = taken_out l k) by (rewrite took_snoc, G; apply app_nil_r).
  split.
  - exact H1.
  - now rewrite PI, TO.
  - now rewrite R, TO, L.
  - exact H4.
  - exact H5.
Qed.
Lemma not_returned : forall o i, rets o i = O -> returned i o = false.
Proof.
  intros o i. unfold rets, returned. induction o as [|x o IH]; [reflexivity|]. cbn. destruct x; cbn; try exact IH.
  destruct (Nat.eqb i0 i); cbn; [discriminate|exact IH].
Qed.
Lemma failed_returned : forall o i, returned i o = false -> failed i o = false.
Proof.
  intros o i. unfold returned, failed. induction o as [|x o IH]; [reflexivity|]. cbn. destruct x; cbn; try exact IH.
  destruct r; cbn; destruct (Nat.eqb i0 i); cbn; try discriminate; exact IH.
Qed.
Lemma store_quiet : forall o l a, (forall x, In x o -> match x with OSaved _ _ | ODeleted _ => False | _ => True end) ->
  forall k, stored t (l ++ [(a, o)]) k = stored t l k.
Proof.
  intros o l a H k. rewrite stored_snoc. generalize (stored t l). revert H. induction o as [|x o IH]; intros H s; [reflexivity|]. cbn.
  rewrite IH by (intros y Hy; apply H; now right). specialize (H x (or_introl eq_refl)). now destruct x.
Qed.

(** ** Channels *)
Lemma chans_set : forall k c w j, chans (set_chan k c w) j = if Nat.eqb j k then c else chans w j.
Proof. reflexivity. Qed.
Lemma send_some : forall k v w w' o, chan_send k v w = Some (w', o) -> exists c, w' = set_chan k c w.
Proof.
  intros k v w w' o H. unfold chan_send in H. destruct (Nat.ltb 0 (ch_wait (chans w k))).
  - injection H as <- <-. eexists. reflexivity.
  - destruct (Nat.ltb (length (ch_buf (chans w k))) (ch_cap (chans w k))); [|discriminate]. injection H as <- <-. eexists. reflexivity.
Qed.
(** A successful send keeps the account of every channel. *)
Lemma send_ok : forall l a i k v w w' o pre, chan_send k v w = Some (w', o) ->
  (forall j, chan_ok l j (chans w j)) -> (forall j, puts pre j = []) -> (forall j, gots pre j = []) ->
  match a with TRecv _ | TLeave _ => False | _ => True end ->
  forall j, chan_ok (l ++ [(a, pre ++ OReport i k v :: o)]) j (chans w' j).
Proof.
  intros l a i k v w w' o pre H Hc P G A j.
  assert (R : receives (l ++ [(a, pre ++ OReport i k v :: o)]) j = receives l j) by (rewrite receives_snoc; destruct a; cbn in A; try contradiction; lia).
  assert (L : leaves (l ++ [(a, pre ++ OReport i k v :: o)]) j = leaves l j) by (rewrite leaves_snoc; destruct a; cbn in A; try contradiction; lia).
  assert (PI : put_in (l ++ [(a, pre ++ OReport i k v :: o)]) j = put_in l j ++ (if Nat.eqb k j then [v] else []) ++ puts o j).
  { rewrite put_snoc. unfold puts. rewrite flat_map_app. fold (puts pre j). rewrite P. cbn [flat_map app]. reflexivity. }
  assert (TO : taken_out (l ++ [(a, pre ++ OReport i k v :: o)]) j = taken_out l j ++ gots o j).
  { rewrite took_snoc. unfold gots at 1. rewrite flat_map_app. fold (gots pre j). rewrite G. reflexivity. }
  unfold chan_send in H. pose proof (Hc k) as [K1 K2 K3 K4 K5].
  destruct (Nat.ltb_spec 0 (ch_wait (chans w k))) as [W|W].
  - injection H as <- <-. rewrite chans_set. pose proof (K5 W) as KB. rewrite KB in *. cbn [puts gots flat_map] in PI, TO. rewrite app_nil_r in PI, TO.
    destruct (Nat.eqb_spec j k) as [->|N].
    + rewrite Nat.eqb_refl in *. split; cbn [ch_cap ch_buf ch_wait].
      * exact K1.
      * rewrite PI, TO, K2. now rewrite !app_nil_r.
      * rewrite R, TO, L, K3, app_length. cbn [length]. lia.
      * cbn. lia.
      * reflexivity.
    + destruct (Nat.eqb_spec k j); [congruence|]. rewrite app_nil_r in PI, TO. destruct (Hc j) as [M1 M2 M3 M4 M5]. split; try assumption; congruence.
  - destruct (Nat.ltb_spec (length (ch_buf (chans w k))) (ch_cap (chans w k))) as [B|B]; [|discriminate].
    injection H as <- <-. rewrite chans_set. cbn [puts gots flat_map] in PI, TO. rewrite app_nil_r in PI, TO.
    destruct (Nat.eqb_spec j k) as [->|N].
    + rewrite Nat.eqb_refl in *. split; cbn [ch_cap ch_buf ch_wait].
      * exact K1.
      * rewrite PI, TO, K2. now rewrite app_assoc.
      * rewrite R, TO, L, K3. reflexivity.
      * rewrite app_length. cbn [length]. lia.
      * lia.
    + destruct (Nat.eqb_spec k j); [congruence|]. rewrite app_nil_r in PI. destruct (Hc j) as [M1 M2 M3 M4 M5]. split; try assumption; congruence.
Qed.
Lemma recv_ok : forall l k w, (forall j, chan_ok l j (chans w j)) ->
  forall j, chan_ok (l ++ [(TRecv k, snd (recv k w))]) j (chans (fst (recv k w)) j).
Proof.
  intros l k w Hc j. unfold recv. pose proof (Hc k) as [K1 K2 K3 K4 K5]. destruct (ch_buf (chans w k)) as [|v r] eqn:E; cbn [fst snd].
  - rewrite chans_set. assert (PI : put_in (l ++ [(TRecv k, [])]) j = put_in l j) by (rewrite put_snoc; apply app_nil_r).
    assert (TO : taken_out (l ++ [(TRecv k, [])]) j = taken_out l j) by (rewrite took_snoc; apply app_nil_r).
    pose proof (receives_snoc l (TRecv k) [] j) as R. pose proof (leaves_snoc l (TRecv k) [] j) as L. cbn [Nat.add] in R, L.
    destruct (Nat.eqb_spec j k) as [->|N].
    + rewrite Nat.eqb_refl in R. split; cbn [ch_cap ch_buf ch_wait].
      * exact K1. * now rewrite PI, TO. * rewrite R, TO, L, K3. lia. * cbn. lia. * reflexivity.
    + destruct (Nat.eqb_spec k j); [congruence|]. destruct (Hc j) as [M1 M2 M3 M4 M5]. split; try assumption.
      * congruence. * rewrite R, TO, L, M3. lia.
  - rewrite chans_set. assert (PI : put_in (l ++ [(TRecv k, [OGot k v])]) j = put_in l j) by (rewrite put_snoc; apply app_nil_r).
    assert (TO : taken_out (l ++ [(TRecv k, [OGot k v])]) j = taken_out l j ++ (if Nat.eqb k j then [v] else [])) by (rewrite took_snoc; cbn; now rewrite app_nil_r).
    pose proof (receives_snoc l (TRecv k) [OGot k v] j) as R. pose proof (leaves_snoc l (TRecv k) [OGot k v] j) as L. cbn [Nat.add] in R, L.
    destruct (Nat.eqb_spec j k) as [->|N].
    + rewrite Nat.eqb_refl in *. split; cbn [ch_cap ch_buf ch_wait].
      * exact K1. * rewrite PI, TO, K2. now rewrite <- app_assoc. * rewrite R, TO, L, K3, app_length. cbn [length]. lia. * cbn [length] in K4. lia.
      * intro W. specialize (K5 W). discriminate.
    + destruct (Nat.eqb_spec k j); [congruence|]. rewrite app_nil_r in TO. destruct (Hc j) as [M1 M2 M3 M4 M5]. split; try assumption.
      * congruence. * rewrite R, TO, L, M3. lia.
Qed.
Lemma leave_ok : forall l k w w', leave k w = Some w' -> (forall j, chan_ok l j (chans w j)) ->
  forall j, chan_ok (l ++ [(TLeave k, [])]) j (chans w' j).
Proof.
  intros l k w w' H Hc j. unfold leave in H. pose proof (Hc k) as [K1 K2 K3 K4 K5]. destruct (ch_wait (chans w k)) as [|n] eqn:E; [discriminate|].
  injection H as <-. rewrite chans_set. assert (PI : put_in (l ++ [(TLeave k, [])]) j = put_in l j) by (rewrite put_snoc; apply app_nil_r).
  assert (TO : taken_out (l ++ [(TLeave k, [])]) j = taken_out l j) by (rewrite took_snoc; apply app_nil_r).
  pose proof (receives_snoc l (TLeave k) [] j) as R. pose proof (leaves_snoc l (TLeave k) [] j) as L. cbn [Nat.add] in R, L.
  destruct (Nat.eqb_spec j k) as [->|N].
  - rewrite Nat.eqb_refl in L. split; cbn [ch_cap ch_buf ch_wait].
    * exact K1. * now rewrite PI, TO. * rewrite R, TO, L, K3. lia. * exact K4. * intros _. apply K5. lia.
  - destruct (Nat.eqb_spec k j); [congruence|]. destruct (Hc j) as [M1 M2 M3 M4 M5]. split; try assumption.
    * congruence. * rewrite R, TO, L, M3. lia.
Qed.
(** Whether the send succeeds is visible. *)
Lemma send_accepts : forall l k v w, chan_ok l k (chans w k) -> (chan_send k v w <> None <-> accepts cap l k).
Proof.
  intros l k v w [K1 K2 K3 K4 K5]. unfold chan_send, accepts. apply (f_equal (@length _)) in K2. rewrite app_length in K2.
  destruct (Nat.ltb_spec 0 (ch_wait (chans w k))).
  - split; [intros _; left; lia|discriminate].
  - destruct (Nat.ltb_spec (length (ch_buf (chans w k))) (ch_cap (chans w k))).
    + split; [intros _; right; lia|discriminate].
    + split; [congruence|]. intros [A|A]; lia.
Qed.
End Inv.
