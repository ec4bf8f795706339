(** Observations for C189: what reaches the transport, and from which call. *)
Require Import Verif.Base Verif.S_l2cap Verif.M_l2cap Verif.M_aclw.

(** A controller with [cnt] buffers of [n] bytes of payload *)
Definition runs (cnt n : nat) (l : list act) (s : kst) : Prop := exec_all (k0 cnt n) l = Some s.
(** Connection handles have 12 bits. *)
Definition handles_ok (l : list act) : Prop := forall h v, In (AConnect h v) l -> 0 <= h < 4096.
(** Between the length check of a Write and the second look at the MTU, the MTU is not made smaller than the value being written. *)
Definition calm (cnt n : nat) (l : list act) : Prop := forall l1 c v l2 s t sdu, l = l1 ++ AMtu c v :: l2 -> runs cnt n l1 s ->
  nth_error (k_thr s) t = Some (mkT (KWrite c sdu) WLen) -> (length sdu <= v)%nat.
Definition call_of (s : kst) (t : nat) : option call := option_map t_call (nth_error (k_thr s) t).
Definition returned (s : kst) (t : nat) (ok : bool) : Prop := exists k, nth_error (k_thr s) t = Some (mkT k (Ended ok)).
Definition crashed (s : kst) : Prop := exists t k, nth_error (k_thr s) t = Some (mkT k Crashed).
(** What a call is to send: the value with its length and channel, or the PDU *)
Definition pdu_of (k : call) : bytes := match k with KWrite _ sdu => b_frame 4 sdu | KPdu _ p => p | KClose _ => [] end.
Definition handle_of (s : kst) (c : nat) : option Z := option_map c_handle (nth_error (k_conns s) c).
(** [cut n h p fs]: the ACL packets fs carry p in pieces of n bytes, the last possibly shorter, the first flagged start (0), the others continuing (1) *)
Inductive ccut (n : nat) (h : Z) : bytes -> list bytes -> Prop :=
| cc_nil : ccut n h [] []
| cc_cons : forall a b fs, (1 <= length a <= n)%nat -> b = [] \/ length a = n -> ccut n h b fs -> ccut n h (a ++ b) (acl h 1 a :: fs).
Definition cut (n : nat) (h : Z) (p : bytes) (fs : list bytes) : Prop :=
  exists a b fs', (1 <= length a <= n)%nat /\ (b = [] \/ length a = n) /\ p = a ++ b /\ fs = acl h 0 a :: fs' /\ ccut n h b fs'.
(** The packets of a call, those of a connection *)
Definition of_call (t : nat) (l : list (nat * bytes)) : list bytes := map snd (filter (fun p => Nat.eqb (fst p) t) l).
Definition on_conn (s : kst) (c : nat) (l : list (nat * bytes)) : list bytes :=
  map snd (filter (fun p => match call_of s (fst p) with Some k => Nat.eqb (conn_of k) c | None => false end) l).
Definition none_of (t : nat) (l : list (nat * bytes)) : Prop := forall p, ~ In (t, p) l.
(** The connection has been declared closed. *)
Definition closed (s : kst) (c : nat) : Prop := exists x, nth_error (k_conns s) c = Some x /\ c_done x = true.
(** Call [t] can go on by itself. *)
Definition can (s : kst) (t : nat) : Prop := exists s', exec s (AStep t) = Some s' \/ exec s (AWrite t true) = Some s'.
(** The steps of call [t] in a run *)
Definition own (t : nat) (l : list act) : nat := length (filter (fun a => match a with AStep u => Nat.eqb u t | AWrite u _ => Nat.eqb u t | _ => false end) l).
