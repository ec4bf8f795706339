(** Specification of C170 and C171. *)
Require Import Verif.Base Verif.M_sock.
(** A process that has opened the transport: the other files of the process have other names and are not file 0. *)
Definition fresh (s : st) : Prop := exists other k, (0 < k)%nat /\ other own_fd = None /\ (forall n o, other n = Some o -> (0 < o < k)%nat) /\ s = start other k.
Definition runs (raw : bool) (s0 : st) (l : list act) (s : st) : Prop := fresh s0 /\ exec_all raw s0 l = Some s.
Definition is_call (s : st) (i : nat) (o : op) : Prop := exists p, nth_error (calls s) i = Some (mkCall o p).
Definition returned (s : st) (i : nat) (o : op) (r : res) : Prop := nth_error (calls s) i = Some (mkCall o (Fin r)).
(** The transport's file is no longer open. *)
Definition released (s : st) : Prop := forall n, table s n <> Some 0%nat.
(** What call i wrote and read: (file, bytes). *)
Definition bytes_of (i : nat) (l : list (nat * nat * bytes)) : list (nat * bytes) := map (fun x => (snd (fst x), snd x)) (filter (fun x => Nat.eqb (fst (fst x)) i) l).
(** Call i is in a system call that reads or closes the file, or that writes it. *)
Definition reading_or_closing (s : st) (i : nat) : Prop := exists c, nth_error (calls s) i = Some c /\ (k_ph c = RdPoll \/ k_ph c = RdSys \/ k_ph c = ClSys).
Definition writing (s : st) (i : nat) : Prop := exists c, nth_error (calls s) i = Some c /\ k_ph c = WrSys.
Definition of_call (i : nat) (a : act) : bool := match a with AStep j | APoll j _ | ARead j _ | AWrite j _ | ACloseFd j _ => Nat.eqb j i | _ => false end.
Definition can_go (raw : bool) (s : st) (i : nat) : Prop := exists a s', of_call i a = true /\ exec raw s a = Some s'.
(** Call i waits for a mutex that call j holds. *)
Definition waits_for (s : st) (i j : nat) : Prop := exists c, nth_error (calls s) i = Some c /\ i <> j /\ ((k_ph c = RdLock \/ k_ph c = ClRLock) /\ rmu s = Some j \/ k_ph c = WrLock /\ wmu s = Some j \/ k_ph c = ClLock /\ cmu s = Some j).
