(** Specification of C39 over execution traces: what an observer of the calls of Send and of the HCI socket sees. *)
Require Import Verif.Base Verif.M_hcicmd.

(** A trace that the code can execute from start-up, ending in state [s]. *)
Definition runs (l : list act) (s : hst) : Prop := exec_all hinit l = Some s.

(** Call [t] sent opcode [op]; its packet was written to the socket; it returned. *)
Definition called (l : list act) (t : nat) (op : Z) : Prop := In (ASpawn t op) l.
Definition written (l : list act) (t : nat) : Prop := exists ok, In (AWrite t ok) l.
Definition returned (l : list act) (t : nat) : Prop := In (AUnlock t) l \/ In (ANoBuf t) l \/ In (AShut t) l.

Definition is_evt (a : act) : Prop := match a with AEvt _ _ => True | _ => False end.
(** Opcode and data completed by an event, command allowance carried by it. *)
Definition completes (a : act) : option (Z * bytes) := match a with AEvt c b => snd (evt_effect c b) | _ => None end.
Definition allowance (a : act) : option Z := match a with AEvt c b => fst (evt_effect c b) | _ => None end.

(** Numbers of commands with opcode [op] written, of events completing [op]. *)
Fixpoint op_of (l : list act) (t : nat) : option Z :=
  match l with
  | [] => None
  | ASpawn t' op :: r => if Nat.eqb t' t then Some op else op_of r t
  | _ :: r => op_of r t
  end.
Definition is_write_of (l : list act) (op : Z) (a : act) : bool :=
  match a with AWrite t _ => match op_of l t with Some o => o =? op | None => false end | _ => false end.
Definition writes (op : Z) (l : list act) : nat := length (filter (is_write_of l op) l).
Definition is_completion_of (op : Z) (a : act) : bool := match completes a with Some (o, _) => o =? op | None => false end.
Definition completions (op : Z) (l : list act) : nat := length (filter (is_completion_of op) l).

(** A well-behaved controller: it completes an opcode only when it has received more commands with that opcode than it has
    completed; no time-out fires, the device is not closed, no socket error; no vendor specific commands. *)
Definition honest (l : list act) : Prop :=
  (forall l1 a l2 op d, l = l1 ++ a :: l2 -> completes a = Some (op, d) -> (completions op l1 < writes op l1)%nat) /\
  Forall (fun a => match a with
                   | ATimeout _ | AClose | AStop | AReadErr => False
                   | AWrite _ ok => ok = true
                   | ASpawn _ op => op / 1024 <> 63
                   | AEvt c _ => c <> 255
                   | _ => True
                   end) l.

(** The controller's flow control (Core Spec Vol 4 Part E 4.4): one command may be sent at first; an event sets the number of
    commands that may be sent from now on; a command uses up one.  The host must never send when it is zero. *)
Fixpoint credit_ok (c : Z) (l : list act) : Prop :=
  match l with
  | [] => True
  | a :: r =>
      match a, allowance a with
      | AWrite _ _, _ => 0 < c /\ credit_ok (c - 1) r
      | _, Some n => credit_ok n r
      | _, None => credit_ok c r
      end
  end.
