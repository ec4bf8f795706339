(** Specification of C166 to C169: observations on executions of M_sig. *)
Require Import Verif.Base Verif.M_sig.
(** [l] can be executed from the start of the process and leads to [s]. *)
Definition runs (l : list act) (s : sys) : Prop := exec_all sys0 l = Some s.
(** Call i is in its device operation (advertising, scanning, dialling). *)
Definition in_operation (s : sys) (i : nat) : Prop := exists c r, nth_error (calls s) i = Some c /\ c_pc c = IOp :: r.
(** Call i has returned. *)
Definition returned (s : sys) (i : nat) : Prop := exists c, nth_error (calls s) i = Some c /\ c_pc c = [].
(** Call i was given a context with a handler. *)
Definition with_handler (s : sys) (i : nat) : Prop :=
  exists c x, nth_error (calls s) i = Some c /\ nth_error (ctxs s) (c_given c) = Some x /\ x_handler x = true.
(** The context given to call i, or the one derived from it, has ended. *)
Definition ctx_ended (s : sys) (i : nat) : Prop :=
  exists c, nth_error (calls s) i = Some c /\ exists x v, nth_error (ctxs s) x = Some v /\ x_done v = true /\ (x = c_given c \/ x_parent v = Some (c_given c)).
(** The call on whose behalf goroutine t waits for signals. *)
Definition owner (s : sys) (t : nat) : option nat := match nth_error (traps s) t with Some v => Some (t_call v) | None => None end.
(** How often the handler was called on behalf of call i along [l], which ends in [s]. *)
Definition onat_eqb (o : option nat) (i : nat) : bool := match o with Some j => Nat.eqb j i | None => false end.
Definition handler_calls (l : list act) (s : sys) (i : nat) : nat :=
  length (filter (fun a => match a with AFire t => onat_eqb (owner s t) i | _ => false end) l).
(** An interrupt came while call i was in progress (had begun and not returned). *)
Definition interrupted (l : list act) (i : nat) : Prop :=
  exists l1 l2 s1 c, l = l1 ++ ASignal :: l2 /\ runs l1 s1 /\ nth_error (calls s1) i = Some c /\ c_pc c <> [].
