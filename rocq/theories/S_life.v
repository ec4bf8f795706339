(** Vocabulary for the claims about the incoming packet path: executions and states without a step of the program. *)
Require Import Verif.Base Verif.M_life.
Inductive execs (raw eh : bool) : st -> list act -> st -> Prop :=
| ex_nil : forall s, execs raw eh s [] s
| ex_cons : forall s a s' l s'', exec raw eh s a = Some s' -> execs raw eh s' l s'' -> execs raw eh s (a :: l) s''.
Definition reach (raw eh : bool) (s : st) : Prop := exists l, execs raw eh (start raw) l s.
(** no step of the program is possible *)
Definition quiet (raw eh : bool) (s : st) : Prop := forall a, internal a = true -> exec raw eh s a = None.
Definition stopped (s : st) : Prop := l_r s = REnd /\ l_w s = WEnd /\ l_open s = false.
