(** Vocabulary for the claims about Scan, Find and Connect: executions, and which steps the program itself takes. *)
Require Import Verif.Base Verif.M_scan.

Inductive execs (k : kind) (sync late : bool) (f : adv -> bool) : st -> list act -> st -> Prop :=
| ex_nil : forall s, execs k sync late f s [] s
| ex_cons : forall s a s' l s'', exec k sync late f s a = Some s' -> execs k sync late f s' l s'' -> execs k sync late f s (a :: l) s''.
Definition reach (k : kind) (sync late : bool) (f : adv -> bool) (s : st) : Prop := exists l, execs k sync late f start l s.
(** steps of the program and of a controller that accepts the scan commands: everything but new reports, the end of the caller's context, time-outs and refusals *)
Definition internal (a : act) : bool := match a with AEmit _ _ | ACancel _ | ATimeout | ACtl false => false | _ => true end.
(** reports on their way to the handler or in it, in any place *)
Definition in_task (a : adv) (t : task) : Prop := match t with TNew b | TIn b | TGot b _ | TSend b => a = b | TDone => False end.
Definition in_flight (a : adv) (s : st) : Prop := In (ERep a) (s_q s) \/ (exists t, s_loop s = Some t /\ in_task a t) \/ (exists t, In t (s_gos s) /\ in_task a t).
Definition ended (s : st) : Prop := match s_main s with PRet _ | P7 _ => True | _ => False end.
