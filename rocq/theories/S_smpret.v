(** Calls of Pair and their returns (C176), on traces: what was done, and the events each step produced. *)
Require Import Verif.Base Verif.M_smp.
Local Open Scope nat_scope.

Definition is_pair (x : sact) : bool := match x with APair _ _ _ => true | _ => false end.
Definition is_ret (x : ev) : bool := match x with EPairRet _ => true | _ => false end.
Definition is_success (x : ev) : bool := match x with EPairRet true => true | _ => false end.
(** the calls of Pair, their returns, the successful ones *)
Definition calls (l : list (sact * list ev)) : nat := length (filter (fun x => is_pair (fst x)) l).
Definition returns (l : list (sact * list ev)) : nat := length (filter is_ret (flat_map snd l)).
Definition successes (l : list (sact * list ev)) : nat := length (filter is_success (flat_map snd l)).
(** the calls that did not return at once *)
Definition waits (x : sact * list ev) : bool := is_pair (fst x) && negb (existsb is_ret (snd x)).
