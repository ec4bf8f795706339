(** Specification vocabulary for a client with an embedded server: said about what was seen. *)
Require Import Verif.Base Verif.M_attsrv Verif.M_srvloop Verif.S_srvloop Verif.M_dual.
Require Verif.M_attloop.

(** the two views of a history *)
Definition client_view (t : list uev) : list M_attloop.ev := flat_map (fun x => match x with UC e => [e] | US _ => [] end) t.
Definition server_view (t : list uev) : list vis := flat_map (fun x => match x with UC _ => [] | US v => [v] end) t.
(** the requests (PDUs with an even opcode, confirmations included) received from the peer, and those thrown away *)
Definition requests_in (t : list uev) : list bytes := flat_map (fun x => match x with UC (M_attloop.ERx b) => match b with [] => [] | c :: _ => if Z.even c then [b] else [] end | _ => [] end) t.
Definition thrown (t : list uev) : list bytes := flat_map (fun x => match x with UC (M_attloop.EDropReq b) => [b] | _ => [] end) t.
(** those given to the server *)
Definition given (t : list uev) : list bytes := flat_map (fun x => match x with UC (M_attloop.EServe b) => [b] | _ => [] end) t.
(** a history without what belongs to confirmations: they are handled as requests, and answered *)
Definition is_confirmation (p : bytes) : bool := match p with c :: _ => c =? 30 | [] => false end.
Definition not_confirmation (v : vis) : bool :=
  match v with VHandle _ p _ _ => negb (is_confirmation p) | VWrite SRsp (1 :: 30 :: _) _ => false | _ => true end.
Definition without_confirmations (t : list vis) : list vis := filter not_confirmation t.
(** what a caller of an own request is doing: a request of ours is on its way *)
Definition own_pending (t : list uev) : Prop := exists a k r b, t = a ++ UC (M_attloop.ESent k r) :: b /\
  Forall (fun x => match x with UC (M_attloop.EGot _ _) | UC (M_attloop.EGave _) => False | _ => True end) b.
