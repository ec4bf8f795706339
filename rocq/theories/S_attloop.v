(** Trace vocabulary for the attribute client's goroutines. *)
Require Import Verif.Base Verif.M_attcli Verif.M_attloop.
(** PDUs from the peer by their opcode (Core 3.4.8): requests and commands have even opcodes; 27 is a notification, 29 an
    indication, every other odd opcode a response *)
Definition opcode (b : bytes) : Z := match b with [] => 0 | c :: _ => c end.
Definition notification_pdu (b : bytes) : bool := (opcode b =? 27) || (opcode b =? 29).
Definition indication_pdu (b : bytes) : bool := opcode b =? 29.
Definition response_pdu (b : bytes) : bool := negb (Z.even (opcode b)) && negb (notification_pdu b).
(** requests sent whose call has not returned *)
Definition req_weight (e : ev) : Z := match e with ESent _ _ => 1 | EGot _ _ | EGave _ => -1 | _ => 0 end.
Definition open_requests (t : list ev) : Z := fold_right Z.add 0 (map req_weight t).
(** events that begin or end a request *)
Definition is_req_ev (e : ev) : Prop := match e with ESent _ _ | EGot _ _ | EGave _ => True | _ => False end.
(** response PDUs received; taken by a caller (returned or rejected) *)
Definition responses (t : list ev) : list bytes := flat_map (fun e => match e with ERx b => if response_pdu b then [b] else [] | _ => [] end) t.
Definition taken (t : list ev) : list bytes := flat_map (fun e => match e with EGot _ b | ERej _ b => [b] | _ => [] end) t.
(** notifications and indications received; dropped; handed to the handler *)
Definition notes (t : list ev) : list bytes := flat_map (fun e => match e with ERx b => if notification_pdu b then [b] else [] | _ => [] end) t.
Definition handed (t : list ev) : list bytes := flat_map (fun e => match e with ENotify b => [b] | _ => [] end) t.
Definition drops (t : list ev) : list bytes := flat_map (fun e => match e with EDrop b => [b] | _ => [] end) t.
Definition indications (t : list ev) : nat := length (filter (fun e => match e with ERx b => indication_pdu b | _ => false end) t).
Definition confirmations (t : list ev) : nat := length (filter (fun e => match e with ECfm => true | _ => false end) t).
(** l is an interleaving of a and b *)
Inductive merge {A} : list A -> list A -> list A -> Prop :=
| mg_nil : merge [] [] []
| mg_l : forall x a b l, merge a b l -> merge (x :: a) b (x :: l)
| mg_r : forall x a b l, merge a b l -> merge a (x :: b) (x :: l).
(** the peer sends a response only while a request is unanswered: every response received comes after a request with neither another
    response nor the end of the request in between *)
Definition polite (t : list ev) : Prop := forall t1 b t2, t = t1 ++ ERx b :: t2 -> response_pdu b = true ->
  exists u k req v, t1 = u ++ ESent k req :: v /\ Forall (fun e => ~ is_req_ev e /\ forall c, e = ERx c -> response_pdu c = false) v.
