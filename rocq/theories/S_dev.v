(** Specification vocabulary for a device as a peripheral: everything is said about the history. *)
Require Import Verif.Base Verif.M_attdb Verif.S_attdb Verif.M_attsrv Verif.M_srvloop Verif.S_srvloop Verif.M_dev.

Notation dhist := (list (dact * list vis)).
(** how many service objects exist: two sets of two default services, those of the application, two for each removal or setting *)
Definition created1 (x : dact) : nat := match x with DNew _ => 1 | DRemoveAll _ | DSet _ _ => 2 | _ => 0 end.
Fixpoint created (h : dhist) : nat := match h with [] => 4 | (x, _) :: r => created1 x + created r end.
(** the services published after x, if before it there were [n] objects and [p] was published *)
Definition pub1 (n : nat) (p : list nat) (x : dact) : list nat :=
  match x with DAdd k => p ++ [k] | DRemoveAll _ => [n; S n] | DSet _ ks => [n; S n] ++ ks | _ => p end.
Definition publishes (x : dact) : bool := match x with DAdd _ | DRemoveAll _ | DSet _ _ => true | _ => false end.
Fixpoint pub_from (n : nat) (p : list nat) (h : dhist) : list nat :=
  match h with [] => p | (x, _) :: r => pub_from (n + created1 x) (pub1 n p x) r end.
Definition published (h : dhist) : list nat := pub_from 4 [0; 1]%nat h.
(** the objects of the current table: the first one was made from default services of its own *)
Definition in_table (h : dhist) : list nat := if existsb (fun e => publishes (fst e)) h then published h else [2; 3]%nat.
(** the objects whose handles x assigns *)
Definition assigned (h : dhist) (x : dact) : list nat := if publishes x then pub1 (created h) (published h) x else [].

Definition accepts (h : dhist) : nat := length (filter (fun e => match fst e with DAccept => true | _ => false end) h).
(** what happened on connection i *)
Definition acts_of (i : nat) (h : dhist) : list act := flat_map (fun e => match fst e with DConn j a => if Nat.eqb j i then [a] else [] | _ => [] end) h.
Definition seen_on (i : nat) (h : dhist) : list vis := flat_map (fun e => match fst e with DConn j _ => if Nat.eqb j i then snd e else [] | _ => [] end) h.
(** nothing in h2 assigns handles to a service that is in the table after h1 *)
Definition undisturbed (h1 h2 : dhist) : Prop :=
  forall x e y, h2 = x ++ e :: y -> forall k, In k (assigned (h1 ++ x) (fst e)) -> ~ In k (in_table h1).

(** A table without what the configuration descriptors remember of their characteristic: handles, types, values, user handlers *)
Definition plain_ah (h : ah) : ah := match h with AUser i => AUser i | ACccd _ => ACccd (mkCI 0 0 0 None None) end.
Definition plain_attr (a : attr) : attr := mkAttr (a_h a) (a_endh a) (a_typ a) (a_v a) (option_map plain_ah (a_rh a)) (option_map plain_ah (a_wh a)).
Definition plain (d : dbt) : dbt := mkDB (map plain_attr (db_attrs d)) (db_base d).

(** The services as they were created *)
Definition made1 (name : bytes) (x : dact) : list service :=
  match x with DNew s => [s] | DRemoveAll n => default_services name n | DSet n _ => default_services name n | _ => [] end.
Definition objects (name : bytes) (h : dhist) : list service := default_services name 0 ++ default_services name 1 ++ flat_map (fun e => made1 name (fst e)) h.
(** a characteristic as created, but for handles and configuration descriptors added at its end (only if it notifies or indicates) *)
Definition same_char (c c' : char) : Prop :=
  c_uuid c' = c_uuid c /\ c_prop c' = c_prop c /\ c_value c' = c_value c /\ c_rh c' = c_rh c /\ c_wh c' = c_wh c /\ c_nh c' = c_nh c /\ c_ih c' = c_ih c /\
  (exists n, c_descs c' = c_descs c ++ repeat ccc_desc n) /\ (c_nh c = None -> c_ih c = None -> c_descs c' = c_descs c).
Definition same_service (s s' : service) : Prop := s_uuid s' = s_uuid s /\ Forall2 same_char (s_chars s) (s_chars s').
