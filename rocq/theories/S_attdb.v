(** Specification vocabulary for the attribute table: what is declared, in which order, at which handles. *)
Require Import Verif.Base Verif.M_attdb.

(** does the characteristic get a client configuration descriptor of its own when published *)
Definition notifying (c : char) : bool := match c_nh c, c_ih c with None, None => false | _, _ => true end.
(** the Client Characteristic Configuration descriptor (0x2902): readable and writable with and without response *)
Definition ccc_desc : desc := mkDesc [2; 41] 14 None (Some DCccd) (Some DCccd).
Definition own_descs (c : char) : list desc := c_descs c ++ (if notifying c then [ccc_desc] else []).
(** attribute types in declaration order *)
Definition char_types (c : char) : list bytes := [3; 40] :: c_uuid c :: map d_uuid (own_descs c).
Definition svc_types (s : service) : list bytes := [0; 40] :: flat_map char_types (s_chars s).
Definition table_types (ss : list service) : list bytes := flat_map svc_types ss.
Definition table_size (ss : list service) : Z := Z.of_nat (length (table_types ss)).
(** handles are consecutive *)
Definition consecutive (base : Z) (l : list attr) : Prop := forall i a, nth_error l i = Some a -> a_h a = base + Z.of_nat i.
Definition in_range (s e : Z) (a : attr) : bool := (s <=? a_h a) && (a_h a <=? e).
(** a table whose handles are consecutive and fit 16 bits *)
Definition wf_db (d : dbt) : Prop :=
  1 <= db_base d /\ db_base d + Z.of_nat (length (db_attrs d)) <= 65536 /\ consecutive (db_base d) (db_attrs d).

(** the configuration calls an application makes on a characteristic *)
Inductive cfg := SetValue (b : bytes) | HandleRead (h : nat) | HandleWrite (h : nat) | HandleNotify (h : nat) | HandleIndicate (h : nat) | AddDescriptor (d : desc).
Definition cfg_step (c : char) (o : cfg) : go char :=
  match o with
  | SetValue b => c_set_value c b
  | HandleRead h => c_handle_read c h
  | HandleWrite h => Ret (c_handle_write c h)
  | HandleNotify h => Ret (c_handle_notify c h)
  | HandleIndicate h => Ret (c_handle_indicate c h)
  | AddDescriptor d => add_desc c d
  end.
Fixpoint cfg_run (c : char) (l : list cfg) : go char :=
  match l with [] => Ret c | o :: r => let! c' := cfg_step c o in cfg_run c' r end.
(** the same for a descriptor *)
Inductive dcfg := DSetValue (b : bytes) | DHandleRead (h : nat) | DHandleWrite (h : nat).
Definition dcfg_step (d : desc) (o : dcfg) : go desc :=
  match o with DSetValue b => d_set_value d b | DHandleRead h => d_handle_read d (DUser h) | DHandleWrite h => Ret (d_handle_write d (DUser h)) end.
Fixpoint dcfg_run (d : desc) (l : list dcfg) : go desc :=
  match l with [] => Ret d | o :: r => let! d' := dcfg_step d o in dcfg_run d' r end.
Fixpoint add_chars (s : service) (l : list char) : go service :=
  match l with [] => Ret s | c :: r => let! s' := add_char s c in add_chars s' r end.
Definition is_some {A} (x : option A) : bool := match x with Some _ => true | None => false end.
(** the property bits a configuration deserves *)
Definition deserved (c : char) : Z :=
  (if is_some (c_value c) || is_some (c_rh c) then 2 else 0) + (if is_some (c_wh c) then 12 else 0)
  + (if is_some (c_nh c) then 16 else 0) + (if is_some (c_ih c) then 32 else 0).
(** number of notifying characteristics *)
Definition n_notifying (ss : list service) : nat := length (filter notifying (flat_map s_chars ss)).
(** same attribute up to the end of its group *)
Definition same_but_end (a b : attr) : Prop :=
  a_h a = a_h b /\ a_typ a = a_typ b /\ a_v a = a_v b /\ a_rh a = a_rh b /\ a_wh a = a_wh b.
