(** Specification vocabulary for the attribute server: what each response must contain, in terms of the table, the MTU and the values. *)
Require Import Verif.Base Verif.M_attdb Verif.S_attdb Verif.M_attsrv.

Fixpoint take_while {A} (p : A -> bool) (l : list A) : list A :=
  match l with [] => [] | x :: r => if p x then x :: take_while p r else [] end.
(** request PDUs *)
Definition req_range (op st en : Z) (rest : bytes) : bytes := [op] ++ le16 st ++ le16 en ++ rest.
Definition req_handle (op h : Z) (rest : bytes) : bytes := [op] ++ le16 h ++ rest.
(** error response: opcode in error, handle, code *)
Definition error_pdu (op h code : Z) : bytes := [1; op] ++ le16 h ++ [code].
(** the attributes a range request addresses *)
Definition between (d : dbt) (st en : Z) : list attr := filter (fun a => (st <=? a_h a) && (a_h a <=? en)) (db_attrs d).
Definition has_type (ty : bytes) (a : attr) : bool := if list_eq_dec Z.eq_dec (a_typ a) ty then true else false.
Definition ok_range (st en : Z) : Prop := 1 <= st <= en /\ en <= 65535.

(** Find Information: the longest run of one UUID size that fits *)
Definition info_entry (a : attr) : bytes := le16 (a_h a) ++ a_typ a.
Definition find_info_spec (mtu : nat) (l : list attr) : option bytes :=
  match l with
  | [] => None
  | a :: _ => let sz := length (a_typ a) in
      let run := take_while (fun b => Nat.eqb (length (a_typ b)) sz) l in
      Some ([5; if Nat.eqb sz 16 then 2 else 1] ++ flat_map info_entry (firstn ((mtu - 2) / (2 + sz)) run))
  end.
(** Find By Type Value: handle and group end of the attributes with that type and value, as many as fit *)
Definition group_entry (a : attr) : bytes := le16 (a_h a) ++ le16 (a_endh a).
Definition find_by_type_spec (mtu : nat) (l : list attr) (ty val : bytes) : option bytes :=
  match filter (fun a => has_type ty a && match a_v a with Some v => beq_bytes v val | None => false end) l with
  | [] => None
  | m => Some ([7] ++ flat_map group_entry (firstn ((mtu - 1) / 4) m))
  end.
(** Read By Type over (attribute, value read or error) pairs: equal sized entries, as many as fit; the first one may be cut *)
Definition value_entry (d : nat) (x : attr * bytes) : bytes := le16 (a_h (fst x)) ++ firstn (d - 2) (snd x).
Definition entry_len (hdr mtu n : nat) : nat := Nat.min (Nat.min (hdr + n) 255) (mtu - 2).
Definition read_by_type_spec (mtu : nat) (first : attr * bytes) (rest : list (attr * option bytes)) : bytes :=
  let d := entry_len 2 mtu (length (snd first)) in
  let same x := match snd x with Some v => Nat.eqb (2 + length v) d | None => false end in
  let get x := (fst x, match snd x with Some v => v | None => [] end) in
  [9; Z.of_nat d] ++ flat_map (value_entry d) (firstn ((mtu - 2) / d) (first :: map get (take_while same rest))).
(** Read By Group Type over (attribute, value) pairs *)
Definition group_value_entry (d : nat) (x : attr * bytes) : bytes := le16 (a_h (fst x)) ++ le16 (a_endh (fst x)) ++ firstn (d - 4) (snd x).

(** what a read handler produces through its ResponseWriter with room for [room] bytes: each Write that still fits is appended,
    one that does not fit is refused as a whole (handler.go:94-139); the status is the last one set, 0 initially *)
Fixpoint accepted (room : nat) (l : list wop) : bytes :=
  match l with
  | [] => []
  | WStatus _ :: r => accepted room r
  | WData b :: r => if Nat.leb (length b) room then b ++ accepted (room - length b) r else accepted room r
  end.
Definition final_status (l : list wop) : Z := fold_left (fun st o => match o with WStatus x => x mod 256 | WData _ => st end) l 0.
Definition read_answer (op rsp h : Z) (room : nat) (l : list wop) : bytes :=
  if final_status l =? 0 then rsp :: accepted room l else error_pdu op h (final_status l).
(** a write is confirmed unless the handler left an error status *)
Definition write_answer (op rsp h : Z) (l : list wop) : bytes :=
  if final_status l =? 0 then [rsp] else error_pdu op h (final_status l).

(** states reachable on one connection *)
Inductive reach (d : dbt) : srv -> Prop :=
| reach_init : forall rx tx s, new_server d rx tx = Some s -> reach d s
| reach_step : forall s e r s' o cs, reach d s -> all_bytes r -> handle s e r = Ret (s', o, cs) -> reach d s'.

(** tables whose client configuration descriptors were made by publishing characteristics configured through the API *)
Definition ci_ok (ci : cinfo) : Prop :=
  (Z.testbit (ci_prop ci) 4 = true -> ci_nh ci <> None) /\ (Z.testbit (ci_prop ci) 5 = true -> ci_ih ci <> None).
Definition attr_ok (a : attr) : Prop := forall ci, a_wh a = Some (ACccd ci) -> ci_ok ci.
(** running notifiers of one kind for one characteristic *)
Definition running (s : srv) (ind : bool) (h : Z) : nat :=
  length (filter (fun n => Bool.eqb (nt_ind n) ind && (nt_char n =? h) && nt_open n) (notifs s)).
(** a configuration value only asks for what the characteristic supports *)
Definition supported (ci : cinfo) (v : Z) : Prop :=
  (Z.testbit v 0 = true -> Z.testbit (ci_prop ci) 4 = true) /\ (Z.testbit v 1 = true -> Z.testbit (ci_prop ci) 5 = true).

(** the client MTU in force after a request: the last acceptable Exchange MTU Request, 23 before any *)
Definition mtu_after (m : Z) (r : bytes) : Z :=
  match r with [2; a; b] => if 23 <=? de16 a b then de16 a b else m | _ => m end.
(** the attribute with a handle *)
Definition attr_at (d : dbt) (h : Z) : option attr := find (fun a => a_h a =? h) (db_attrs d).
(** what counts as an answer to request r *)
Definition answers (r p : bytes) : Prop :=
  exists op rest, r = op :: rest /\
  ((In op [2; 4; 6; 8; 10; 12; 16; 18; 22; 24] /\ exists body, p = op + 1 :: body) \/
   exists h code, p = error_pdu op h code /\ 1 <= code <= 255 /\ (h = 0 \/ exists a b t, rest = a :: b :: t /\ h = de16 a b)).
(** the PDUs on which the server stops with a run-time panic; [mtu] the size of its transmit buffer *)
Definition is_cccd (x : option ah) : Prop := exists ci, x = Some (ACccd ci).
Definition crash_group (mtu : nat) (l : list attr) : Prop :=
  exists a0 v0 p x rest, l = a0 :: p ++ x :: rest /\ a_v a0 = Some v0 /\ a_v x = None /\
    let d := entry_len 4 mtu (length v0) in
    Forall (fun a => exists v, a_v a = Some v /\ (4 + length v)%nat = d) p /\
    (S (length p) * d <= mtu - 2 < S (length p) * d + 4)%nat.
Definition crash_pdu (d : dbt) (mtu : nat) (queued : option attr) (qdata : bytes) (r : bytes) : Prop :=
  (exists op h rest a v, r = req_handle op h rest /\ 0 <= h < 65536 /\ (op = 10 /\ rest = [] \/ op = 12 /\ length rest = 2%nat) /\
      attr_at d h = Some a /\ a_v a = Some v /\ (mtu - 1 < length v)%nat) \/
  (exists st en ty, r = req_range 16 st en ty /\ ok_range st en /\ (length ty = 2%nat \/ length ty = 16%nat) /\ crash_group mtu (between d st en)) \/
  (exists op h v a, r = req_handle op h v /\ 0 <= h < 65536 /\ (op = 18 \/ op = 82 /\ v <> []) /\ attr_at d h = Some a /\ is_cccd (a_wh a) /\ (length v < 2)%nat) \/
  (exists rest, r = 22 :: rest /\ (length rest < 2)%nat) \/
  (exists h rest a, r = req_handle 22 h rest /\ 0 <= h < 65536 /\ (length rest < 2)%nat /\ attr_at d h = Some a /\ a_wh a <> None) \/
  (exists rest, r = 24 :: 1 :: rest /\ (queued = None \/ exists a, queued = Some a /\ is_cccd (a_wh a) /\ (length qdata < 2)%nat)).
(** requests that write to configuration descriptors only values their characteristic supports, and never queue writes to them *)
Definition asks_supported (d : dbt) (r : bytes) : Prop :=
  (forall op h x y t a ci, op = 18 \/ op = 82 -> 0 <= h < 65536 -> r = req_handle op h (x :: y :: t) -> attr_at d h = Some a -> a_wh a = Some (ACccd ci) -> supported ci (de16 x y)) /\
  (forall h t a, 0 <= h < 65536 -> r = req_handle 22 h t -> attr_at d h = Some a -> ~ is_cccd (a_wh a)).
Inductive reach_supported (d : dbt) : srv -> Prop :=
| rs_init : forall rx tx s, new_server d rx tx = Some s -> reach_supported d s
| rs_step : forall s e r s' o cs, reach_supported d s -> all_bytes r -> asks_supported d r -> handle s e r = Ret (s', o, cs) -> reach_supported d s'.
(** what a client reads from a configuration descriptor: the configuration value of its characteristic on this connection *)
Definition config (s : srv) (ci : cinfo) : Z := match aget (cccs s) (ci_handle ci) with Some v => v | None => 0 end.
(** the services published from handle [base] on, as (first handle, last handle, UUID); the last one's group extends to 0xFFFF *)
Fixpoint service_ranges (ss : list service) (base : Z) : list (Z * Z * bytes) :=
  match ss with
  | [] => []
  | s :: r => let next := base + Z.of_nat (length (svc_types s)) in
              (base, match r with [] => 65535 | _ => next - 1 end, s_uuid s) :: service_ranges r next
  end.
(** How many services are reported behind a service with characteristics [cs]: the response stops at the first attribute whose value is not as
    long as a service UUID of [u] octets, so only behind services without characteristics; [left] is the number of handles left in the range. *)
Fixpoint group_run (u left : nat) (cs : list char) (after : list service) {struct after} : nat :=
  match after with
  | [] => 0
  | x :: r => match cs, left with
              | [], S k => if Nat.eqb (length (s_uuid x)) u then S (group_run u k (s_chars x) r) else 0
              | _, _ => 0
              end
  end.
Definition range_entry (x : Z * Z * bytes) : bytes := let '(st, en, u) := x in le16 st ++ le16 en ++ u.
(** services configured through the API: properties as set by the configuration calls, UUIDs of 2 or 16 bytes *)
Definition api_char (c : char) : Prop := c_prop c = deserved c.
Definition uuid_size (u : bytes) : Prop := length u = 2%nat \/ length u = 16%nat.
