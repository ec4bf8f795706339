(** Specification vocabulary for the GATT client: what a peer's database is, what a conforming peer answers, what discovery must return. *)
Require Import Verif.Base Verif.M_uuid Verif.M_attdb Verif.S_attsrv Verif.M_attcli Verif.S_attcli Verif.M_gattcli.

(** A peer's database: services with their handle range, characteristics with declaration and value handle, descriptors. *)
Record ddesc := mkDD { dd_h : Z; dd_uuid : bytes }.
Record dchar := mkDC { dc_h : Z; dc_prop : Z; dc_vh : Z; dc_uuid : bytes; dc_descs : list ddesc }.
Record dsvc := mkDS { ds_h : Z; ds_end : Z; ds_uuid : bytes; ds_chars : list dchar }.
(** items in handle order inside a range *)
Fixpoint svcs_from (k : Z) (l : list dsvc) : Prop :=
  match l with [] => True | s :: r => k <= ds_h s <= ds_end s /\ ds_end s <= 65535 /\ svcs_from (ds_end s + 1) r end.
Fixpoint chars_from (k e : Z) (l : list dchar) : Prop :=
  match l with [] => True | c :: r => k <= dc_h c /\ dc_h c < dc_vh c <= e /\ chars_from (dc_vh c + 1) e r end.
Fixpoint descs_from (k e : Z) (l : list ddesc) : Prop :=
  match l with [] => True | d :: r => k <= dd_h d <= e /\ descs_from (dd_h d + 1) e r end.
(** a characteristic's range ends before the next declaration, or with the service *)
Definition char_end (next : list dchar) (e : Z) : Z := match next with [] => e | c :: _ => dc_h c - 1 end.

(** The peer answers request o with rsp (possibly after non-empty PDUs that answer something else). *)
Definition says (p : peer) (log : list bytes) (o : cop) (rsp : bytes) : Prop :=
  exists inc, p (log ++ [wire o]) = Some inc /\ ~ In [] (before o inc) /\ find (answers_op o) inc = Some rsp.
(** A list answer: some non-empty initial part of the items asked for, of one size; Attribute Not Found when there is none. *)
Definition batch {A} (op : Z) (st : Z) (fmt : nat -> Z) (size : A -> nat) (enc : A -> bytes) (items : list A) (rsp : bytes) : Prop :=
  (items = [] /\ exists h1 h2, rsp = [1; op; h1; h2; 10]) \/
  (exists now later n, items = now ++ later /\ now <> [] /\ Forall (fun x => size x = n) now /\ rsp = [op + 1; fmt n] ++ flat_map enc now).
Definition svc_entry (s : dsvc) : bytes := le16 (ds_h s) ++ le16 (ds_end s) ++ ds_uuid s.
Definition chr_entry (c : dchar) : bytes := le16 (dc_h c) ++ [dc_prop c] ++ le16 (dc_vh c) ++ dc_uuid c.
Definition dsc_entry (d : ddesc) : bytes := le16 (dd_h d) ++ dd_uuid d.
Definition group_answer (l : list dsvc) (st : Z) (rsp : bytes) : Prop :=
  batch 16 st (fun n => Z.of_nat (4 + n)) (fun s => length (ds_uuid s)) svc_entry (filter (fun s => st <=? ds_h s) l) rsp.
Definition type_answer (l : list dchar) (st : Z) (rsp : bytes) : Prop :=
  batch 8 st (fun n => Z.of_nat (5 + n)) (fun c => length (dc_uuid c)) chr_entry (filter (fun c => st <=? dc_h c) l) rsp.
Definition info_answer (l : list ddesc) (st : Z) (rsp : bytes) : Prop :=
  batch 4 st (fun n => if Nat.eqb n 16 then 2 else 1) (fun d => length (dd_uuid d)) dsc_entry (filter (fun d => st <=? dd_h d) l) rsp.
(** Conformance is only asked for the requests a client makes: from the start of a range, or right after an item it was told about. *)
Definition serves_services (p : peer) (l : list dsvc) : Prop :=
  forall log st, st = 1 \/ In st (map (fun s => ds_end s + 1) l) -> st <= 65535 ->
  exists rsp, says p log (OReadByGroup st 65535 (uuid16 0x2800)) rsp /\ group_answer l st rsp.
Definition serves_chars (p : peer) (st0 en : Z) (l : list dchar) : Prop :=
  forall log st, st = st0 \/ In st (map (fun c => dc_vh c + 1) l) -> st <= en ->
  exists rsp, says p log (OReadByType st en (uuid16 0x2803)) rsp /\ type_answer l st rsp.
Definition serves_descs (p : peer) (st0 en : Z) (l : list ddesc) : Prop :=
  forall log st, st = st0 \/ In st (map (fun d => dd_h d + 1) l) -> st <= en ->
  exists rsp, says p log (OFindInfo st en) rsp /\ info_answer l st rsp.
Definition desc_wf (d : ddesc) : Prop := uuid_size (dd_uuid d).
(** a characteristic whose value ends the handle space cannot be followed by anything: such ranges are excluded *)
Definition char_wf (e : Z) (c : dchar) : Prop := uuid_size (dc_uuid c) /\ is_byte (dc_prop c).
Fixpoint serves_all_descs (p : peer) (e : Z) (l : list dchar) : Prop :=
  match l with
  | [] => True
  | c :: r => descs_from (dc_vh c + 1) (char_end r e) (dc_descs c) /\ Forall desc_wf (dc_descs c) /\
              Forall (fun d => dd_h d < 65535) (dc_descs c) /\ dc_vh c < 65535 /\
              serves_descs p (dc_vh c + 1) (char_end r e) (dc_descs c) /\ serves_all_descs p e r
  end.
Definition serves_service (p : peer) (s : dsvc) : Prop :=
  uuid_size (ds_uuid s) /\ chars_from (ds_h s) (ds_end s) (ds_chars s) /\ Forall (char_wf (ds_end s)) (ds_chars s) /\
  Forall (fun c => dc_vh c < 65535) (ds_chars s) /\ serves_chars p (ds_h s) (ds_end s) (ds_chars s) /\ serves_all_descs p (ds_end s) (ds_chars s).
(** a peer with this database *)
Definition serves (p : peer) (l : list dsvc) : Prop := svcs_from 1 l /\ serves_services p l /\ Forall (serves_service p) l.

(** what discovery must return *)
Definition found_desc (d : ddesc) : gdesc := mkGD (dd_uuid d) (dd_h d).
Definition is_cccd_uuid (d : ddesc) : bool := beq_bytes (dd_uuid d) (uuid16 0x2902).
Fixpoint last_cccd (l : list ddesc) (acc : option gdesc) : option gdesc :=
  match l with [] => acc | d :: r => last_cccd r (if is_cccd_uuid d then Some (found_desc d) else acc) end.
(** the declared part of the characteristics, without their descriptors *)
Fixpoint found_chars (e : Z) (l : list dchar) : list gchar :=
  match l with [] => [] | c :: r => mkGC (dc_uuid c) (dc_prop c) (dc_h c) (dc_vh c) (char_end r e) [] None :: found_chars e r end.
Fixpoint full_chars (e : Z) (l : list dchar) : list gchar :=
  match l with [] => [] | c :: r => mkGC (dc_uuid c) (dc_prop c) (dc_h c) (dc_vh c) (char_end r e) (map found_desc (dc_descs c)) (last_cccd (dc_descs c) None) :: full_chars e r end.
Definition found_svc (s : dsvc) : gsvc := mkGV (ds_uuid s) (ds_h s) (ds_end s) [].
Definition full_svc (s : dsvc) : gsvc := mkGV (ds_uuid s) (ds_h s) (ds_end s) (full_chars (ds_end s) (ds_chars s)).
(** a client whose transmit buffer can hold every request (true of every state reachable with an MTU of at least 23) *)
Definition usable (c : cli) : Prop := (23 <= length (ctx c))%nat.

(** Long reads: a peer that holds value v under handle h and answers with at most mtu-1 bytes of it from the offset asked for. *)
Definition serves_value (p : peer) (h : Z) (v : bytes) (mtu : Z) : Prop :=
  (forall log, says p log (ORead h) (11 :: firstn (Z.to_nat (mtu - 1)) v)) /\
  (forall log off, 0 <= off <= Z.of_nat (length v) -> says p log (OReadBlob h off) (13 :: firstn (Z.to_nat (mtu - 1)) (skipn (Z.to_nat off) v))).

(** Subscriptions: the calls a user makes, and PDUs from the peer.  Each carries the peer it meets, so any write may fail at any time. *)
Inductive sop :=
| SSubscribe (ch : gchar) (ind : bool) (h : nat)
| SUnsubscribe (ch : gchar) (ind : bool)
| SClear (order : list Z)
| SIncoming (pdu : bytes).
Definition run_sop (p : peer) (g : gcl) (o : sop) : go (gcl * cres (option (nat * Z * bytes))) :=
  match o with
  | SSubscribe ch ind h => let! (g', r) := subscribe p g ch ind (Some h) in Ret (g', match r with COk _ => COk None | e => err_of e end)
  | SUnsubscribe ch ind => let! (g', r) := subscribe p g ch ind None in Ret (g', match r with COk _ => COk None | e => err_of e end)
  | SClear ord => let! (g', r) := clear_subs p g ord in Ret (g', match r with COk _ => COk None | e => err_of e end)
  | SIncoming b => let! (g', x) := handle_notification g b in Ret (g', COk x)
  end.
(** the handler registered for notifications (indications) of the characteristic value with handle vh *)
Definition registered (g : gcl) (vh : Z) (ind : bool) : option nat :=
  match find (fun x => fst x =? vh) (g_subs g) with None => None | Some (_, s) => if ind then sb_i s else sb_n s end.
(** ClearSubscriptions visits every entry of the map *)
Definition visits_all (g : gcl) (o : sop) : Prop := match o with SClear ord => forall vh ind, registered g vh ind <> None -> In vh ord | _ => True end.
(** the configuration value the peer has after the writes it was sent: that of the last one to this handle, 0 before any *)
Definition write_to (h : Z) (pdu : bytes) (old : Z) : Z :=
  match pdu with [op; a; b; x; y] => if (op =? 18) && (de16 a b =? h) then de16 x y else old | _ => old end.
Definition peer_config (log : list bytes) (h : Z) : Z := fold_left (fun old pdu => write_to h pdu old) log 0.
(** notification bit and indication bit *)
Definition bits (n i : option nat) : Z := (match n with Some _ => 1 | None => 0 end) + (match i with Some _ => 2 | None => 0 end).
(** one set of characteristics of one peer: each with its own value handle and configuration descriptor *)
Definition char_ok (ch : gchar) : Prop := match gc_cccd ch with None => True | Some d => 0 <= gd_h d < 65536 end.
Definition distinct (chs : list gchar) : Prop :=
  Forall char_ok chs /\ forall a b da db, In a chs -> In b chs -> gc_cccd a = Some da -> gc_cccd b = Some db -> (gc_vh a = gc_vh b <-> gd_h da = gd_h db).
Definition about (chs : list gchar) (o : sop) : Prop := match o with SSubscribe ch _ _ | SUnsubscribe ch _ => In ch chs | _ => True end.
(** histories in which every call succeeded *)
Inductive shist (chs : list gchar) : gcl -> Prop :=
| sh_new : forall mtu, 23 <= mtu -> shist chs (new_gcl mtu)
| sh_step : forall g p o g' x, shist chs g -> about chs o -> run_sop p g o = Ret (g', COk x) -> shist chs g'.
(** histories with any outcomes *)
Inductive ahist : gcl -> Prop :=
| ah_new : forall mtu, ahist (new_gcl mtu)
| ah_step : forall g p o g' x, ahist g -> run_sop p g o = Ret (g', x) -> ahist g'.
