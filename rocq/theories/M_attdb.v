(** Model of profile.go (services, characteristics, descriptors), linux/att/db.go (attribute table), linux/gatt/server.go
    (the services published).  User handlers are identified by numbers; what they do is a parameter of the server model.
    Services are values: NewDB's in-place updates of the characteristics become part of its result. *)
Require Import Verif.Base Verif.M_uuid.

(** const.go *)
Definition u_primary : bytes := uuid16 0x2800.
Definition u_char : bytes := uuid16 0x2803.
Definition u_cccd : bytes := uuid16 0x2902.
(** profile.go:22-31 property bits *)
Definition p_read : Z := 2.
Definition p_writenr : Z := 4.
Definition p_write : Z := 8.
Definition p_notify : Z := 16.
Definition p_indicate : Z := 32.

(** A descriptor's handlers: a user handler, or the closures made by newCCCD (db.go:165-212). *)
Inductive dh := DUser (id : nat) | DCccd.
(** profile.go:200-209; Value nil = None *)
Record desc := mkDesc { d_uuid : bytes; d_prop : Z; d_value : option bytes; d_rh : option dh; d_wh : option dh }.
(** profile.go:117-134.  CCCD and EndHandle are never read by the server and left out. *)
Record char := mkChar { c_uuid : bytes; c_prop : Z; c_descs : list desc; c_value : option bytes;
  c_rh : option nat; c_wh : option nat; c_nh : option nat; c_ih : option nat; c_handle : Z; c_vhandle : Z }.
(** profile.go:90-96; Handle and EndHandle are not set by the server side *)
Record service := mkSvc { s_uuid : bytes; s_chars : list char }.

(** profile.go:4-6, 14-16, 9-11 *)
Definition new_service (u : bytes) : service := mkSvc u [].
Definition new_char (u : bytes) : char := mkChar u 0 [] None None None None None 0 0.
Definition new_desc (u : bytes) : desc := mkDesc u 0 None None None.
(** profile.go:100-108 AddCharacteristic *)
Definition add_char (s : service) (c : char) : go service :=
  if existsb (fun x => uuid_equal (c_uuid x) (c_uuid c)) (s_chars s) then Panic else Ret (mkSvc (s_uuid s) (s_chars s ++ [c])).
(** profile.go:138-146 AddDescriptor *)
Definition add_desc (c : char) (d : desc) : go char :=
  if existsb (fun x => uuid_equal (d_uuid x) (d_uuid d)) (c_descs c) then Panic
  else Ret (mkChar (c_uuid c) (c_prop c) (c_descs c ++ [d]) (c_value c) (c_rh c) (c_wh c) (c_nh c) (c_ih c) (c_handle c) (c_vhandle c)).
(** profile.go:157-164 SetValue *)
Definition c_set_value (c : char) (b : bytes) : go char :=
  match c_rh c with
  | Some _ => Panic
  | None => Ret (mkChar (c_uuid c) (Z.lor (c_prop c) p_read) (c_descs c) (Some b) (c_rh c) (c_wh c) (c_nh c) (c_ih c) (c_handle c) (c_vhandle c))
  end.
(** profile.go:169-175 HandleRead *)
Definition c_handle_read (c : char) (h : nat) : go char :=
  match c_value c with
  | Some _ => Panic
  | None => Ret (mkChar (c_uuid c) (Z.lor (c_prop c) p_read) (c_descs c) (c_value c) (Some h) (c_wh c) (c_nh c) (c_ih c) (c_handle c) (c_vhandle c))
  end.
(** profile.go:180-183 HandleWrite *)
Definition c_handle_write (c : char) (h : nat) : char :=
  mkChar (c_uuid c) (Z.lor (c_prop c) (Z.lor p_write p_writenr)) (c_descs c) (c_value c) (c_rh c) (Some h) (c_nh c) (c_ih c) (c_handle c) (c_vhandle c).
(** profile.go:187-190 HandleNotify *)
Definition c_handle_notify (c : char) (h : nat) : char :=
  mkChar (c_uuid c) (Z.lor (c_prop c) p_notify) (c_descs c) (c_value c) (c_rh c) (c_wh c) (Some h) (c_ih c) (c_handle c) (c_vhandle c).
(** profile.go:194-197 HandleIndicate *)
Definition c_handle_indicate (c : char) (h : nat) : char :=
  mkChar (c_uuid c) (Z.lor (c_prop c) p_indicate) (c_descs c) (c_value c) (c_rh c) (c_wh c) (c_nh c) (Some h) (c_handle c) (c_vhandle c).
(** profile.go:214-221 *)
Definition d_set_value (d : desc) (b : bytes) : go desc :=
  match d_rh d with Some _ => Panic | None => Ret (mkDesc (d_uuid d) (Z.lor (d_prop d) p_read) (Some b) (d_rh d) (d_wh d)) end.
(** profile.go:226-232 *)
Definition d_handle_read (d : desc) (h : dh) : go desc :=
  match d_value d with Some _ => Panic | None => Ret (mkDesc (d_uuid d) (Z.lor (d_prop d) p_read) (d_value d) (Some h) (d_wh d)) end.
(** profile.go:237-240 *)
Definition d_handle_write (d : desc) (h : dh) : desc :=
  mkDesc (d_uuid d) (Z.lor (d_prop d) (Z.lor p_write p_writenr)) (d_value d) (d_rh d) (Some h).

(** profile.go:54-61, 64-73, 76-87 Find* on a profile: first match in declaration order *)
Definition find_service (ss : list service) (u : bytes) : option service := find (fun s => uuid_equal (s_uuid s) u) ss.
Fixpoint find_char (ss : list service) (u : bytes) : option char :=
  match ss with
  | [] => None
  | s :: r => match find (fun c => uuid_equal (c_uuid c) u) (s_chars s) with Some c => Some c | None => find_char r u end
  end.
Fixpoint find_desc_chars (cs : list char) (u : bytes) : option desc :=
  match cs with
  | [] => None
  | c :: r => match find (fun d => uuid_equal (d_uuid d) u) (c_descs c) with Some d => Some d | None => find_desc_chars r u end
  end.
Fixpoint find_desc (ss : list service) (u : bytes) : option desc :=
  match ss with
  | [] => None
  | s :: r => match find_desc_chars (s_chars s) u with Some d => Some d | None => find_desc r u end
  end.

(** What the closures of newCCCD see of their characteristic. db.go:165-212 reads c.Handle, c.ValueHandle, c.Property and the
    handlers through the pointer when called; the model takes the values of the table being used. *)
Record cinfo := mkCI { ci_handle : Z; ci_vhandle : Z; ci_prop : Z; ci_nh : option nat; ci_ih : option nat }.
Inductive ah := AUser (id : nat) | ACccd (ci : cinfo).
(** attr.go:6-14 *)
Record attr := mkAttr { a_h : Z; a_endh : Z; a_typ : bytes; a_v : option bytes; a_rh : option ah; a_wh : option ah }.
Record dbt := mkDB { db_attrs : list attr; db_base : Z }.

(** db.go:165-212 newCCCD: NewDescriptor, HandleRead, HandleWrite *)
Definition new_cccd : desc := mkDesc u_cccd (Z.lor (Z.lor 0 p_read) (Z.lor p_write p_writenr)) None (Some DCccd) (Some DCccd).

Definition resolve (ci : cinfo) (h : dh) : ah := match h with DUser i => AUser i | DCccd => ACccd ci end.
(** db.go:137-145 genDescAttr *)
Definition gen_desc (ci : cinfo) (d : desc) (h : Z) : attr :=
  mkAttr h 0 (d_uuid d) (d_value d) (option_map (resolve ci) (d_rh d)) (option_map (resolve ci) (d_wh d)).
(** db.go:128-131 the descriptor loop; handles are uint16 *)
Fixpoint gen_descs (ci : cinfo) (ds : list desc) (h : Z) : list attr * Z :=
  match ds with
  | [] => ([], h)
  | d :: r => let (l, h') := gen_descs ci r (u16 (h + 1)) in (gen_desc ci d h :: l, h')
  end.
(** db.go:101-135 genCharAttr: (updated characteristic, attributes, next handle) *)
Definition gen_char (c : char) (h : Z) : char * list attr * Z :=
  let vh := u16 (h + 1) in
  let descs := match c_nh c, c_ih c with None, None => c_descs c | _, _ => c_descs c ++ [new_cccd] end in
  let c' := mkChar (c_uuid c) (c_prop c) descs (c_value c) (c_rh c) (c_wh c) (c_nh c) (c_ih c) h vh in
  let ci := mkCI h vh (c_prop c) (c_nh c) (c_ih c) in
  let (ds, h') := gen_descs ci descs (u16 (h + 2)) in
  (c', mkAttr h (u16 (h' - 1)) u_char (Some ([u8 (c_prop c); u8 vh; u8 (vh / 256)] ++ c_uuid c)) None None
       :: mkAttr vh 0 (c_uuid c) (c_value c) (option_map AUser (c_rh c)) (option_map AUser (c_wh c)) :: ds, h').
Fixpoint gen_chars (cs : list char) (h : Z) : list char * list attr * Z :=
  match cs with
  | [] => ([], [], h)
  | c :: r => let '(c', a, h1) := gen_char c h in let '(r', l, h2) := gen_chars r h1 in (c' :: r', a ++ l, h2)
  end.
(** db.go:82-99 genSvcAttr; [last] = db.go:71-73 the last service ends at 0xFFFF *)
Definition gen_svc (s : service) (h : Z) (last : bool) : service * list attr * Z :=
  let '(cs, l, h') := gen_chars (s_chars s) (u16 (h + 1)) in
  (mkSvc (s_uuid s) cs, mkAttr h (if last then 65535 else u16 (h' - 1)) u_primary (Some (s_uuid s)) None None :: l, h').
(** db.go:65-80 NewDB *)
Fixpoint gen_svcs (ss : list service) (h : Z) : list service * list attr * Z :=
  match ss with
  | [] => ([], [], h)
  | s :: r => let '(s', a, h1) := gen_svc s h (match r with [] => true | _ => false end) in
              let '(r', l, h2) := gen_svcs r h1 in (s' :: r', a ++ l, h2)
  end.
Definition new_db (ss : list service) (base : Z) : list service * dbt :=
  let '(ss', l, _) := gen_svcs ss base in (ss', mkDB l base).

(** db.go:24-32 idx *)
Definition db_idx (d : dbt) (h : Z) : Z :=
  if h <? db_base d then -1 else if h >=? db_base d + Z.of_nat (length (db_attrs d)) then -2 else h - db_base d.
(** db.go:35-41 at *)
Definition db_at (d : dbt) (h : Z) : go (option attr) :=
  let i := db_idx d h in if i <? 0 then Ret None else let! a := gidx (db_attrs d) (Z.to_nat i) in Ret (Some a).
(** db.go:45-62 subrange; attrs[startidx:endidx] panics when startidx > endidx *)
Definition db_subrange (d : dbt) (start end_ : Z) : go (list attr) :=
  let si := db_idx d start in
  if si =? -2 then Ret []
  else
    let si := if si =? -1 then 0 else si in
    let ei := db_idx d (end_ + 1) in
    if ei =? -1 then Ret []
    else let ei := if ei =? -2 then Z.of_nat (length (db_attrs d)) else ei in gslice (db_attrs d) (Z.to_nat si) (Z.to_nat ei).

(** gatt/server.go *)
Record gsrv := mkGS { g_name : bytes; g_svcs : list service; g_db : dbt }.
Definition static_char (u : Z) (v : bytes) : char := mkChar (uuid16 u) p_read [] (Some v) None None None None 0 0.
(** gatt/server.go:77-97 defaultServicesWithHandler; [h] the indication handler, 0 the built-in one *)
Definition default_services (name : bytes) (h : nat) : list service :=
  [ mkSvc (uuid16 0x1800) [ static_char 0x2A00 name; static_char 0x2A01 [0x00; 0x80]; static_char 0x2A02 [0x00];
      static_char 0x2A03 [0; 0; 0; 0; 0; 0]; static_char 0x2A04 [0x06; 0x00; 0x06; 0x00; 0x00; 0x00; 0xd0; 0x07]; static_char 0x2AA6 [0x00] ];
    mkSvc (uuid16 0x1801) [ mkChar (uuid16 0x2A05) p_indicate [] None None None None (Some h) 0 0 ] ].
(** gatt/server.go:17-24 *)
Definition new_gserver (name : bytes) (h : nat) : gsrv :=
  mkGS name (default_services name h) (snd (new_db (default_services name 0) 1)).
(** gatt/server.go:42-48 AddService *)
Definition add_service (g : gsrv) (s : service) : gsrv :=
  let (ss, d) := new_db (g_svcs g ++ [s]) 1 in mkGS (g_name g) ss d.
(** gatt/server.go:51-57 RemoveAllServices *)
Definition remove_all (g : gsrv) : gsrv :=
  let (ss, d) := new_db (default_services (g_name g) 0) 1 in mkGS (g_name g) ss d.
(** gatt/server.go:60-66 SetServices *)
Definition set_services (g : gsrv) (l : list service) : gsrv :=
  let (ss, d) := new_db (default_services (g_name g) 0 ++ l) 1 in mkGS (g_name g) ss d.
