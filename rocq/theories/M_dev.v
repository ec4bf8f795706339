(** Model of a device as a peripheral: the services published with Device.AddService, RemoveAllServices and SetServices
    (linux/device.go:92-106, linux/gatt/server.go), the loop that accepts connections (linux/device.go:55-85) and the ATT servers
    of the connections (M_srvloop.v).
    Services and characteristics are objects of the application, named by numbers, and NewDB writes the handles it assigns into them
    (linux/att/db.go:101-135): [objs] holds their current contents.  The closures of newCCCD (db.go:165-212) read c.Handle and
    c.ValueHandle through the pointer when they run; M_attsrv.v keeps copies, and [refresh] brings the copies up to date whenever the
    objects change.  To know which object a copy belongs to, the notify and indicate handlers of a characteristic are both named by
    the number of the characteristic, which is unique.
    Simplifications: a publication is one step (it holds the server's lock; the ATT servers do not take it); characteristics are not
    reconfigured after they were created; a service object occurs at most once in a table. *)
Require Import Verif.Base Verif.M_attdb Verif.M_attsrv Verif.M_srvloop.

Record dev := mkDev {
  dv_name : bytes;
  dv_objs : list service;     (* every service object, in the order of creation *)
  dv_pub : list nat;          (* gatt.Server.svcs *)
  dv_db : dbt;                (* gatt.Server.db *)
  dv_conns : list ls }.       (* the ATT servers, in the order of their accepts *)

(** the number of a characteristic with notify or indicate handler *)
Definition char_no (c : char) : option nat := match c_nh c with Some n => Some n | None => c_ih c end.
Definition ci_no (ci : cinfo) : option nat := match ci_nh ci with Some n => Some n | None => ci_ih ci end.
Definition opt_nat_eqb (o : option nat) (n : nat) : bool := match o with Some m => Nat.eqb m n | None => false end.
Definition char_of (objs : list service) (n : nat) : option char := find (fun c => opt_nat_eqb (char_no c) n) (flat_map s_chars objs).

(** db.go:165-212: what the closures see now *)
Definition refresh_ci (objs : list service) (ci : cinfo) : cinfo :=
  match ci_no ci with
  | Some n => match char_of objs n with Some c => mkCI (c_handle c) (c_vhandle c) (ci_prop ci) (ci_nh ci) (ci_ih ci) | None => ci end
  | None => ci
  end.
Definition refresh_ah (objs : list service) (h : ah) : ah := match h with AUser i => AUser i | ACccd ci => ACccd (refresh_ci objs ci) end.
Definition refresh_attr (objs : list service) (a : attr) : attr :=
  mkAttr (a_h a) (a_endh a) (a_typ a) (a_v a) (option_map (refresh_ah objs) (a_rh a)) (option_map (refresh_ah objs) (a_wh a)).
Definition refresh_db (objs : list service) (d : dbt) : dbt := mkDB (map (refresh_attr objs) (db_attrs d)) (db_base d).
(** db.go:188, 200: the send function of a notifier *)
Definition refresh_notif (objs : list service) (n : notif) : notif :=
  match char_of objs (nt_handler n) with Some c => mkN (nt_ind n) (nt_char n) (c_vhandle c) (nt_handler n) (nt_open n) | None => n end.
Definition refresh (objs : list service) (s : srv) : srv :=
  mkSrv (refresh_db objs (s_db s)) (txlen s) (notlen s) (indlen s) (rxmtu s) (ctxmtu s) (crxmtu s) (option_map (refresh_attr objs) (prep s)) (prepdata s)
    (cccs s) (nn s) (inn s) (map (refresh_notif objs) (notifs s)).
Definition refresh_conn (objs : list service) (c : ls) : ls := set_sv (refresh objs (sv c)) c.

(** db.go:65-135: NewDB over the objects [ks]; the handles are written into the objects *)
Fixpoint fetch (objs : list service) (ks : list nat) : option (list service) :=
  match ks with
  | [] => Some []
  | k :: r => match nth_error objs k, fetch objs r with Some s, Some l => Some (s :: l) | _, _ => None end
  end.
Fixpoint store (objs : list service) (ks : list nat) (ss : list service) : list service :=
  match ks, ss with k :: r, s :: l => store (upd objs k s) r l | _, _ => objs end.
Fixpoint distinct (ks : list nat) : bool := match ks with [] => true | k :: r => negb (existsb (Nat.eqb k) r) && distinct r end.
Definition publish (d : dev) (objs : list service) (ks : list nat) : option dev :=
  if distinct ks then
    match fetch objs ks with
    | Some ss => let (ss', t) := new_db ss 1 in
                 let objs' := store objs ks ss' in
                 Some (mkDev (dv_name d) objs' ks t (map (refresh_conn objs') (dv_conns d)))
    | None => None
    end
  else None.

(** the numbers in use, and objects the application may create *)
Definition numbers (objs : list service) : list nat := flat_map (fun c => match char_no c with Some n => [n] | None => [] end) (flat_map s_chars objs).
Definition named (c : char) : bool := match c_nh c, c_ih c with Some a, Some b => Nat.eqb a b | _, _ => true end.
Definition fresh_for (objs : list service) (s : service) : bool :=
  forallb named (s_chars s) && distinct (numbers [s]) && forallb (fun n => negb (existsb (Nat.eqb n) (numbers objs))) (numbers [s]).

Inductive dact :=
| DNew (s : service)              (* the application creates a service with its characteristics (profile.go) *)
| DAdd (k : nat)                  (* AddService *)
| DRemoveAll (n : nat)            (* RemoveAllServices; n: the number of the new Service Changed characteristic *)
| DSet (n : nat) (ks : list nat)  (* SetServices *)
| DAccept                         (* device.go:56-83 *)
| DConn (i : nat) (a : act).      (* a step of the ATT server of connection i, its peer or its notifying goroutines *)

(** gatt/server.go:17-24: two sets of default services are made, one for the list, one for the first table *)
Definition dinit (name : bytes) : dev :=
  let (ss, t) := new_db (default_services name 1) 1 in mkDev name (default_services name 0 ++ ss) [0; 1]%nat t [].

Definition dstep (d : dev) (x : dact) : option (dev * list vis) :=
  match x with
  | DNew s => if fresh_for (dv_objs d) s then Some (mkDev (dv_name d) (dv_objs d ++ [s]) (dv_pub d) (dv_db d) (dv_conns d), []) else None
  | DAdd k => option_map (fun d' => (d', [])) (publish d (dv_objs d) (dv_pub d ++ [k]))                                   (* server.go:42-48 *)
  | DRemoveAll n =>                                                                                                        (* 51-57 *)
      if existsb (Nat.eqb n) (numbers (dv_objs d)) then None
      else let m := length (dv_objs d) in option_map (fun d' => (d', [])) (publish d (dv_objs d ++ default_services (dv_name d) n) [m; S m])
  | DSet n ks =>                                                                                                           (* 60-66 *)
      if existsb (Nat.eqb n) (numbers (dv_objs d)) then None
      else let m := length (dv_objs d) in option_map (fun d' => (d', [])) (publish d (dv_objs d ++ default_services (dv_name d) n) ([m; S m] ++ ks))
  | DAccept =>                                                                                                             (* device.go:72-83 *)
      match new_server (dv_db d) 515 23 with
      | Some s => Some (mkDev (dv_name d) (dv_objs d) (dv_pub d) (dv_db d) (dv_conns d ++ [linit s]), [])
      | None => None
      end
  | DConn i a =>
      match nth_error (dv_conns d) i with
      | Some c => match lstep c a with
                  | Some (c', v) => Some (mkDev (dv_name d) (dv_objs d) (dv_pub d) (dv_db d) (upd (dv_conns d) i c'), v)
                  | None => None
                  end
      | None => None
      end
  end.

(** Histories: what was done and what was seen. *)
Inductive drun : dev -> list (dact * list vis) -> dev -> Prop :=
| dr_nil : forall d, drun d [] d
| dr_snoc : forall d h d1 x d2 v, drun d h d1 -> dstep d1 x = Some (d2, v) -> drun d (h ++ [(x, v)]) d2.
