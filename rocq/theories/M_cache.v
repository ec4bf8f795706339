(** The GATT profile cache: cache/cache.go, and its use in linux/gatt/client.go:110-133.
    A profile is an opaque value of type [V] here. *)
Require Export Verif.M_store.

(** jsoniter on map[string]ble.Profile. Marshal can fail (a profile with handler functions in it); Unmarshal into a nil
    map fails ([None]), leaves it nil ([Some None], the JSON value null) or fills it. *)
Record ccodec (V : Type) := mkC { cenc : list (bytes * V) -> option bytes; cdec : bytes -> option (option (list (bytes * V))) }.
Arguments mkC {V}. Arguments cenc {V}. Arguments cdec {V}.

(** The keys are [mac.String()]. *)
Inductive cop (V : Type) := CStore (k : bytes) (p : V) (replace : bool) | CLoad (k : bytes) | CClear.
Arguments CStore {V}. Arguments CLoad {V}. Arguments CClear {V}.
Inductive cres (V : Type) := CProfile (p : V) | CErr | CDone.
Arguments CProfile {V}. Arguments CErr {V}. Arguments CDone {V}.

Section Cache.
Context {V : Type} (J : ccodec V).

(** cache.go:78-96: loadExisting; [Some None]: a nil map *)
Definition loadExisting : prog (option (option (list (bytes * V)))) :=
  PIo Stat (fun st =>
    match st with
    | Fail => PRet (Some (Some []))
    | Ok _ => PIo Read (fun x => match x with Fail => PRet None | Ok d => PRet (cdec J d) end)
    end).

(** cache.go:98-105: storeCache *)
Definition storeCache (m : list (bytes * V)) : prog bool :=
  match cenc J m with None => PRet false | Some d => WriteFile d end.

(** cache.go:25-47: Store. Assigning to an entry of a nil map panics. *)
Definition store_body (k : bytes) (p : V) (replace : bool) : prog (cres V) :=
  do l <- loadExisting;
  match l with
  | None => PRet CErr
  | Some om =>
    let ok := match om with None => false | Some m => match mget k m with Some _ => true | None => false end end in
    if (ok && negb replace)%bool then PRet CErr else
    match om with
    | None => PPanic
    | Some m => do w <- storeCache (mset k p m); PRet (if w then CDone else CErr)
    end
  end.

(** cache.go:49-64: Load *)
Definition load_body (k : bytes) : prog (cres V) :=
  do l <- loadExisting;
  match l with
  | None => PRet CErr
  | Some None => PRet CErr
  | Some (Some m) => match mget k m with None => PRet CErr | Some p => PRet (CProfile p) end
  end.

(** cache.go:66-76: Clear *)
Definition clear_body : prog (cres V) := PIo Remove (fun x => match x with Ok _ => PRet CDone | Fail => PRet CErr end).

Definition clock (o : cop V) : option mode := match o with CLoad _ => Some MRead | _ => Some MWrite end.
Definition cbody (o : cop V) : prog (cres V) :=
  match o with CStore k p r => store_body k p r | CLoad k => load_body k | CClear => clear_body end.

(** linux/gatt/client.go:110-133: DiscoverAndCacheProfile. [disc]: what DiscoverProfile(force) returns ([None]: an error);
    [cached]: whether the client has a cache (calling Store on a nil interface panics).
    The result: the profile returned, if any, and whether an error is returned; and whether the peer was asked. *)
Record dres := mkDR { dr_profile : option V; dr_err : bool; dr_asked : bool }.
Definition DiscoverAndCacheProfile (cached force : bool) (addr : bytes) (disc : option V) : prog dres :=
  let discover :=
    match disc with
    | None => PRet (mkDR None true true)
    | Some p =>
      if cached then do r <- store_body addr p true; PRet (mkDR (Some p) (match r with CDone => false | _ => true end) true)
      else PPanic
    end in
  if (negb force && cached)%bool then
    do r <- load_body addr;
    match r with CProfile p => PRet (mkDR (Some p) false false) | _ => discover end
  else discover.

End Cache.
