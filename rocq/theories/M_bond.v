(** The bond store: linux/hci/bond/manager.go, and the BondInfo value of linux/hci/bond.go. *)
Require Export Verif.M_store Verif.M_uuid.

(** linux/hci/bond.go:3-8, 24-31: BondInfo *)
Record binfo := mkBI { bi_ltk : bytes; bi_ediv : Z; bi_rand : Z; bi_legacy : bool }.

(** manager.go:22-27: what is stored: strings. *)
Record bdata := mkBD { bd_ltk : bytes; bd_ediv : bytes; bd_rand : bytes; bd_legacy : bool }.

(** encoding/json on map[string]bondData: json.Marshal, which cannot fail on this type, and json.Unmarshal into a nil map
    ([None]: an error; the JSON value null gives an empty map here, as loadBonds replaces a nil map by an empty one). *)
Record jcodec := mkJ { jenc : list (bytes * bdata) -> bytes; jdec : bytes -> option (list (bytes * bdata)) }.

(** manager.go:200-216: createBondData *)
Definition createBondData (bi : binfo) : bdata :=
  mkBD (hex_encode (bi_ltk bi)) (hex_encode (le_bytes 2 (bi_ediv bi))) (hex_encode (le_bytes 8 (bi_rand bi))) (bi_legacy bi).

(** hex.DecodeString followed by the error check *)
Definition hexdec (s : bytes) : option bytes := let '(b, ok) := hex_decode s in if ok then Some b else None.

(** binary.LittleEndian.Uint64(b): panics on a slice shorter than 8 *)
Definition gle64 (b : bytes) : go Z := if Nat.ltb (length b) 8 then Panic else Ret (le_val (firstn 8 b)).

(** manager.go:220-241: createBondInfo; [Ret None]: an error *)
Definition createBondInfo (b : bdata) : go (option binfo) :=
  match hexdec (bd_ltk b) with
  | None => Ret None
  | Some ltk =>
    if Nat.eqb (length ltk) 0 then Ret None else
    match hexdec (bd_ediv b) with
    | None => Ret None
    | Some eDiv =>
      match hexdec (bd_rand b) with
      | None => Ret None
      | Some randVal =>
        let! e := gle16 eDiv in
        let! r := gle64 randVal in
        Ret (Some (mkBI ltk e r (bd_legacy b)))
      end
    end
  end.

(** The four methods and their results. *)
Inductive bop := BExists (a : bytes) | BFind (a : bytes) | BSave (a : bytes) (b : option binfo) | BDelete (a : bytes).
Inductive bres := RBool (b : bool) | RBond (b : binfo) | RErr | RDone.

Section Bond.
Context (J : jcodec).

(** manager.go:152-182: loadBonds *)
Definition loadBonds : prog (option (list (bytes * bdata))) :=
  PIo Stat (fun st =>
    let rd := PIo Read (fun x =>
      match x with
      | Fail => PRet None
      | Ok d => if Nat.ltb 0 (length d) then PRet (jdec J d) else PRet (Some [])
      end) in
    match st with
    | Fail => PIo Create (fun x => match x with Fail => PRet None | Ok _ => rd end)
    | Ok _ => rd
    end).

(** manager.go:185-197: storeBonds *)
Definition storeBonds (m : list (bytes * bdata)) : prog bool := WriteFile (jenc J m).

(** manager.go:44-65: Exists, after the length check *)
Definition exists_body (a : bytes) : prog bres :=
  do l <- loadBonds;
  match l with
  | None => PRet (RBool false)
  | Some m => PRet (RBool (match mget a m with Some _ => true | None => false end))
  end.

(** manager.go:67-97: Find, after the length check *)
Definition find_body (a : bytes) : prog bres :=
  do l <- loadBonds;
  match l with
  | None => PRet RErr
  | Some m =>
    match mget a m with
    | None => PRet RErr
    | Some bd =>
      do bi <- lift (createBondInfo bd);
      match bi with
      | None => do _ <- storeBonds (mdel a m); PRet RErr
      | Some b => PRet (RBond b)
      end
    end
  end.

(** manager.go:99-126: Save, after the checks *)
Definition save_body (a : bytes) (b : binfo) : prog bres :=
  do l <- loadBonds;
  match l with
  | None => PRet RErr
  | Some m =>
    do ok <- storeBonds (mset a (createBondData b) m);
    PRet (if ok then RDone else RErr)
  end.

(** manager.go:128-149: Delete *)
Definition delete_body (a : bytes) : prog bres :=
  do l <- loadBonds;
  match l with
  | None => PRet RErr
  | Some m =>
    match mget a m with
    | None => PRet RErr
    | Some _ => do ok <- storeBonds (mdel a m); PRet (if ok then RDone else RErr)
    end
  end.

(** How each method takes the lock; [None]: it fails before taking it (manager.go:45-47, 68-70, 100-106). *)
Definition block (o : bop) : option mode :=
  match o with
  | BExists a | BFind a => if Nat.eqb (length a) 12 then Some MRead else None
  | BSave a b => if Nat.eqb (length a) 12 then (match b with None => None | Some _ => Some MWrite end) else None
  | BDelete _ => Some MWrite
  end.
Definition bearly (o : bop) : bres := match o with BExists _ => RBool false | _ => RErr end.
Definition bbody (o : bop) : prog bres :=
  match o with
  | BExists a => exists_body a
  | BFind a => find_body a
  | BSave a (Some b) => save_body a b
  | BSave a None => PRet RErr
  | BDelete a => delete_body a
  end.

(** A whole call, made by one goroutine alone. *)
Definition bcall (o : bop) : prog bres := match block o with None => PRet (bearly o) | Some _ => bbody o end.

End Bond.
