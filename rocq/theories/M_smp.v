(** Model of the Security Manager: linux/hci/smp (handler.go, context.go, transport.go, manager.go, crypto.go, util.go,
    ecdh.go) and of Conn.encrypt / stkEncrypt (linux/hci/conn.go:270-323).
    The cryptographic primitives (AES-128, AES-CMAC, P-256) are parameters gathered in the record [prims].  Random numbers,
    key generation and the success of writes, of bond-store accesses and of HCI commands are supplied by the environment
    [env] of each step.  Logging has no effect.  The slices kept by the context never share memory here (SwapBuf copies, and
    appending to a slice of full capacity copies). *)
Require Import Verif.Base.

(** crypto/aes and github.com/aead/cmac (most significant byte first), github.com/wsddn/go-ecdh over P-256: public keys are
    the 64 bytes X||Y, most significant byte first; [dh] is the X coordinate of the shared point. *)
Record prims := mkPrims {
  cmac : bytes -> bytes -> bytes;      (* key, message *)
  aes : bytes -> bytes -> bytes;       (* key, block *)
  on_curve : bytes -> bool;
  pub_of : Z -> bytes;
  dh : Z -> bytes -> bytes }.

(** linux/hci/smp.go:48-50 SmpConfig. *)
Record smpcfg := mkCfg { io_cap : Z; oob_flag : Z; auth_req : Z; key_size : Z; init_dist : Z; resp_dist : Z }.
(** linux/hci/smp.go:53-55 defaultSmpConfig. *)
Definition default_cfg : smpcfg := mkCfg 4 0 9 16 0 1.

(** context.go:16-21. *)
Inductive ptype := JustWorks | NumericComp | Passkey | Oob.
(** manager.go:13-24. *)
Inductive pstate := Init | WaitPairingResponse | WaitPublicKey | WaitConfirm | WaitRandom | WaitDhKeyCheck | Finished | Error.

(** linux/hci/bond.go:3-30 bondInfo. *)
Record bondinfo := mkBond { ltk : bytes; ediv : Z; brand : Z; blegacy : bool }.

(** context.go:30-60 pairingContext.  A nil slice is the empty list, except localRandom, whose nil-ness is tested.
    scECDHKeys is represented by the private key, scRemoteDHKeyCheck and localConfirm are not kept (never read later).
    authData is split into its two fields. *)
Record pctx := mkP {
  p_req : smpcfg;
  p_rsp : smpcfg;
  p_raddr : bytes;
  p_rat : Z;
  p_rrand : bytes;
  p_rconf : bytes;
  p_laddr : bytes;
  p_lat : Z;
  p_lrand : option bytes;
  p_keys : option Z;
  p_mac : bytes;
  p_rpub : option bytes;
  p_dhkey : bytes;
  p_legacy : bool;
  p_stk : bytes;
  p_iter : nat;
  p_type : ptype;
  p_st : pstate;
  p_passkey : Z;
  p_oobdata : bytes;
  p_bond : option bondinfo }.

Definition set_req (v : smpcfg) (p : pctx) : pctx := mkP v (p_rsp p) (p_raddr p) (p_rat p) (p_rrand p) (p_rconf p) (p_laddr p) (p_lat p) (p_lrand p) (p_keys p) (p_mac p) (p_rpub p) (p_dhkey p) (p_legacy p) (p_stk p) (p_iter p) (p_type p) (p_st p) (p_passkey p) (p_oobdata p) (p_bond p).
Definition set_rsp (v : smpcfg) (p : pctx) : pctx := mkP (p_req p) v (p_raddr p) (p_rat p) (p_rrand p) (p_rconf p) (p_laddr p) (p_lat p) (p_lrand p) (p_keys p) (p_mac p) (p_rpub p) (p_dhkey p) (p_legacy p) (p_stk p) (p_iter p) (p_type p) (p_st p) (p_passkey p) (p_oobdata p) (p_bond p).
Definition set_raddr (v : bytes) (p : pctx) : pctx := mkP (p_req p) (p_rsp p) v (p_rat p) (p_rrand p) (p_rconf p) (p_laddr p) (p_lat p) (p_lrand p) (p_keys p) (p_mac p) (p_rpub p) (p_dhkey p) (p_legacy p) (p_stk p) (p_iter p) (p_type p) (p_st p) (p_passkey p) (p_oobdata p) (p_bond p).
Definition set_rat (v : Z) (p : pctx) : pctx := mkP (p_req p) (p_rsp p) (p_raddr p) v (p_rrand p) (p_rconf p) (p_laddr p) (p_lat p) (p_lrand p) (p_keys p) (p_mac p) (p_rpub p) (p_dhkey p) (p_legacy p) (p_stk p) (p_iter p) (p_type p) (p_st p) (p_passkey p) (p_oobdata p) (p_bond p).
Definition set_rrand (v : bytes) (p : pctx) : pctx := mkP (p_req p) (p_rsp p) (p_raddr p) (p_rat p) v (p_rconf p) (p_laddr p) (p_lat p) (p_lrand p) (p_keys p) (p_mac p) (p_rpub p) (p_dhkey p) (p_legacy p) (p_stk p) (p_iter p) (p_type p) (p_st p) (p_passkey p) (p_oobdata p) (p_bond p).
Definition set_rconf (v : bytes) (p : pctx) : pctx := mkP (p_req p) (p_rsp p) (p_raddr p) (p_rat p) (p_rrand p) v (p_laddr p) (p_lat p) (p_lrand p) (p_keys p) (p_mac p) (p_rpub p) (p_dhkey p) (p_legacy p) (p_stk p) (p_iter p) (p_type p) (p_st p) (p_passkey p) (p_oobdata p) (p_bond p).
Definition set_laddr (v : bytes) (p : pctx) : pctx := mkP (p_req p) (p_rsp p) (p_raddr p) (p_rat p) (p_rrand p) (p_rconf p) v (p_lat p) (p_lrand p) (p_keys p) (p_mac p) (p_rpub p) (p_dhkey p) (p_legacy p) (p_stk p) (p_iter p) (p_type p) (p_st p) (p_passkey p) (p_oobdata p) (p_bond p).
Definition set_lat (v : Z) (p : pctx) : pctx := mkP (p_req p) (p_rsp p) (p_raddr p) (p_rat p) (p_rrand p) (p_rconf p) (p_laddr p) v (p_lrand p) (p_keys p) (p_mac p) (p_rpub p) (p_dhkey p) (p_legacy p) (p_stk p) (p_iter p) (p_type p) (p_st p) (p_passkey p) (p_oobdata p) (p_bond p).
Definition set_lrand (v : option bytes) (p : pctx) : pctx := mkP (p_req p) (p_rsp p) (p_raddr p) (p_rat p) (p_rrand p) (p_rconf p) (p_laddr p) (p_lat p) v (p_keys p) (p_mac p) (p_rpub p) (p_dhkey p) (p_legacy p) (p_stk p) (p_iter p) (p_type p) (p_st p) (p_passkey p) (p_oobdata p) (p_bond p).
Definition set_keys (v : option Z) (p : pctx) : pctx := mkP (p_req p) (p_rsp p) (p_raddr p) (p_rat p) (p_rrand p) (p_rconf p) (p_laddr p) (p_lat p) (p_lrand p) v (p_mac p) (p_rpub p) (p_dhkey p) (p_legacy p) (p_stk p) (p_iter p) (p_type p) (p_st p) (p_passkey p) (p_oobdata p) (p_bond p).
Definition set_mac (v : bytes) (p : pctx) : pctx := mkP (p_req p) (p_rsp p) (p_raddr p) (p_rat p) (p_rrand p) (p_rconf p) (p_laddr p) (p_lat p) (p_lrand p) (p_keys p) v (p_rpub p) (p_dhkey p) (p_legacy p) (p_stk p) (p_iter p) (p_type p) (p_st p) (p_passkey p) (p_oobdata p) (p_bond p).
Definition set_rpub (v : option bytes) (p : pctx) : pctx := mkP (p_req p) (p_rsp p) (p_raddr p) (p_rat p) (p_rrand p) (p_rconf p) (p_laddr p) (p_lat p) (p_lrand p) (p_keys p) (p_mac p) v (p_dhkey p) (p_legacy p) (p_stk p) (p_iter p) (p_type p) (p_st p) (p_passkey p) (p_oobdata p) (p_bond p).
Definition set_dhkey (v : bytes) (p : pctx) : pctx := mkP (p_req p) (p_rsp p) (p_raddr p) (p_rat p) (p_rrand p) (p_rconf p) (p_laddr p) (p_lat p) (p_lrand p) (p_keys p) (p_mac p) (p_rpub p) v (p_legacy p) (p_stk p) (p_iter p) (p_type p) (p_st p) (p_passkey p) (p_oobdata p) (p_bond p).
Definition set_legacy (v : bool) (p : pctx) : pctx := mkP (p_req p) (p_rsp p) (p_raddr p) (p_rat p) (p_rrand p) (p_rconf p) (p_laddr p) (p_lat p) (p_lrand p) (p_keys p) (p_mac p) (p_rpub p) (p_dhkey p) v (p_stk p) (p_iter p) (p_type p) (p_st p) (p_passkey p) (p_oobdata p) (p_bond p).
Definition set_stk (v : bytes) (p : pctx) : pctx := mkP (p_req p) (p_rsp p) (p_raddr p) (p_rat p) (p_rrand p) (p_rconf p) (p_laddr p) (p_lat p) (p_lrand p) (p_keys p) (p_mac p) (p_rpub p) (p_dhkey p) (p_legacy p) v (p_iter p) (p_type p) (p_st p) (p_passkey p) (p_oobdata p) (p_bond p).
Definition set_iter (v : nat) (p : pctx) : pctx := mkP (p_req p) (p_rsp p) (p_raddr p) (p_rat p) (p_rrand p) (p_rconf p) (p_laddr p) (p_lat p) (p_lrand p) (p_keys p) (p_mac p) (p_rpub p) (p_dhkey p) (p_legacy p) (p_stk p) v (p_type p) (p_st p) (p_passkey p) (p_oobdata p) (p_bond p).
Definition set_type (v : ptype) (p : pctx) : pctx := mkP (p_req p) (p_rsp p) (p_raddr p) (p_rat p) (p_rrand p) (p_rconf p) (p_laddr p) (p_lat p) (p_lrand p) (p_keys p) (p_mac p) (p_rpub p) (p_dhkey p) (p_legacy p) (p_stk p) (p_iter p) v (p_st p) (p_passkey p) (p_oobdata p) (p_bond p).
Definition set_st (v : pstate) (p : pctx) : pctx := mkP (p_req p) (p_rsp p) (p_raddr p) (p_rat p) (p_rrand p) (p_rconf p) (p_laddr p) (p_lat p) (p_lrand p) (p_keys p) (p_mac p) (p_rpub p) (p_dhkey p) (p_legacy p) (p_stk p) (p_iter p) (p_type p) v (p_passkey p) (p_oobdata p) (p_bond p).
Definition set_passkey (v : Z) (p : pctx) : pctx := mkP (p_req p) (p_rsp p) (p_raddr p) (p_rat p) (p_rrand p) (p_rconf p) (p_laddr p) (p_lat p) (p_lrand p) (p_keys p) (p_mac p) (p_rpub p) (p_dhkey p) (p_legacy p) (p_stk p) (p_iter p) (p_type p) (p_st p) v (p_oobdata p) (p_bond p).
Definition set_oobdata (v : bytes) (p : pctx) : pctx := mkP (p_req p) (p_rsp p) (p_raddr p) (p_rat p) (p_rrand p) (p_rconf p) (p_laddr p) (p_lat p) (p_lrand p) (p_keys p) (p_mac p) (p_rpub p) (p_dhkey p) (p_legacy p) (p_stk p) (p_iter p) (p_type p) (p_st p) (p_passkey p) v (p_bond p).
Definition set_bond (v : option bondinfo) (p : pctx) : pctx := mkP (p_req p) (p_rsp p) (p_raddr p) (p_rat p) (p_rrand p) (p_rconf p) (p_laddr p) (p_lat p) (p_lrand p) (p_keys p) (p_mac p) (p_rpub p) (p_dhkey p) (p_legacy p) (p_stk p) (p_iter p) (p_type p) (p_st p) (p_passkey p) (p_oobdata p) v.

(** What the environment answers during one step. *)
Record env := mkEnv {
  e_write : bool;              (* writePDU succeeds *)
  e_rand : bytes;              (* crypto/rand.Read: 16 bytes *)
  e_rand_ok : bool;            (* crypto/rand.Read succeeds *)
  e_key : option Z;            (* GenerateKeys: a private key, or an error *)
  e_find : option bondinfo;    (* bondManager.Find *)
  e_save : bool;               (* bondManager.Save succeeds *)
  e_cmd : bool }.              (* c.hci.Send succeeds *)

(** Observable effects: a PDU given to writePDU, a bond given to bondManager.Save, an LE Start Encryption command. *)
Inductive out :=
| OSend (pdu : bytes)
| OSave (addr : bytes) (b : bondinfo)
| OStartEnc (key : bytes) (ediv rnd : Z).

(** Sequential Go code acting on the context: final context, effects, and a value or (None) a Go error. *)
Definition M (A : Type) : Type := pctx -> go (pctx * list out * option A).
Definition ret {A} (a : A) : M A := fun p => Ret (p, [], Some a).
Definition fail {A} : M A := fun p => Ret (p, [], None).
Definition panic {A} : M A := fun _ => Panic.
Definition get : M pctx := fun p => Ret (p, [], Some p).
Definition modify (f : pctx -> pctx) : M unit := fun p => Ret (f p, [], Some tt).
Definition emit (o : out) : M unit := fun p => Ret (p, [o], Some tt).
Definition bind {A B} (m : M A) (k : A -> M B) : M B := fun p =>
  match m p with
  | Panic => Panic
  | Ret (p', o, None) => Ret (p', o, None)
  | Ret (p', o, Some a) =>
      match k a p' with
      | Panic => Panic
      | Ret (p'', o', r) => Ret (p'', o ++ o', r)
      end
  end.
Notation "'do' x <- m ; k" := (bind m (fun x => k)) (at level 200, x pattern, m at level 100, k at level 200).
Notation "m ;; k" := (bind m (fun _ => k)) (at level 199, k at level 200, right associativity).
Definition ofopt {A} (x : option A) : M A := match x with Some a => ret a | None => fail end.
Definition must (b : bool) : M unit := if b then ret tt else fail.
(** Run [m] and ignore the Go error it returns. *)
Definition ignore_err (m : M unit) : M unit := fun p =>
  match m p with
  | Panic => Panic
  | Ret (p', o, _) => Ret (p', o, Some tt)
  end.

(** sliceops/sliceops.go SwapBuf. *)
Definition swap (b : bytes) : bytes := rev b.
Definition blank (n : nat) : bytes := repeat 0 n.
Definition len_is (n : nat) (b : bytes) : bool := Nat.eqb (length b) n.

Section Prims.
Variable C : prims.

(** util.go:11-28 aesCMAC: aes.NewCipher accepts keys of 16, 24 or 32 bytes. *)
Definition aes_key_ok (k : bytes) : bool := len_is 16 k || len_is 24 k || len_is 32 k.
Definition aesCMAC (key msg : bytes) : option bytes :=
  if aes_key_ok key then Some (swap (cmac C (swap key) (swap msg))) else None.
(** util.go:38-47 aes128: nil on a bad key; Encrypt panics on a block shorter than 16 bytes. *)
Definition aes128 (key msg : bytes) : go (option bytes) :=
  if negb (aes_key_ok key) then Ret None
  else if Nat.ltb (length msg) 16 then Panic
  else Ret (Some (aes C key (firstn 16 msg))).
(** util.go:30-36 xorSlice: panics when b is shorter than a. *)
Fixpoint xorSlice (a b : bytes) : go bytes :=
  match a, b with
  | [], _ => Ret []
  | _ :: _, [] => Panic
  | x :: a', y :: b' => let! r := xorSlice a' b' in Ret (Z.lxor x y :: r)
  end.
(** util.go:49-55. *)
Definition isLegacy (authReq : Z) : bool := negb (Z.land authReq 8 =? 8).
(** util.go:57-69, and the same computation in context.go:178-188 and transport.go:152-163. *)
Definition getLegacyParingTK (key : Z) : bytes := swap (blank 12 ++ rev (le_bytes 4 key)).

(** crypto.go:11-28. *)
Definition smpF4 (u v x : bytes) (z : Z) : option bytes :=
  if len_is 32 u && len_is 32 v && len_is 16 x then aesCMAC x ([z] ++ v ++ u) else None.
(** crypto.go:30-76. *)
Definition f5_btle : bytes := [0x65; 0x6c; 0x74; 0x62].
Definition f5_salt : bytes := [0xbe; 0x83; 0x60; 0x5a; 0xdb; 0x0b; 0x37; 0x60; 0x38; 0xa5; 0xf5; 0xaa; 0x91; 0x83; 0x88; 0x6c].
Definition f5_msg (n1 n2 a1 a2 : bytes) (counter : Z) : bytes :=
  [0x00; 0x01] ++ a2 ++ a1 ++ n2 ++ n1 ++ f5_btle ++ [counter].
Definition smpF5 (w n1 n2 a1 a2 : bytes) : option (bytes * bytes) :=
  if len_is 32 w && len_is 16 n1 && len_is 16 n2 && len_is 7 a1 && len_is 7 a2 then
    match aesCMAC f5_salt w with
    | None => None
    | Some t =>
        match aesCMAC t (f5_msg n1 n2 a1 a2 0) with
        | None => None
        | Some macKey =>
            match aesCMAC t (f5_msg n1 n2 a1 a2 1) with
            | None => None
            | Some ltk => Some (macKey, ltk)
            end
        end
    end
  else None.
(** crypto.go:78-91. *)
Definition smpF6 (w n1 n2 r ioCap a1 a2 : bytes) : option bytes :=
  if len_is 16 w && len_is 16 n1 && len_is 16 n2 && len_is 16 r && len_is 3 ioCap && len_is 7 a1 && len_is 7 a2
  then aesCMAC w (a2 ++ a1 ++ ioCap ++ r ++ n2 ++ n1) else None.
(** crypto.go:93-109 (not called by the package). *)
Definition smpG2 (u v x y : bytes) : option Z :=
  if len_is 32 u && len_is 32 v && len_is 16 x && len_is 16 y then
    match aesCMAC x (y ++ v ++ u) with
    | None => None
    | Some h => Some (le_val (firstn 4 h) mod 1000000)
    end
  else None.
(** crypto.go:112-122. *)
Definition smpE (key msg : bytes) : go (option bytes) :=
  let! o := aes128 (swap key) (swap msg) in
  Ret (match o with Some x => Some (swap x) | None => None end).
(** crypto.go:125-150. *)
Definition smpC1 (k r preq pres : bytes) (iat rat : Z) (la ra : bytes) : go (option bytes) :=
  let p1 := [iat; rat] ++ preq ++ pres in
  let p2 := ra ++ la ++ [0; 0; 0; 0] in
  let! x1 := xorSlice r p1 in
  let! m1 := smpE k x1 in
  match m1 with
  | None => Ret None
  | Some m1 =>
      let! x2 := xorSlice m1 p2 in
      smpE k x2
  end.
(** crypto.go:152-174. *)
Definition smpS1 (k r1 r2 : bytes) : go (option bytes) :=
  if len_is 16 k && len_is 16 r1 && len_is 16 r2 then smpE k (firstn 8 r2 ++ firstn 8 r1) else Ret None.

(** transport.go:16-22. *)
Definition cfg_bytes (c : smpcfg) : bytes := [io_cap c; oob_flag c; auth_req c; key_size c; init_dist c; resp_dist c].
Definition buildPairingReq (c : smpcfg) : bytes := 1 :: cfg_bytes c.
Definition buildPairingRsp (c : smpcfg) : bytes := 2 :: cfg_bytes c.

(** ecdh.go:43-64: e.Marshal of a nil public key panics (type assertion). *)
Definition MarshalPublicKeyX (k : option bytes) : go bytes :=
  match k with None => Panic | Some k => Ret (swap (firstn 32 k)) end.
Definition MarshalPublicKeyXY (k : option bytes) : go bytes :=
  match k with None => Panic | Some k => Ret (swap (firstn 32 k) ++ swap (skipn 32 k)) end.
(** ecdh.go:28-41. *)
Definition UnmarshalPublicKey (b : bytes) : option bytes :=
  let k := swap (firstn 32 b) ++ swap (skipn 32 b) in
  if on_curve C k then Some k else None.
(** p.scECDHKeys.public: a nil pointer dereference when there are no keys. *)
Definition own_public (p : pctx) : option bytes := match p_keys p with None => None | Some k => Some (pub_of C k) end.

(** handler.go:317-333. *)
Definition ioCapsTableSC : list (list ptype) :=
  [ [JustWorks; JustWorks; Passkey; JustWorks; Passkey];
    [JustWorks; NumericComp; Passkey; JustWorks; NumericComp];
    [Passkey; Passkey; Passkey; JustWorks; Passkey];
    [JustWorks; JustWorks; JustWorks; JustWorks; JustWorks];
    [Passkey; NumericComp; Passkey; JustWorks; NumericComp] ].
Definition ioCapsTableLegacy : list (list ptype) :=
  [ [JustWorks; JustWorks; Passkey; JustWorks; Passkey];
    [JustWorks; JustWorks; Passkey; JustWorks; Passkey];
    [Passkey; Passkey; Passkey; JustWorks; Passkey];
    [JustWorks; JustWorks; JustWorks; JustWorks; JustWorks];
    [Passkey; Passkey; Passkey; JustWorks; Passkey] ].
Definition table_at (t : list (list ptype)) (i j : Z) : go ptype :=
  let! row := gidx t (Z.to_nat i) in gidx row (Z.to_nat j).
(** handler.go:335-367.  IO capabilities are bytes, hence non-negative. *)
Definition determinePairingType (req rsp : smpcfg) (legacy : bool) : go ptype :=
  if (oob_flag req =? 1) && (oob_flag rsp =? 1) && legacy then Ret Oob
  else if (oob_flag req =? 1) || (oob_flag rsp =? 1) then Ret Oob
  else if (Z.land (auth_req req) 4 =? 0) && (Z.land (auth_req rsp) 4 =? 0) then Ret JustWorks
  else if (io_cap rsp >=? 5) || (io_cap req >=? 5) then Ret JustWorks
  else table_at (if legacy then ioCapsTableLegacy else ioCapsTableSC) (io_cap rsp) (io_cap req).

Definition lift {A} (x : go A) : M A := fun p => match x with Panic => Panic | Ret a => Ret (p, [], Some a) end.
Definition liftE {A} (x : go (option A)) : M A := do o <- lift x; ofopt o.
Definition lrand (p : pctx) : bytes := match p_lrand p with None => [] | Some r => r end.

(** transport.go:64-77 send: the two-byte length, the fixed SMP channel and the PDU. *)
Definition frame (b : bytes) : bytes := le16 (Z.of_nat (length b)) ++ le16 6 ++ b.
Definition send (e : env) (b : bytes) : M unit := emit (OSend (frame b)) ;; must (e_write e).
(** transport.go:79-94 (the address computations there are unused). *)
Definition sendPairingRequest (e : env) : M unit := do p <- get; send e (buildPairingReq (p_req p)).
(** transport.go:45-54. *)
Definition StartPairing (e : env) : M unit := modify (set_st WaitPairingResponse) ;;
  (fun p => match sendPairingRequest e p with
            | Ret (p', o, None) => Ret (set_st Error p', o, None)
            | r => r
            end).
(** transport.go:56-62; Save rejects a nil bond (linux/hci/bond/manager.go:97-99). *)
Definition saveBondInfo (e : env) : M unit :=
  do p <- get;
  if negb (Z.land (auth_req (p_req p)) 3 =? 1) then ret tt
  else match p_bond p with
       | None => fail
       | Some b => emit (OSave (p_raddr p) b) ;; must (e_save e)
       end.
(** transport.go:96-116: a failed GenerateKeys is only logged. *)
Definition sendPublicKey (e : env) : M unit :=
  do p <- get;
  match p_keys p with None => modify (set_keys (e_key e)) | Some _ => ret tt end ;;
  do p <- get;
  do k <- lift (MarshalPublicKeyXY (own_public p));
  modify (set_st WaitPublicKey) ;;
  send e (12 :: k).
(** transport.go:118-136. *)
Definition sendPairingRandom (e : env) : M unit :=
  do p <- get;
  match p_lrand p with
  | None => must (e_rand_ok e) ;; modify (set_lrand (Some (e_rand e)))
  | Some _ => ret tt
  end ;;
  modify (set_st WaitRandom) ;;
  do p <- get;
  send e (4 :: lrand p).
(** context.go:176-191 and transport.go:150-167. *)
Definition check_r (p : pctx) : bytes :=
  match p_type p with
  | Passkey => getLegacyParingTK (p_passkey p)
  | Oob => p_oobdata p
  | _ => blank 16
  end.
Definition io_bytes (c : smpcfg) : bytes := swap [auth_req c; oob_flag c; io_cap c].
(** transport.go:138-177. *)
Definition sendDHKeyCheck (e : env) : M unit :=
  do p <- get;
  do ea <- ofopt (smpF6 (p_mac p) (lrand p) (p_rrand p) (check_r p) (io_bytes (p_req p))
                        (p_laddr p ++ [p_lat p]) (p_raddr p ++ [p_rat p]));
  modify (set_st WaitDhKeyCheck) ;;
  send e (13 :: ea).
(** The temporary key of legacy pairing: transport.go:196-199, context.go:231-234, handler.go:153-158. *)
Definition legacy_tk (p : pctx) : bytes :=
  match p_type p with Passkey => getLegacyParingTK (p_passkey p) | _ => getLegacyParingTK 0 end.
(** transport.go:179-214 (there the key of the other methods is 16 zero bytes, as getLegacyParingTK(0)). *)
Definition sendMConfirm (e : env) : M unit :=
  must (e_rand_ok e) ;;
  modify (set_lrand (Some (e_rand e))) ;;
  do p <- get;
  do c1 <- liftE (smpC1 (legacy_tk p) (e_rand e) (buildPairingReq (p_req p)) (buildPairingRsp (p_rsp p))
                        (p_lat p) (p_rat p) (p_laddr p) (p_raddr p));
  modify (set_st WaitConfirm) ;;
  send e (3 :: c1).

(** context.go:62-84. *)
Definition checkConfirm : M unit :=
  do p <- get;
  do kbx <- lift (MarshalPublicKeyX (p_rpub p));
  do kax <- lift (MarshalPublicKeyX (own_public p));
  do c <- ofopt (smpF4 kbx kax (p_rrand p) 0);
  must (beq_bytes c (p_rconf p)).
(** context.go:94 and 128: 0x80 | (byte)((key & (1<<i)) >> i). *)
Definition passkey_z (key : Z) (i : nat) : Z :=
  Z.lor 128 (u8 (Z.shiftr (Z.land key (Z.shiftl 1 (Z.of_nat i))) (Z.of_nat i))).
(** context.go:86-115. *)
Definition checkPasskeyConfirm : M unit :=
  do p <- get;
  do kbx <- lift (MarshalPublicKeyX (p_rpub p));
  do kax <- lift (MarshalPublicKeyX (own_public p));
  do c <- ofopt (smpF4 kbx kax (p_rrand p) (passkey_z (p_passkey p) (p_iter p)));
  must (beq_bytes (p_rconf p) c).
(** context.go:117-138 and handler.go:310-315: errors of the random source, of smpF4 (the confirm value is then empty)
    and of the write are ignored. *)
Definition continuePassKeyPairing (e : env) : M unit :=
  do p <- get;
  do kbx <- lift (MarshalPublicKeyX (p_rpub p));
  do kax <- lift (MarshalPublicKeyX (own_public p));
  modify (set_lrand (Some (e_rand e))) ;;
  ignore_err (send e (3 :: match smpF4 kax kbx (e_rand e) (passkey_z (p_passkey p) (p_iter p)) with
                           | Some c => c
                           | None => []
                           end)).
(** handler.go:303-308. *)
Definition startPassKeyPairing (e : env) : M unit := modify (set_iter 0%nat) ;; continuePassKeyPairing e.
(** const.go:19. *)
Definition passkeyIterationCount : nat := 20.
(** handler.go:287-301. *)
Definition handlePassKeyRandom (e : env) : M bool :=
  checkPasskeyConfirm ;;
  do p <- get;
  modify (set_iter (S (p_iter p))) ;;
  if Nat.ltb (S (p_iter p)) passkeyIterationCount then continuePassKeyPairing e ;; ret true else ret false.
(** context.go:205-222. *)
Definition generateDHKey : M unit :=
  do p <- get;
  match p_keys p, p_rpub p with
  | Some k, Some q => modify (set_dhkey (swap (dh C k q)))
  | _, _ => fail
  end.
(** context.go:140-163. *)
Definition calcMacLtk : M unit :=
  generateDHKey ;;
  do p <- get;
  do r <- ofopt (smpF5 (p_dhkey p) (lrand p) (p_rrand p) (p_laddr p ++ [p_lat p]) (p_raddr p ++ [p_rat p]));
  modify (set_bond (Some (mkBond (snd r) 0 0 false))) ;;
  modify (set_mac (fst r)).
(** context.go:165-203. *)
Definition checkDHKeyCheck (check : bytes) : M unit :=
  do p <- get;
  do c <- ofopt (smpF6 (p_mac p) (p_rrand p) (lrand p) (check_r p) (io_bytes (p_rsp p))
                       (p_raddr p ++ [p_rat p]) (p_laddr p ++ [p_lat p]));
  must (beq_bytes check c).
(** context.go:224-253. *)
Definition checkLegacyConfirm : M unit :=
  do p <- get;
  do c1 <- liftE (smpC1 (legacy_tk p) (p_rrand p) (buildPairingReq (p_req p)) (buildPairingRsp (p_rsp p))
                        (p_lat p) (p_rat p) (p_laddr p) (p_raddr p));
  must (beq_bytes (p_rconf p) c1).

(** The 16-byte LongTermKey array of the command; a longer slice is an index out of range panic. *)
Definition key_array (k : bytes) : go bytes :=
  if Nat.leb (length k) 16 then Ret (k ++ blank (16 - length k)) else Panic.
(** linux/hci/conn.go:270-323 encrypt and stkEncrypt, with manager.go:165-171 LegacyPairingInfo. *)
Definition conn_encrypt (e : env) (b : option bondinfo) : M unit :=
  do p <- get;
  if p_legacy p && negb (len_is 0 (p_stk p)) then
    do k <- lift (key_array (p_stk p));
    emit (OStartEnc k 0 0) ;; must (e_cmd e)
  else match b with
  | None => fail
  | Some b =>
      if blegacy b && negb (len_is 16 (ltk b)) then fail
      else if blegacy b && ((ediv b =? 0) || (brand b =? 0)) then fail
      else
        do k <- lift (key_array (ltk b));
        emit (OStartEnc k (ediv b) (brand b)) ;; must (e_cmd e)
  end.
(** manager.go:177-179 Encrypt. *)
Definition Encrypt (e : env) : M unit := do p <- get; conn_encrypt e (p_bond p).
(** manager.go:142-148 StartEncryption. *)
Definition StartEncryption (e : env) : M unit := do b <- ofopt (e_find e); conn_encrypt e (Some b).

(** handler.go:28-65 (the table of method names has all four methods, so the lookup there cannot fail). *)
Definition smpOnPairingResponse (e : env) (b : bytes) : M unit :=
  match b with
  | i :: o :: a :: k :: ik :: rk :: _ =>
      modify (fun p => set_type JustWorks (set_iter 0%nat (set_rsp (mkCfg i o a k ik rk) p))) ;;
      modify (set_legacy (isLegacy a)) ;;
      do p <- get;
      do t <- lift (determinePairingType (p_req p) (p_rsp p) (p_legacy p));
      modify (set_type t) ;;
      do p <- get;
      if (match t with Oob => true | _ => false end) && len_is 0 (p_oobdata p) then modify (set_st Error) ;; fail
      else if p_legacy p then sendMConfirm e else sendPublicKey e
  | _ => fail
  end.
(** handler.go:67-84. *)
Definition smpOnPairingConfirm (e : env) (b : bytes) : M unit :=
  if len_is 16 b then modify (set_rconf b) ;; sendPairingRandom e else fail.
(** handler.go:105-140. *)
Definition onSecureRandom (e : env) : M unit :=
  do p <- get;
  do more <- (match p_type p with Passkey => handlePassKeyRandom e | _ => checkConfirm ;; ret false end);
  if more : bool then ret tt else calcMacLtk ;; sendDHKeyCheck e.
(** handler.go:142-171. *)
Definition onLegacyRandom (e : env) : M unit :=
  checkLegacyConfirm ;;
  do p <- get;
  do stk <- liftE (smpS1 (legacy_tk p) (p_rrand p) (lrand p));
  modify (set_stk stk) ;;
  (if Z.land (auth_req (p_req p)) 3 =? 0 then modify (set_st Finished) else ret tt) ;;
  Encrypt e.
(** handler.go:86-103. *)
Definition smpOnPairingRandom (e : env) (b : bytes) : M unit :=
  if len_is 16 b then
    modify (set_rrand b) ;;
    do p <- get;
    if p_legacy p then onLegacyRandom e else onSecureRandom e
  else fail.
(** handler.go:173-201. *)
Definition smpOnPairingPublicKey (e : env) (b : bytes) : M unit :=
  if len_is 64 b then
    do p <- get;
    do k <- lift (MarshalPublicKeyXY (own_public p));
    if beq_bytes k b then fail
    else match UnmarshalPublicKey b with
         | None => fail
         | Some q =>
             modify (set_rpub (Some q)) ;;
             match p_type p with Passkey => startPassKeyPairing e | _ => ret tt end
         end
  else fail.
(** handler.go:203-226. *)
Definition smpOnDHKeyCheck (e : env) (b : bytes) : M unit :=
  checkDHKeyCheck b ;; saveBondInfo e ;; modify (set_st Finished) ;; Encrypt e.
(** handler.go:228-236. *)
Definition smpOnPairingFailed (e : env) (b : bytes) : M unit := fail.
(** handler.go:238-262. *)
Definition smpOnSecurityRequest (e : env) (b : bytes) : M unit :=
  match b with
  | [] => fail
  | a :: _ =>
      let again := modify (fun p => set_req (mkCfg (io_cap (p_req p)) (oob_flag (p_req p)) a (key_size (p_req p))
                                                   (init_dist (p_req p)) (resp_dist (p_req p))) p) ;;
                   sendPairingRequest e in
      if Z.land a 3 =? 1 then
        match e_find e with
        | Some bi => modify (set_bond (Some bi)) ;; Encrypt e
        | None => again
        end
      else again
  end.
(** handler.go:264-269. *)
Definition smpOnEncryptionInformation (e : env) (b : bytes) : M unit := modify (set_bond (Some (mkBond b 0 0 true))).
(** handler.go:271-285. *)
Definition smpOnMasterIdentification (e : env) (b : bytes) : M unit :=
  do d <- lift (gslice b 0 2);
  do v <- lift (gle16 d);
  do r <- lift (gfrom b 2);
  do r8 <- lift (gslice r 0 8);
  do p <- get;
  match p_bond p with
  | None => panic
  | Some bi =>
      modify (set_bond (Some (mkBond (ltk bi) v (le_val r8) true))) ;;
      saveBondInfo e ;; modify (set_st Finished)
  end.

(** dispatch.go:3-19. *)
Definition dispatch (e : env) (code : Z) (b : bytes) : option (M unit) :=
  if code =? 2 then Some (smpOnPairingResponse e b)
  else if code =? 3 then Some (smpOnPairingConfirm e b)
  else if code =? 4 then Some (smpOnPairingRandom e b)
  else if code =? 5 then Some (smpOnPairingFailed e b)
  else if code =? 6 then Some (smpOnEncryptionInformation e b)
  else if code =? 7 then Some (smpOnMasterIdentification e b)
  else if code =? 11 then Some (smpOnSecurityRequest e b)
  else if code =? 12 then Some (smpOnPairingPublicKey e b)
  else if code =? 13 then Some (smpOnDHKeyCheck e b)
  else None.

(** The manager of one connection: the pairing context, whether a call of Pair is waiting in waitResult, whether the result
    channel is closed, whether the goroutine calling Handle is blocked for good on [m.result <- err]. *)
Record smp := mkSmp { ctx : pctx; waiting : bool; rclosed : bool; stuck : bool }.
(** NewSmpManager (manager.go:38-44) followed by InitContext (62-74, called by newConn, linux/hci/conn.go:115-118). *)
Definition no_cfg : smpcfg := mkCfg 0 0 0 0 0 0.
Definition smp_new (la ra : bytes) (lat rat : Z) : smp :=
  mkSmp (mkP default_cfg no_cfg (swap ra) rat [] [] (swap la) lat None None [] None [] false [] 0 JustWorks Init 0 [] None)
        false false false.

(** What happens at the API: effects, and the return of a pending or immediate call of Pair. *)
Inductive ev :=
| EOut (o : out)
| EPairRet (ok : bool)
| EHandleErr.           (* Handle returned an error *)

(** manager.go:92-104: what Handle does after the handler.  Sending on the unbuffered result channel completes if Pair is
    waiting, panics if the channel is closed, and blocks otherwise: Pair cannot wait again, since it refuses to start
    unless the state is Init.  When the state is Finished the channel is closed, once. *)
Definition after_handler (s : smp) (p : pctx) (err : bool) : go (smp * list ev) :=
  if err then
    let p := set_st Error p in
    if rclosed s then Panic
    else if waiting s then Ret (mkSmp p false false false, [EPairRet false; EHandleErr])
    else Ret (mkSmp p false false true, [])
  else
    match p_st p with
    | Finished =>
        if rclosed s then Ret (mkSmp p (waiting s) true false, [])
        else Ret (mkSmp p false true false, if waiting s then [EPairRet true] else [])
    | _ => Ret (mkSmp p (waiting s) (rclosed s) false, [])
    end.
(** manager.go:76-105 Handle; [pdu] includes the 4-byte L2CAP header (pdu.go:10). *)
Definition Handle (e : env) (s : smp) (pdu : bytes) : go (smp * list ev) :=
  let! payload := gfrom pdu 4 in
  let! code := gidx payload 0 in
  let! data := gfrom payload 1 in
  match dispatch e code data with
  | None =>
      let! r := send e [5; 5] (ctx s) in
      match r with
      | (p, o, Some _) => Ret (mkSmp p (waiting s) (rclosed s) false, map EOut o)
      | (p, o, None) => Ret (mkSmp p (waiting s) (rclosed s) false, map EOut o ++ [EHandleErr])
      end
  | Some h =>
      let! r := h (ctx s) in
      match r with
      | (p, o, res) =>
          let! r := after_handler s p (match res with None => true | Some _ => false end) in
          Ret (fst r, map EOut o ++ snd r)
      end
  end.
(** manager.go:107-131 Pair, up to waitResult.  The check, the updates and the first write are one step. *)
Definition Pair (e : env) (s : smp) (passkey : Z) (oob : bytes) : go (smp * list ev) :=
  match p_st (ctx s) with
  | Init =>
      let p := set_oobdata oob (set_passkey passkey (ctx s)) in
      let p := if Nat.ltb 0 (length oob)
               then set_req (mkCfg (io_cap (p_req p)) 1 (auth_req (p_req p)) (key_size (p_req p))
                                   (init_dist (p_req p)) (resp_dist (p_req p))) p
               else p in
      let! r := StartPairing e p in
      match r with
      | (p, o, Some _) => Ret (mkSmp p true (rclosed s) (stuck s), map EOut o)
      | (p, o, None) => Ret (mkSmp p false (rclosed s) (stuck s), map EOut o ++ [EPairRet false])
      end
  | _ => Ret (s, [EPairRet false])
  end.

(** One step of the connection: a received PDU (only while the receive goroutine is not blocked), a call of Pair, the time-out
    of a waiting Pair (manager.go:133-140), a call of StartEncryption (the key it uses is found in the bond store). *)
Inductive sact :=
| AMsg (e : env) (pdu : bytes)
| APair (e : env) (passkey : Z) (oob : bytes)
| APairTimeout
| AStartEncryption (e : env).
Definition sstep (s : smp) (a : sact) : option (go (smp * list ev)) :=
  match a with
  | AMsg e pdu => if stuck s then None else Some (Handle e s pdu)
  | APair e k o => Some (Pair e s k o)
  | APairTimeout => if waiting s then Some (Ret (mkSmp (ctx s) false (rclosed s) (stuck s), [EPairRet false])) else None
  | AStartEncryption e =>
      Some (let! r := StartEncryption e (ctx s) in
            match r with (p, o, _) => Ret (mkSmp p (waiting s) (rclosed s) (stuck s), map EOut o) end)
  end.
(** Executions that do not panic: the actions with the events each produced. *)
Inductive srun : smp -> list (sact * list ev) -> smp -> Prop :=
| srun_nil s : srun s [] s
| srun_snoc s l s1 a s2 evs : srun s l s1 -> sstep s1 a = Some (Ret (s2, evs)) -> srun s (l ++ [(a, evs)]) s2.
End Prims.
