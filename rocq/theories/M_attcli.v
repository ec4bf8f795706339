(** Model of the operations of linux/att/client.go and the encodings of att_gen.go they use.
    [cli] is the client between two calls: the contents of its transmit buffer (txBuf), the connection's TxMTU and RxMTU, and the log of
    all PDUs written so far.  The peer is any function from that log (ending in the request) to what happens: None = the write fails,
    Some l = the PDUs handed to sendReq before its 2 s timer fires or an error arrives.  A failing write of the error answer in sendReq has
    the result of a timeout, i.e. of a shorter l.  Not modelled: logging, the texts of errors. *)
Require Import Verif.Base Verif.M_attsrv.

Record cli := mkCli { ctx : bytes; cmtu : Z; cserved : Z; clog : list bytes }.
Notation peer := (list bytes -> option (list bytes)).
(** results: success, the peer's ATT error, ErrInvalidArgument, ErrInvalidResponse, transport error or timeout *)
Inductive cres (A : Type) := COk (a : A) | CAtt (code : Z) | CArg | CInvalid | CFail.
Arguments COk {A} a. Arguments CAtt {A} code. Arguments CArg {A}. Arguments CInvalid {A}. Arguments CFail {A}.

(** Go copy(b[off:], p) for off <= len(b) *)
Definition ov (b : bytes) (off : nat) (p : bytes) : bytes := firstn off b ++ firstn (length b - off) p ++ skipn (off + length p) b.
(** b[i] = x *)
Definition put8 (i : nat) (x : Z) (b : bytes) : go bytes := gset b i x.
(** binary.LittleEndian.PutUint16(b[i:], x) *)
Definition put16 (i : nat) (x : Z) (b : bytes) : go bytes := if Nat.leb (i + 2) (length b) then Ret (ov b i (le16 x)) else Panic.
(** copy(b[i:], p) *)
Definition putn (i : nat) (p : bytes) (b : bytes) : go bytes := if Nat.leb i (length b) then Ret (ov b i p) else Panic.
(** the setters of a request applied to txBuf[:n]: the request and the new contents of txBuf *)
Definition build (tx : bytes) (n : nat) (f : bytes -> go bytes) : go (bytes * bytes) :=
  let! r0 := gslice tx 0 n in let! r := f r0 in Ret (r, r ++ skipn n tx).

(** att.go:20-33 rspOfReq; 0 for a missing key *)
Definition rsp_of_req (op : Z) : Z :=
  match op with 2 => 3 | 4 => 5 | 6 => 7 | 8 => 9 | 10 => 11 | 12 => 13 | 14 => 15 | 16 => 17 | 18 => 19 | 22 => 23 | 24 => 25 | 29 => 30 | _ => 0 end.
(** client.go:519-540 the loop of sendReq *)
Fixpoint await (op : Z) (inc : list bytes) (log : list bytes) : go (list bytes * option bytes) :=
  match inc with
  | [] => Ret (log, None)
  | r :: t => let! o := gidx r 0 in
      if (o =? 1) || (o =? rsp_of_req op) then Ret (log, Some r) else await op t (log ++ [err_rsp o 0 e_req_not_supp])
  end.
(** client.go:514-542 *)
Definition send_req (p : peer) (c : cli) (tx' : bytes) (req : bytes) : go (cli * option bytes) :=
  let! op := gidx req 0 in
  let log := clog c ++ [req] in
  match p log with
  | None => Ret (mkCli tx' (cmtu c) (cserved c) (clog c), None)
  | Some inc => let! (log', r) := await op inc log in Ret (mkCli tx' (cmtu c) (cserved c) log', r)
  end.
(** client.go:509-512 *)
Definition send_cmd (p : peer) (c : cli) (tx' : bytes) (req : bytes) : go (cli * cres unit) :=
  match p (clog c ++ [req]) with
  | None => Ret (mkCli tx' (cmtu c) (cserved c) (clog c), CFail)
  | Some _ => Ret (mkCli tx' (cmtu c) (cserved c) (clog c ++ [req]), COk tt)
  end.
(** the switch every operation applies to its response: [rsp[0] != rsp.AttributeOpcode()] compares rsp[0] with itself *)
Definition check {A} (r : bytes) (ok : bytes -> go (cres A)) : go (cres A) :=
  let! o := gidx r 0 in
  if (o =? 1) && Nat.eqb (length r) 5 then let! e := gidx r 4 in Ret (CAtt e)
  else if (o =? 1) && negb (Nat.eqb (length r) 5) then Ret CInvalid
  else ok r.
Definition transact {A} (p : peer) (c : cli) (n : nat) (f : bytes -> go bytes) (ok : bytes -> go (cres A)) : go (cli * cres A) :=
  let! (req, tx') := build (ctx c) n f in
  let! (c', r) := send_req p c tx' req in
  match r with None => Ret (c', CFail) | Some b => let! x := check b ok in Ret (c', x) end.

(** client.go:72-118.  [cserved] is the RxMTU announced (SetRxMTU); a success replaces txBuf when the sizes differ. *)
Definition exchange_mtu (p : peer) (c : cli) (m : Z) : go (cli * cres Z) :=
  if (m <? 23) || (m >? 515) then Ret (c, CArg) else
  let c := mkCli (ctx c) (cmtu c) m (clog c) in
  let! (c', r) := transact p c 3 (fun b => let! b := put8 0 2 b in put16 1 m b)
    (fun r => if negb (Nat.eqb (length r) 3) then Ret CInvalid else let! v := r16 r 1 in Ret (COk v)) in
  match r with
  | COk v => if Z.of_nat (length (ctx c')) =? v then Ret (c', r) else Ret (mkCli (repeat 0 (Z.to_nat v)) v (cserved c') (clog c'), r)
  | _ => Ret (c', r)
  end.
(** client.go:127-163 *)
Definition find_information (p : peer) (c : cli) (st en : Z) : go (cli * cres (Z * bytes)) :=
  if (st =? 0) || (st >? en) then Ret (c, CArg) else
  transact p c 5 (fun b => let! b := put8 0 4 b in let! b := put16 1 st b in put16 3 en b)
    (fun r => if Nat.ltb (length r) 6 then Ret CInvalid else
       let! f := gidx r 1 in
       if (f =? 1) && negb (Nat.eqb ((length r - 2) mod 4) 0) then Ret CInvalid
       else if (f =? 2) && negb (Nat.eqb ((length r - 2) mod 18) 0) then Ret CInvalid
       else let! d := gfrom r 2 in Ret (COk (f, d))).
(** x % y of int: panics for y = 0 *)
Definition gmod (x y : nat) : go nat := match y with O => Panic | _ => Ret (x mod y)%nat end.
(** client.go:202-213, 350-364: the checks shared by Read By Type and Read By Group Type *)
Definition data_list (r : bytes) : go (cres (Z * bytes)) :=
  if Nat.ltb (length r) 4 then Ret CInvalid else
  let! l := gidx r 1 in let! d := gfrom r 2 in
  let! m := gmod (length d) (Z.to_nat l) in
  if negb (Nat.eqb m 0) then Ret CInvalid else Ret (COk (l, d)).
Definition uuid_len_ok (u : bytes) : bool := Nat.eqb (length u) 2 || Nat.eqb (length u) 16.
(** client.go:181-214 *)
Definition read_by_type (p : peer) (c : cli) (st en : Z) (u : bytes) : go (cli * cres (Z * bytes)) :=
  if (st >? en) || negb (uuid_len_ok u) then Ret (c, CArg) else
  transact p c (5 + length u) (fun b => let! b := put8 0 8 b in let! b := put16 1 st b in let! b := put16 3 en b in putn 5 u b) data_list.
(** client.go:218-246; len(rsp) < 1 cannot be: rsp[0] was read *)
Definition read (p : peer) (c : cli) (h : Z) : go (cli * cres bytes) :=
  transact p c 3 (fun b => let! b := put8 0 10 b in put16 1 h b) (fun r => let! v := gfrom r 1 in Ret (COk v)).
(** client.go:251-280 *)
Definition read_blob (p : peer) (c : cli) (h off : Z) : go (cli * cres bytes) :=
  transact p c 5 (fun b => let! b := put8 0 12 b in let! b := put16 1 h b in put16 3 off b) (fun r => let! v := gfrom r 1 in Ret (COk v)).
(** client.go:303-307 the loop filling in the handles *)
Fixpoint put_handles (i : nat) (hs : list Z) (b : bytes) : go bytes :=
  match hs with [] => Ret b | h :: t => let! b := put16 i h b in put_handles (i + 2) t b end.
(** client.go:288-324 *)
Definition read_multiple (p : peer) (c : cli) (hs : list Z) : go (cli * cres bytes) :=
  if Nat.ltb (length hs) 2 || (2 * Z.of_nat (length hs) >? cmtu c - 1) then Ret (c, CArg) else
  transact p c (1 + length hs * 2) (fun b => let! b := put8 0 14 b in put_handles 1 hs b) (fun r => let! v := gfrom r 1 in Ret (COk v)).
(** client.go:329-365 *)
Definition read_by_group_type (p : peer) (c : cli) (st en : Z) (u : bytes) : go (cli * cres (Z * bytes)) :=
  if (st >? en) || negb (uuid_len_ok u) then Ret (c, CArg) else
  transact p c (5 + length u) (fun b => let! b := put8 0 16 b in let! b := put16 1 st b in let! b := put16 3 en b in putn 5 u b) data_list.
(** client.go:369-399 *)
Definition write (p : peer) (c : cli) (h : Z) (v : bytes) : go (cli * cres unit) :=
  if Z.of_nat (length v) >? cmtu c - 3 then Ret (c, CArg) else
  transact p c (3 + length v) (fun b => let! b := put8 0 18 b in let! b := put16 1 h b in putn 3 v b) (fun _ => Ret (COk tt)).
(** client.go:403-418 *)
Definition write_command (p : peer) (c : cli) (h : Z) (v : bytes) : go (cli * cres unit) :=
  if Z.of_nat (length v) >? cmtu c - 3 then Ret (c, CArg) else
  let! (req, tx') := build (ctx c) (3 + length v) (fun b => let! b := put8 0 82 b in let! b := put16 1 h b in putn 3 v b) in
  send_cmd p c tx' req.
(** client.go:422-438; att_gen.go:487 copies the signature to r[3:15], over the value *)
Definition signed_write (p : peer) (c : cli) (h : Z) (v sig : bytes) : go (cli * cres unit) :=
  if Z.of_nat (length v) >? cmtu c - 15 then Ret (c, CArg) else
  let! (req, tx') := build (ctx c) (15 + length v)
    (fun b => let! b := put8 0 210 b in let! b := put16 1 h b in let! b := putn 3 v b in putn 3 (firstn 12 sig) b) in
  send_cmd p c tx' req.
(** client.go:444-476; the value is never copied into the request *)
Definition prepare_write (p : peer) (c : cli) (h off : Z) (v : bytes) : go (cli * cres (Z * Z * bytes)) :=
  if Z.of_nat (length v) >? cmtu c - 5 then Ret (c, CArg) else
  transact p c (5 + length v) (fun b => let! b := put8 0 22 b in let! b := put16 1 h b in put16 3 off b)
    (fun r => if Nat.ltb (length r) 5 then Ret CInvalid else
       let! h' := r16 r 1 in let! o' := r16 r 3 in let! d := gfrom r 5 in Ret (COk (h', o', d))).
(** client.go:481-507; SetFlags stores to r[1] of a one byte slice *)
Definition execute_write (p : peer) (c : cli) (flags : Z) : go (cli * cres unit) :=
  transact p c 1 (fun b => let! b := put8 0 24 b in put8 1 flags b)
    (fun r => Ret (COk tt)).
(** client.go:37-58 NewClient *)
Definition new_client (mtu : Z) : cli := mkCli (repeat 0 (Z.to_nat mtu)) mtu mtu [].

(** All operations as data, with their results *)
Inductive cop := OMtu (m : Z) | OFindInfo (st en : Z) | OReadByType (st en : Z) (u : bytes) | ORead (h : Z) | OReadBlob (h off : Z)
  | OReadMultiple (hs : list Z) | OReadByGroup (st en : Z) (u : bytes) | OWrite (h : Z) (v : bytes) | OWriteCmd (h : Z) (v : bytes)
  | OSigned (h : Z) (v sig : bytes) | OPrepare (h off : Z) (v : bytes) | OExecute (f : Z).
Inductive cval := VUnit | VMtu (m : Z) | VList (f : Z) (d : bytes) | VBytes (b : bytes) | VPrep (h off : Z) (d : bytes).
Definition cmap {A} (f : A -> cval) (x : go (cli * cres A)) : go (cli * cres cval) :=
  let! (c, r) := x in Ret (c, match r with COk a => COk (f a) | CAtt e => CAtt e | CArg => CArg | CInvalid => CInvalid | CFail => CFail end).
Definition run_op (p : peer) (c : cli) (o : cop) : go (cli * cres cval) :=
  match o with
  | OMtu m => cmap VMtu (exchange_mtu p c m)
  | OFindInfo st en => cmap (fun x => VList (fst x) (snd x)) (find_information p c st en)
  | OReadByType st en u => cmap (fun x => VList (fst x) (snd x)) (read_by_type p c st en u)
  | ORead h => cmap VBytes (read p c h)
  | OReadBlob h off => cmap VBytes (read_blob p c h off)
  | OReadMultiple hs => cmap VBytes (read_multiple p c hs)
  | OReadByGroup st en u => cmap (fun x => VList (fst x) (snd x)) (read_by_group_type p c st en u)
  | OWrite h v => cmap (fun _ => VUnit) (write p c h v)
  | OWriteCmd h v => cmap (fun _ => VUnit) (write_command p c h v)
  | OSigned h v sig => cmap (fun _ => VUnit) (signed_write p c h v sig)
  | OPrepare h off v => cmap (fun x => VPrep (fst (fst x)) (snd (fst x)) (snd x)) (prepare_write p c h off v)
  | OExecute f => cmap (fun _ => VUnit) (execute_write p c f)
  end.
