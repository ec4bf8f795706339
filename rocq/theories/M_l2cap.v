(** Model of linux/hci/conn.go: Write, writePDU, Read, recombine. *)
Require Import Verif.Base.

(** conn.go:338-391: the fragmentation loop of writePDU, the connection staying open and no write failing.
    bufsz is the payload room of a pool buffer: Cap() - 1 - 4 (buffer.go:19-28 with hci.go:184 NewPool(1+4+h.bufSize)).
    Each fragment is the packet written to the transport: type 2, handle|flags<<8, length, payload.
    The loop does not advance when bufsz = 0; the fuel models that as divergence (Panic), see C32 theorems. *)
Fixpoint write_loop (fuel : nat) (handle : Z) (bufsz : nat) (flags : Z) (pdu : bytes) : go (list bytes) :=
  match fuel with
  | O => Panic
  | S f =>
    match pdu with
    | [] => Ret []
    | _ =>
      let flen := if Nat.ltb bufsz (length pdu) then bufsz else length pdu in
      let! body := gslice pdu 0 flen in
      let pkt := [2] ++ le16 (Z.lor handle (flags * 256)) ++ le16 (Z.of_nat flen) ++ body in
      let! rest := gfrom pdu flen in
      let! more := write_loop f handle bufsz 16 rest in   (* pbfContinuing << 4 *)
      Ret (pkt :: more)
    end
  end.
(** conn.go:328-391 writePDU on an open connection *)
Definition writePDU (handle : Z) (bufsz : nat) (pdu : bytes) : go (list bytes) := write_loop (S (length pdu)) handle bufsz 0 pdu.

(** conn.go:217-254 Write (leFrame is never set in the repo, so its branch is dropped).
    The trailing loop over sdu[plen:] is dead: plen = len(sdu) after the first check (unless another goroutine changes the MTU meanwhile: M_aclw).
    Result: None = "payload exceeds mtu", Some packets. *)
Definition conn_write (txmtu : nat) (handle : Z) (bufsz : nat) (sdu : bytes) : go (option (list bytes)) :=
  if Nat.ltb txmtu (length sdu) then Ret None
  else
    let pdu := le16 (Z.of_nat (length sdu)) ++ le16 4 ++ sdu in
    let! pk := writePDU handle bufsz pdu in Ret (Some pk).

(** conn.go:579-583 the packet accessors; a is the packet without the type byte *)
Definition pk_pbf (a : bytes) : go Z := let! x := gidx a 1 in Ret ((x / 16) mod 4).
Definition pk_data (a : bytes) : go bytes := gfrom a 4.
(** conn.go:587-589 *)
Definition pdu_dlen (p : bytes) : go nat := let! s := gslice p 0 2 in let! x := gle16 s in Ret (Z.to_nat x).
Definition pdu_cid (p : bytes) : go Z := let! s := gslice p 2 4 in gle16 s.
Definition pdu_payload (p : bytes) : go bytes := gfrom p 4.

(** What one call of recombine does with the packets waiting in chInPkt: *)
Inductive rc :=
| RcPdu (p : bytes) (rest : list bytes)      (* a PDU was completed *)
| RcErr (rest : list bytes)                  (* returned an error: the connection is cleaned up *)
| RcWait (partial : bytes).                  (* blocked waiting for more packets *)
(** conn.go:420-432: the loop that appends continuation fragments *)
Fixpoint rc_loop (p : bytes) (pkts : list bytes) : go rc :=
  let! d := pdu_dlen p in
  if Nat.ltb (length p) (4 + d) then
    match pkts with
    | [] => Ret (RcWait p)
    | k :: r =>
        let! f := pk_pbf k in
        if f mod 2 =? 0 then Ret (RcErr r)
        else let! b := pk_data k in rc_loop (p ++ b) r
    end
  else Ret (RcPdu p pkts).
(** conn.go:394-456 recombine, up to the dispatch by channel *)
Definition recombine (rxmps : nat) (pkts : list bytes) : go rc :=
  match pkts with
  | [] => Ret (RcWait [])
  | k :: r =>
      let! p := pk_data k in
      let! cid := pdu_cid p in
      let! d := pdu_dlen p in
      if (cid =? 4) && Nat.ltb rxmps d then Ret (RcErr r)
      else
        let! _ := pdu_payload p in
        rc_loop p r
  end.
(** conn.go:120-138: the loop around recombine. Result: PDUs in order, and whether it is still running (true = waiting). *)
Fixpoint recombine_all (fuel : nat) (rxmps : nat) (pkts : list bytes) : go (list bytes * bool) :=
  match fuel with
  | O => Panic
  | S f =>
    let! r := recombine rxmps pkts in
    match r with
    | RcWait _ => Ret ([], true)
    | RcErr _ => Ret ([], false)
    | RcPdu p rest => let! x := recombine_all f rxmps rest in Ret (p :: fst x, snd x)
    end
  end.
Definition recombine_run (rxmps : nat) (pkts : list bytes) : go (list bytes * bool) := recombine_all (S (length pkts)) rxmps pkts.

(** conn.go:434-454: which layer gets a PDU *)
Inductive layer := ToAtt | ToSignal | ToSmp | ToCoc | ToNobody.
Definition dispatch (cid : Z) : layer :=
  if cid =? 4 then ToAtt else if cid =? 5 then ToSignal else if cid =? 6 then ToSmp
  else if (64 <=? cid) && (cid <=? 65535) then ToCoc else ToNobody.

(** conn.go:186-214 Read of one queued PDU into a buffer of capacity cap: Ret None = error, Ret (Some data).
    bytes.Buffer.Write reallocates when data exceeds the capacity, so the caller's buffer then keeps its old content:
    modelled as reading [stale] (the first slen bytes of the caller's buffer). The wait for further PDUs when the payload is
    shorter than slen is not needed for PDUs that recombine delivers (they are never short). *)
Definition conn_read (cap : nat) (stale : bytes) (p : bytes) : go (option bytes) :=
  if Nat.eqb (length p) 0 then Ret None
  else
    let! slen := pdu_dlen p in
    let! data := pdu_payload p in
    if Nat.ltb cap slen then Ret None
    else if Nat.ltb cap (length data) then Ret (Some (firstn slen stale))
    else Ret (Some (firstn slen data)).
