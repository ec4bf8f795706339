(** Model of the goroutines of an ATT server: Loop with its reading goroutine (linux/att/server.go:126-177), the calls of
    Notifier.Write made by the application (handler.go:176-178, server.go:76-125) and the exchange of the notification and
    indication buffers by the MTU exchange (server.go:236-246).  What a request does to the server is M_attsrv.v ([handle],
    [cleanup]).  One action is one atomic step of one goroutine; any interleaving is allowed.
    Simplifications: a user handler runs in one step (it may be delayed arbitrarily before, it does not wait for anything itself);
    conn.Write is one step that succeeds or fails (it must fail on a PDU longer than the transmit MTU, linux/hci/conn.go:221-223);
    what conn.Read delivers is a queue of L2CAP payloads filled by the connection (conn.go:186-217, C55); the 30 s timer may fire
    whenever a caller is in its select; in the MTU exchange taking the old buffer and putting the new one is one step. *)
Require Import Verif.Base Verif.M_attdb Verif.M_attsrv.

Definition max_mtu : nat := 515.
(** server.go:127-132 sbuf: the array and the length of the PDU in it *)
Record sbuf := mkB { b_data : bytes; b_len : nat }.
Definition sbuf0 : sbuf := mkB (repeat 0 max_mtu) 0.
(** bytes.Buffer.Write into the array from its start (conn.go:206-208) *)
Definition blit (old new : bytes) : bytes := new ++ skipn (length new) old.

(** The reading goroutine (135-156): waiting for a buffer from the pool; in Read with buffer k; handing a confirmation over;
    handing the request in buffer k over; after a failed read; seq closed; chConfirm closed; returned. *)
Inductive rphase := RTake | RRead (k : nat) | RConf (k : nat) | RSend (k : nat) | RFail | RShut1 | RShut2 | RStopped.
Definition seq_closed (r : rphase) : bool := match r with RShut1 | RShut2 | RStopped => true | _ => false end.
Definition conf_closed (r : rphase) : bool := match r with RShut2 | RStopped => true | _ => false end.
(** The handling goroutine (157-176): waiting on seq; holding the request in buffer k; in the deferred function of the MTU
    exchange, about to replace the notification buffer, then the indication buffer; about to write the response; about to return
    the buffer to the pool; cleaning up; returned; a run-time panic. *)
Inductive hphase := HWait | HGot (k : nat) | HMtuN (k m : nat) (rsp : bytes) | HMtuI (k m : nat) (rsp : bytes)
  | HWrite (k : nat) (rsp : bytes) | HPut (k : nat) | HClean | HDone | HPanic.
(** A call of Notifier.Write: how it ended *)
Inductive cres := COk | CErrWrite | CErrClosed | CErrTimeout.
(** where it is: waiting for the buffer; holding the buffer of [n] bytes; indication written; in the select of 116-124; returned *)
Inductive cphase := CNew | CBuf (n : nat) | CSent (n : nat) | CWait (n : nat) | CRet (r : cres).
Record caller := mkC { c_ind : bool; c_vh : Z; c_data : bytes; c_ph : cphase }.

Record ls := mkL {
  inq : list bytes;      (* received, not yet read *)
  down : bool;           (* no more will be received: the connection is closed *)
  bufs : list sbuf;
  pool : list nat;       (* channel pool, oldest first *)
  rd : rphase;
  hd : hphase;
  sv : srv;
  nbuf : option nat;     (* chNotBuf: the length of the buffer in it *)
  ibuf : option nat;     (* chIndBuf *)
  callers : list caller }.
Definition set_in v s := mkL v (down s) (bufs s) (pool s) (rd s) (hd s) (sv s) (nbuf s) (ibuf s) (callers s).
Definition set_down v s := mkL (inq s) v (bufs s) (pool s) (rd s) (hd s) (sv s) (nbuf s) (ibuf s) (callers s).
Definition set_bufs v s := mkL (inq s) (down s) v (pool s) (rd s) (hd s) (sv s) (nbuf s) (ibuf s) (callers s).
Definition set_pool v s := mkL (inq s) (down s) (bufs s) v (rd s) (hd s) (sv s) (nbuf s) (ibuf s) (callers s).
Definition set_rd v s := mkL (inq s) (down s) (bufs s) (pool s) v (hd s) (sv s) (nbuf s) (ibuf s) (callers s).
Definition set_hd v s := mkL (inq s) (down s) (bufs s) (pool s) (rd s) v (sv s) (nbuf s) (ibuf s) (callers s).
Definition set_sv v s := mkL (inq s) (down s) (bufs s) (pool s) (rd s) (hd s) v (nbuf s) (ibuf s) (callers s).
Definition set_nbuf v s := mkL (inq s) (down s) (bufs s) (pool s) (rd s) (hd s) (sv s) v (ibuf s) (callers s).
Definition set_ibuf v s := mkL (inq s) (down s) (bufs s) (pool s) (rd s) (hd s) (sv s) (nbuf s) v (callers s).
Definition set_callers v s := mkL (inq s) (down s) (bufs s) (pool s) (rd s) (hd s) (sv s) (nbuf s) (ibuf s) v.

(** server.go:60-72, 130-134: NewServer and the start of Loop *)
Definition linit (s : srv) : ls :=
  mkL [] false [sbuf0; sbuf0] [0; 1]%nat RTake HWait s (Some (notlen s)) (Some (indlen s)) [].

(** What can be seen from outside: a PDU taken from the connection; a request given to its handler, with the answer (if any) and the
    calls of user handlers; an attempt to write a PDU (a response, or for call number k) and whether it succeeded; the return of call k;
    a confirmation (of call k, or spurious); the connection closed; Loop returned. *)
Inductive src := SRsp | SCall (k : nat).
Inductive vis :=
| VRead (p : bytes)
| VHandle (e : env) (p : bytes) (o : option bytes) (cs : list call)
| VWrite (o : src) (p : bytes) (ok : bool)
| VRet (k : nat) (r : cres)
| VConf (k : option nat)
| VClose
| VDone.

Inductive act :=
| AArrive (p : bytes)                       (* the connection delivers an L2CAP payload *)
| ADown                                     (* the connection ends *)
| ACall (nt : nat) (data : bytes)           (* the application calls Write on the notifier number nt of this connection *)
| ATake                                     (* 136, 154 *)
| ARead                                     (* 138-153 *)
| AConf (k : option nat)                    (* 145-150 *)
| ASeq                                      (* 153 with 157 *)
| AShut                                     (* 140, 141, 142-143 *)
| AHandle (e : env)                         (* 158 *)
| AMtuN | AMtuI                             (* 241-242, 243-244 *)
| AHWrite (ok : bool)                       (* 159-161 *)
| AHPut                                     (* 163 *)
| AHEnd                                     (* 157: seq is closed *)
| AClean                                    (* 165-176 *)
| ACTake (k : nat)                          (* 78, 97 *)
| ACWrite (k : nat) (ok : bool)             (* 81-91, 100-112 *)
| ACSelect (k : nat)                        (* 113 *)
| ACTimeout (k : nat)                       (* 119-120 *)
| ACClosed (k : nat).                       (* 114-117 *)

Definition is_waiting (c : caller) : bool := match c_ph c with CWait _ => true | _ => false end.
Definition set_ph (p : cphase) (c : caller) : caller := mkC (c_ind c) (c_vh c) (c_data c) p.
Definition upd_caller (k : nat) (p : cphase) (s : ls) : ls :=
  match nth_error (callers s) k with Some c => set_callers (upd (callers s) k (set_ph p c)) s | None => s end.
(** the buffer channel of a call *)
Definition cbuf (c : caller) (s : ls) : option nat := if c_ind c then ibuf s else nbuf s.
Definition set_cbuf (c : caller) (v : option nat) (s : ls) : ls := if c_ind c then set_ibuf v s else set_nbuf v s.
(** 79, 98: call k, holding a buffer of n bytes, returns and puts it back (channels of capacity 1) *)
Definition give_back (k : nat) (c : caller) (n : nat) (r : cres) (s : ls) : option ls :=
  match cbuf c s with None => Some (upd_caller k (CRet r) (set_cbuf c (Some n) s)) | Some _ => None end.
(** 92, 109, 161: conn.Write fails on a PDU longer than the transmit MTU *)
Definition may_write (s : ls) (p : bytes) (ok : bool) : bool := negb ok || (Z.of_nat (length p) <=? ctxmtu (sv s)).

(** 138-153 *)
Definition step_read (s : ls) (k : nat) : option (ls * list vis) :=
  match inq s with
  | [] => if down s then Some (set_rd RFail s, []) else None
  | p :: q =>
      let s1 := set_in q s in
      if Nat.ltb max_mtu (length p) then Some (set_rd RFail s1, [VRead p])
      else match p with
           | [] => Some (set_rd RFail s1, [VRead p])
           | c :: _ =>
               match nth_error (bufs s) k with
               | None => None
               | Some b =>
                   if c =? 30 then Some (set_rd (RConf k) (set_bufs (upd (bufs s) k (mkB (blit (b_data b) p) (b_len b))) s1), [VRead p])
                   else Some (set_rd (RSend k) (set_bufs (upd (bufs s) k (mkB (blit (b_data b) p) (length p))) s1), [VRead p])
               end
           end
  end.
(** what follows the handler's return: the deferred function of the MTU exchange if the transmit MTU changed (236-246), then the
    response if there is one (159-162) *)
Definition after_handle (k : nat) (old new : srv) (o : option bytes) : hphase :=
  let rsp := match o with Some r => r | None => [] end in
  if Nat.eqb (txlen old) (txlen new) then match rsp with [] => HPut k | _ => HWrite k rsp end
  else HMtuN k (txlen new) rsp.
Definition req_of (s : ls) (k : nat) : option bytes :=
  match nth_error (bufs s) k with Some b => Some (firstn (b_len b) (b_data b)) | None => None end.

Definition live_step (s : ls) (a : act) : option (ls * list vis) :=
  match a with
  | AArrive p => if down s then None else Some (set_in (inq s ++ [p]) s, [])
  | ADown => Some (set_down true s, [])
  | ACall nt data =>
      match nth_error (notifs (sv s)) nt with
      | Some n => Some (set_callers (callers s ++ [mkC (nt_ind n) (nt_vh n) data CNew]) s, [])
      | None => None
      end
  | ATake => match rd s, pool s with RTake, k :: r => Some (set_rd (RRead k) (set_pool r s), []) | _, _ => None end
  | ARead => match rd s with RRead k => step_read s k | _ => None end
  | AConf (Some j) =>
      match rd s, nth_error (callers s) j with
      | RConf k, Some c =>
          match c_ph c with
          | CWait n => match give_back j c n COk s with Some s' => Some (set_rd (RRead k) s', [VConf (Some j); VRet j COk]) | None => None end
          | _ => None
          end
      | _, _ => None
      end
  | AConf None =>
      match rd s with
      | RConf k => if existsb is_waiting (callers s) then None else Some (set_rd (RRead k) s, [VConf None])
      | _ => None
      end
  | ASeq => match rd s, hd s with RSend k, HWait => Some (set_rd RTake (set_hd (HGot k) s), []) | _, _ => None end
  | AShut =>
      match rd s with
      | RFail => Some (set_rd RShut1 s, [])
      | RShut1 => Some (set_rd RShut2 s, [])
      | RShut2 => Some (set_down true (set_rd RStopped s), [VClose])
      | _ => None
      end
  | AHandle e =>
      match hd s with
      | HGot k =>
          match req_of s k with
          | None => None
          | Some r =>
              match handle (sv s) e r with
              | Panic => Some (set_hd HPanic s, [])
              | Ret (s', o, cs) => Some (set_hd (after_handle k (sv s) s' o) (set_sv s' s), [VHandle e r o cs])
              end
          end
      | _ => None
      end
  | AMtuN => match hd s, nbuf s with HMtuN k m rsp, Some _ => Some (set_hd (HMtuI k m rsp) (set_nbuf (Some m) s), []) | _, _ => None end
  | AMtuI => match hd s, ibuf s with
             | HMtuI k m rsp, Some _ => Some (set_hd (match rsp with [] => HPut k | _ => HWrite k rsp end) (set_ibuf (Some m) s), [])
             | _, _ => None
             end
  | AHWrite ok =>
      match hd s with
      | HWrite k rsp => if may_write s rsp ok then Some (set_hd (HPut k) s, [VWrite SRsp rsp ok]) else None
      | _ => None
      end
  | AHPut => match hd s with HPut k => if Nat.ltb (length (pool s)) 2 then Some (set_hd HWait (set_pool (pool s ++ [k]) s), []) else None | _ => None end
  | AHEnd => match hd s with HWait => if seq_closed (rd s) then Some (set_hd HClean s, []) else None | _ => None end
  | AClean =>
      match hd s with
      | HClean =>
          match cleanup (sv s) (cccs (sv s)) with
          | Panic => Some (set_hd HPanic s, [])
          | Ret l => Some (set_hd HDone (set_sv (set_nn (sv s) (nn (sv s)) l) s), [VDone])
          end
      | _ => None
      end
  | ACTake k =>
      match nth_error (callers s) k with
      | Some c => match c_ph c, cbuf c s with CNew, Some n => Some (upd_caller k (CBuf n) (set_cbuf c None s), []) | _, _ => None end
      | None => None
      end
  | ACWrite k ok =>
      match nth_error (callers s) k with
      | Some c =>
          match c_ph c with
          | CBuf n =>
              match notify_pdu (if c_ind c then 29 else 27) n (c_vh c) (c_data c) with
              | Panic => Some (set_hd HPanic s, [])
              | Ret p =>
                  if may_write s p ok then
                    if ok && c_ind c then Some (upd_caller k (CSent n) s, [VWrite (SCall k) p ok])
                    else match give_back k c n (if ok then COk else CErrWrite) s with
                         | Some s' => Some (s', [VWrite (SCall k) p ok; VRet k (if ok then COk else CErrWrite)])
                         | None => None
                         end
                  else None
              end
          | _ => None
          end
      | None => None
      end
  | ACSelect k =>
      match nth_error (callers s) k with
      | Some c => match c_ph c with CSent n => Some (upd_caller k (CWait n) s, []) | _ => None end
      | None => None
      end
  | ACTimeout k =>
      match nth_error (callers s) k with
      | Some c => match c_ph c with
                  | CWait n => match give_back k c n CErrTimeout s with Some s' => Some (s', [VRet k CErrTimeout]) | None => None end
                  | _ => None
                  end
      | None => None
      end
  | ACClosed k =>
      match nth_error (callers s) k with
      | Some c => match c_ph c with
                  | CWait n => if conf_closed (rd s) then match give_back k c n CErrClosed s with Some s' => Some (s', [VRet k CErrClosed]) | None => None end else None
                  | _ => None
                  end
      | None => None
      end
  end.
(** After a panic the process is gone. *)
Definition lstep (s : ls) (a : act) : option (ls * list vis) := match hd s with HPanic => None | _ => live_step s a end.

(** Executions: the actions taken and what was seen. *)
Inductive lrun : ls -> list act -> ls -> list vis -> Prop :=
| lr_nil : forall s, lrun s [] s []
| lr_snoc : forall s l s1 t a s2 v, lrun s l s1 t -> lstep s1 a = Some (s2, v) -> lrun s (l ++ [a]) s2 (t ++ v).
