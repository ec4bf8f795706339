(** Model of the HCI command path of linux/hci/hci.go: callers of Send (each call is a thread), the opcode locks, the command
    buffers, the table of sent commands, and the socket process loop handling Command Complete, Command Status and vendor
    events.  Each action below is one atomic step of one goroutine; any interleaving is allowed.
    Simplifications: time-outs may fire at any moment; packet contents are those of M_cmd.v; a command that cannot be
    marshalled is not modelled here (it is fatal, see M_cmd.send_bytes); error handlers and logging have no effect. *)
Require Import Verif.Base.

(** hci.go:359-367: the key under which a command is locked and recorded: its opcode, or 0x3f for every vendor command. *)
Definition key (op : Z) : Z := if op / 1024 =? 63 then 63 else op.

(** What send returns: return parameters received for the command, an error, or nothing and no error (nil, nil). *)
Inductive cres := COk (b : bytes) | CErr | CNil.
(** Where a call of send (hci.go:353-442) is:
    - PStart: before LockOpCode (372) - PLocked: after it, before getTxBuf (390) - PBuf: has a command buffer
    - PReg: recorded in [sent] (402-404) - PWait: after Write, in the select (420-432)
    - PEnd r: left the select with r - PDel r: deleted its [sent] entry (437-439) - PRet r: returned r, opcode unlocked. *)
Inductive phase := PStart | PLocked | PBuf | PReg | PWait | PEnd (r : cres) | PDel (r : cres) | PRet (r : cres).
Record thread := mkT { t_op : Z; t_ph : phase }.
(** The process loop: idle, handing data [b] to the sender [t] (blocked in the select of handleCommandComplete 756-761,
    handleCommandStatus 782-787 or handleVendorEvent 1000-1007), or stopped. *)
Inductive loopst := LIdle | LGive (t : nat) (b : bytes) | LStopped.
Record hst := mkH {
  thr : nat -> option thread;
  lck : Z -> option nat;    (* opCodeLocker.locks: who holds the opcode's mutex *)
  snt : Z -> option nat;    (* sent: the call whose packet is recorded *)
  bufs : nat;               (* len(chCmdBufs) *)
  lp : loopst;
  closed : bool;            (* h.done is closed *)
  failed : bool }.          (* h.err is set *)

Definition setn {A} (f : nat -> A) (k : nat) (v : A) : nat -> A := fun x => if Nat.eqb x k then v else f x.
Definition setz {A} (f : Z -> A) (k : Z) (v : A) : Z -> A := fun x => if x =? k then v else f x.

(** After Init's setAllowedCommands(1) (hci.go:176). *)
Definition hinit : hst := mkH (fun _ => None) (fun _ => None) (fun _ => None) 1 LIdle false false.

(** evt_werr.go:137-170 getByte/getUint16LE/getBytes with defaults, as used by evt.go:3-16 for Command Complete. *)
Definition cc_num (b : bytes) : Z := match b with n :: _ => n | [] => 0 end.
Definition cc_opcode (b : bytes) : Z := match b with _ :: o0 :: o1 :: _ => de16 o0 o1 | _ => 65535 end.
Definition cc_params (b : bytes) : bytes := skipn 3 b.
(** hci.go:963-985 setAllowedCommands: tops the channel up to n (at most 16), never takes buffers away.  (Once
    closed it may stop early; that only leaves fewer buffers and is not modelled.) *)
Definition allow (have : nat) (n : Z) : nat := Nat.max have (Nat.min (Z.to_nat n) 16).

(** What an event payload does: the command allowance it carries (if any), and the [sent] key and data it completes (if any).
    - 0x0E handleCommandComplete 739-762; opcode 0 is a NOP
    - 0x0F handleCommandStatus 764-788; fewer than 4 bytes are rejected (evt_gen.go:58 Valid)
    - 0xFF handleVendorEvent 987-1007. *)
Definition evt_effect (code : Z) (b : bytes) : option Z * option (Z * bytes) :=
  if code =? 14 then
    (Some (cc_num b), if cc_opcode b =? 0 then None else Some (cc_opcode b, cc_params b))
  else if code =? 15 then
    match b with
    | st :: n :: o0 :: o1 :: _ => (Some n, Some (de16 o0 o1, [st]))
    | _ => (None, None)
    end
  else if code =? 255 then (None, Some (63, [0]))
  else (None, None).

Inductive act :=
| ASpawn (t : nat) (op : Z)        (* a new call of send, hci.go:353-356 *)
| ALock (t : nat)                  (* 372 LockOpCode returns *)
| AGetBuf (t : nat)                (* 342 a buffer is received *)
| ANoBuf (t : nat)                 (* 340-347: closed or timed out; the deferred unlock runs *)
| AReg (t : nat)                   (* 402-404 *)
| AWrite (t : nat) (ok : bool)     (* 407-413: isOpen, Write; a failed write sets h.err (close 522-525) *)
| AShut (t : nat)                  (* 407-408: not open: return without touching [sent] *)
| ATimeout (t : nat)               (* 421-425 *)
| ASeeDone (t : nat)               (* 426-428: err = h.err, which may be nil *)
| ADeliver (t : nat)               (* 429-431 meets 759 / 785 / 1004 on p.done *)
| ADelete (t : nat)                (* 437-439 *)
| AUnlock (t : nat)                (* 373-380 *)
| AEvt (code : Z) (b : bytes)      (* the loop handles an event, handleEvt 564-591, up to the select *)
| AGiveUp                          (* the loop's select sees h.done *)
| AStop                            (* 453-464: the loop ends; cleanup 195-223 clears [sent] and, through h.close(nil), h.err *)
| AReadErr                         (* 496-503: the socket read loop sets h.err *)
| AClose.                          (* 226-238 *)

Definition exec (s : hst) (a : act) : option hst :=
  match a with
  | ASpawn t op =>
      match thr s t with
      | None => Some (mkH (setn (thr s) t (Some (mkT op (if failed s then PRet CErr else PStart)))) (lck s) (snt s) (bufs s) (lp s) (closed s) (failed s))
      | Some _ => None
      end
  | ALock t =>
      match thr s t with
      | Some (mkT op PStart) =>
          match lck s (key op) with
          | None => Some (mkH (setn (thr s) t (Some (mkT op PLocked))) (setz (lck s) (key op) (Some t)) (snt s) (bufs s) (lp s) (closed s) (failed s))
          | Some _ => None
          end
      | _ => None
      end
  | AGetBuf t =>
      match thr s t, bufs s with
      | Some (mkT op PLocked), S n =>
          Some (mkH (setn (thr s) t (Some (mkT op PBuf))) (lck s) (snt s) n (lp s) (closed s) (failed s))
      | _, _ => None
      end
  | ANoBuf t =>
      match thr s t with
      | Some (mkT op PLocked) =>
          Some (mkH (setn (thr s) t (Some (mkT op (PRet CErr)))) (setz (lck s) (key op) None) (snt s) (bufs s) (lp s) (closed s) (failed s))
      | _ => None
      end
  | AReg t =>
      match thr s t with
      | Some (mkT op PBuf) =>
          Some (mkH (setn (thr s) t (Some (mkT op PReg))) (lck s) (setz (snt s) (key op) (Some t)) (bufs s) (lp s) (closed s) (failed s))
      | _ => None
      end
  | AWrite t ok =>
      match thr s t with
      | Some (mkT op PReg) =>
          if closed s then None
          else Some (mkH (setn (thr s) t (Some (mkT op PWait))) (lck s) (snt s) (bufs s) (lp s) (closed s) (failed s || negb ok)%bool)
      | _ => None
      end
  | AShut t =>
      match thr s t with
      | Some (mkT op PReg) =>
          if closed s then Some (mkH (setn (thr s) t (Some (mkT op (PRet CErr)))) (setz (lck s) (key op) None) (snt s) (bufs s) (lp s) (closed s) (failed s))
          else None
      | _ => None
      end
  | ATimeout t =>
      match thr s t with
      | Some (mkT op PWait) => Some (mkH (setn (thr s) t (Some (mkT op (PEnd CErr)))) (lck s) (snt s) (bufs s) (lp s) (closed s) (failed s))
      | _ => None
      end
  | ASeeDone t =>
      match thr s t with
      | Some (mkT op PWait) =>
          if closed s then Some (mkH (setn (thr s) t (Some (mkT op (PEnd (if failed s then CErr else CNil))))) (lck s) (snt s) (bufs s) (lp s) (closed s) (failed s)) else None
      | _ => None
      end
  | ADeliver t =>
      match thr s t, lp s with
      | Some (mkT op PWait), LGive t' b =>
          if Nat.eqb t' t then Some (mkH (setn (thr s) t (Some (mkT op (PEnd (COk b))))) (lck s) (snt s) (bufs s) LIdle (closed s) (failed s)) else None
      | _, _ => None
      end
  | ADelete t =>
      match thr s t with
      | Some (mkT op (PEnd r)) => Some (mkH (setn (thr s) t (Some (mkT op (PDel r)))) (lck s) (setz (snt s) (key op) None) (bufs s) (lp s) (closed s) (failed s))
      | _ => None
      end
  | AUnlock t =>
      match thr s t with
      | Some (mkT op (PDel r)) => Some (mkH (setn (thr s) t (Some (mkT op (PRet r)))) (setz (lck s) (key op) None) (snt s) (bufs s) (lp s) (closed s) (failed s))
      | _ => None
      end
  | AEvt code b =>
      match lp s with
      | LIdle =>
          let '(n, c) := evt_effect code b in
          let bf := match n with Some n => allow (bufs s) n | None => bufs s end in
          let l := match c with
                   | Some (k, d) => match snt s k with Some t => LGive t d | None => LIdle end
                   | None => LIdle
                   end in
          Some (mkH (thr s) (lck s) (snt s) bf l (closed s) (failed s))
      | _ => None
      end
  | AGiveUp =>
      match lp s with
      | LGive _ _ => if closed s then Some (mkH (thr s) (lck s) (snt s) (bufs s) LIdle (closed s) (failed s)) else None
      | _ => None
      end
  | AStop =>
      match lp s with
      | LIdle => Some (mkH (thr s) (lck s) (fun _ => None) (bufs s) LStopped (closed s) false)
      | _ => None
      end
  | AReadErr => Some (mkH (thr s) (lck s) (snt s) (bufs s) (lp s) (closed s) true)
  | AClose => Some (mkH (thr s) (lck s) (snt s) (bufs s) (lp s) true (failed s))
  end.

Fixpoint exec_all (s : hst) (l : list act) : option hst :=
  match l with
  | [] => Some s
  | a :: r => match exec s a with Some s' => exec_all s' r | None => None end
  end.
