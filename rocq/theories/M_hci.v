(** Model of the HCI host: packet dispatch and the connection table of linux/hci/hci.go, with the connection life cycle of
    linux/hci/conn.go (newConn, recombine loop, Close) and Dial / cancelDial / Accept of linux/hci/gap.go.
    A transition system: one action is one atomic step of one goroutine (the socket process loop, a connection's recombine
    loop, a caller of Conn.Close, a caller of Dial or Accept); any interleaving is allowed and time-outs may fire at any moment.
    Simplifications: the command path is M_hcicmd.v, buffers are M_bufs.v (here cleanup never waits for the pool lock),
    advertising reports are M_advrep.v, encryption is M_enc.v, logging has no effect. *)
Require Import Verif.Base Verif.M_uuid Verif.M_advrep.

(** ---- decoding: what a packet from the controller asks for ---- *)
Inductive evk :=
| KAcl (handle : Z) (b : bytes)                     (* ACL data; b is the packet without the type byte *)
| KConn (handle role : Z) (ptype : option Z) (addr : bytes)  (* successful LE Connection Complete; addr as on the wire *)
| KDisc (handle reason : Z)                         (* Disconnection Complete *)
| KEnc (handle : Z) (rest : go (Z * Z))             (* Encryption Change: (status, enabled), read only for a known handle *)
| KRefresh (handle : Z) (status : Z)                (* what is decoded as Encryption Key Refresh Complete *)
| KCmd (code : Z) (b : bytes)                       (* Command Complete / Command Status / vendor event: M_hcicmd *)
| KCompleted (b : bytes)                            (* Number Of Completed Packets: M_bufs *)
| KAdv (b : bytes)                                  (* LE Advertising Report: M_advrep *)
| KNothing.                                         (* ignored, or an error that is only logged *)

(** evt_gen.go:106-125 LEConnectionComplete; hci.go:790-803: status first, then the peer address r[6:] (copied into six zero
    bytes), then the handle and (805) the role.  The peer address type is read only with security enabled (conn.go:266). *)
Definition pad6 (b : bytes) : bytes := firstn 6 (b ++ repeat 0 6).
Definition dec_conn (b : bytes) : go evk :=
  let! status := gidx b 1 in
  if negb (status =? 0) then Ret KNothing
  else
    let! a := gfrom b 6 in
    let! h := gfrom b 2 in let! h := gle16 h in
    let! role := gidx b 4 in
    Ret (KConn h role (nth_error b 5) (pad6 a)).
(** evt_gen.go:8-14; hci.go:896-910 *)
Definition dec_disc (b : bytes) : go evk :=
  let! r := gfrom b 1 in let! h := gle16 r in
  let! reason := gidx b 3 in Ret (KDisc h reason).
(** evt_gen.go:21-27; hci.go:912-924: the handle first, status and flag only if the connection is known *)
Definition dec_enc (b : bytes) : go evk :=
  let! r := gfrom b 1 in let! h := gle16 r in
  Ret (KEnc h (let! s := gidx b 0 in let! e := gidx b 3 in Ret (s, e))).
(** evt_gen.go:86-92; hci.go:926-936. It is registered as an LE Meta subevent (hci.go:157), so b[0] is the subevent code. *)
Definition dec_refresh (b : bytes) : go evk :=
  let! r := gfrom b 1 in let! h := gle16 r in
  let! s := gidx b 0 in Ret (KRefresh h s).
(** hci.go:593-599 handleLEMeta with the table of Init, hci.go:150-157 *)
Definition dec_meta (b : bytes) : go evk :=
  let! sub := gidx b 0 in
  if sub =? 2 then Ret (KAdv b)
  else if sub =? 1 then dec_conn b
  else if sub =? 48 then dec_refresh b
  else Ret KNothing.
(** hci.go:564-591 handleEvt with the table of Init, hci.go:143-148 *)
Definition dec_evt (b : bytes) : go evk :=
  let! code := gidx b 0 in
  let! plen := gidx b 1 in
  let! p := gfrom b 2 in
  if negb (plen =? Z.of_nat (length p)) then Ret KNothing
  else if code =? 62 then dec_meta p
  else if (code =? 14) || (code =? 15) || (code =? 255) then Ret (KCmd code p)
  else if code =? 5 then dec_disc p
  else if code =? 19 then Ret (KCompleted p)
  else if code =? 8 then dec_enc p
  else Ret KNothing.
(** hci.go:549-550, conn.go:579 packet.handle *)
Definition dec_acl (b : bytes) : go evk :=
  let! x := gidx b 0 in let! y := gidx b 1 in Ret (KAcl (x + 256 * (y mod 16)) b).
(** hci.go:527-547 handlePkt *)
Definition dec_pkt (b : bytes) : go evk :=
  let! t := gidx b 0 in
  let! p := gfrom b 1 in
  if t =? 2 then dec_acl p
  else if t =? 4 then dec_evt p
  else Ret KNothing.

(** ---- connections ---- *)
(** The recombine goroutine of a connection (conn.go:120-138): running; has failed and must call cleanupConnectionHandle
    (129); ended. *)
Inductive rxst := RxRun | RxClean | RxEnd.
(** A Conn object (conn.go:20-81): handle, role, peer address as on the wire; the channel chInPkt (capacity 16): contents and
    closed flag; chDone closed; the recombine goroutine. *)
Record conn := mkConn { k_handle : Z; k_role : Z; k_addr : bytes; k_in : list bytes; k_inclosed : bool; k_done : bool; k_rx : rxst }.
Definition in_cap : nat := 16.  (* conn.go:100 *)

(** The process loop: between packets; in handleACL holding muConns and sending to chInPkt (557); in
    handleLEConnectionComplete sending to chMasterConn (807-808) or chSlaveConn (821); after it has left its loop, in cleanup. *)
Inductive loopst := LIdle | LAcl (c : nat) (b : bytes) | LMaster (c : nat) | LSlave (c : nat) | LCleanup | LEnd.
(** A call of Conn.Close on connection c (conn.go:515-531): before looking at chDone; waiting for the Disconnect command;
    calling cleanupConnectionHandle; returned. *)
Inductive closest := ClStart (c : nat) | ClSend (c : nat) | ClClean (c : nat) | ClRet (c : nat).
(** A call of Dial to address a (gap.go:200-243): waiting after the Create Connection command; waiting for the answer to
    Create Connection Cancel; in the 50 ms grace select (gap.go:258-265); returned with a connection, an error, or neither. *)
Inductive dialst := DWait (a : bytes) | DCancel (a : bytes) | DGrace (a : bytes) | DGot (a : bytes) (c : nat) | DErr (a : bytes) | DNil (a : bytes).

Record host := mkHost {
  objs : list conn;              (* every Conn ever created, in order of creation *)
  tab : Z -> option nat;         (* h.conns *)
  mlock : bool;                  (* muConns is held by the process loop inside a blocking send *)
  master : list nat;             (* chMasterConn, capacity 1 *)
  mclosed : bool;                (* chMasterConn closed (cleanup, 200) *)
  isopen : bool;                 (* h.done not closed *)
  haserr : bool;                 (* h.err is non-nil *)
  loop : loopst;
  closers : list closest;
  dials : list dialst;
  accepted : list nat }.         (* connections returned by Accept *)

Definition host0 : host := mkHost [] (fun _ => None) false [] false true false LIdle [] [] [].
Definition sett (f : Z -> option nat) (k : Z) (v : option nat) : Z -> option nat := fun x => if x =? k then v else f x.
Definition set_objs (s : host) v := mkHost v (tab s) (mlock s) (master s) (mclosed s) (isopen s) (haserr s) (loop s) (closers s) (dials s) (accepted s).
Definition set_tab (s : host) v := mkHost (objs s) v (mlock s) (master s) (mclosed s) (isopen s) (haserr s) (loop s) (closers s) (dials s) (accepted s).
Definition set_mlock (s : host) v := mkHost (objs s) (tab s) v (master s) (mclosed s) (isopen s) (haserr s) (loop s) (closers s) (dials s) (accepted s).
Definition set_master (s : host) v := mkHost (objs s) (tab s) (mlock s) v (mclosed s) (isopen s) (haserr s) (loop s) (closers s) (dials s) (accepted s).
Definition set_loop (s : host) v := mkHost (objs s) (tab s) (mlock s) (master s) (mclosed s) (isopen s) (haserr s) v (closers s) (dials s) (accepted s).
Definition set_closers (s : host) v := mkHost (objs s) (tab s) (mlock s) (master s) (mclosed s) (isopen s) (haserr s) (loop s) v (dials s) (accepted s).
Definition set_dials (s : host) v := mkHost (objs s) (tab s) (mlock s) (master s) (mclosed s) (isopen s) (haserr s) (loop s) (closers s) v (accepted s).
Definition set_accepted (s : host) v := mkHost (objs s) (tab s) (mlock s) (master s) (mclosed s) (isopen s) (haserr s) (loop s) (closers s) (dials s) v.
Definition set_conn (s : host) (c : nat) (k : conn) : host := set_objs s (upd (objs s) c k).
Definition set_rx (k : conn) (r : rxst) : conn := mkConn (k_handle k) (k_role k) (k_addr k) (k_in k) (k_inclosed k) (k_done k) r.
Definition set_in (k : conn) (q : list bytes) : conn := mkConn (k_handle k) (k_role k) (k_addr k) q (k_inclosed k) (k_done k) (k_rx k).

(** hci.go:848-894 cleanupConnectionHandle, muConns free (atomic here).  Closing a closed channel is a panic. *)
Definition cleanup (s : host) (h : Z) : go host :=
  match tab s h with
  | None => Ret s
  | Some c =>
      match nth_error (objs s) c with
      | None => Panic
      | Some k =>
          let s := set_tab s (sett (tab s) h None) in
          let! d := (if negb (isopen s) && (k_role k =? 1) then Ret (k_done k)
                     else if k_done k then Panic else Ret true) in
          if k_inclosed k then Panic
          else Ret (set_conn s c (mkConn (k_handle k) (k_role k) (k_addr k) (k_in k) true d (k_rx k)))
      end
  end.

(** hci.go:797-803 with conn.go:88-139 newConn: a new Conn object, recorded under its handle *)
Definition add_conn (s : host) (h role : Z) (addr : bytes) : host :=
  let c := length (objs s) in
  set_tab (set_objs s (objs s ++ [mkConn h role addr [] false false RxRun])) (sett (tab s) h (Some c)).

Inductive act :=
| APkt (b : bytes)       (* the loop takes a packet: handlePkt up to its first blocking point *)
| AAclPut                (* chInPkt <- b, unlock (hci.go:552-557) *)
| AMasterPut             (* chMasterConn <- c (hci.go:808) *)
| AMasterLate            (* 809-810: nobody took it within 100 ms; go c.Close() *)
| AAccept                (* Accept (gap.go:191) receives from chSlaveConn what 821 sends *)
| ARxTake (c : nat)      (* the recombine loop of c takes a packet from chInPkt *)
| ARxFail (c : nat)      (* recombine returns an error other than EOF *)
| ARxClean (c : nat)     (* its cleanupConnectionHandle (conn.go:129) *)
| ARxEof (c : nat)       (* recombine sees the closed, drained channel, or h.done *)
| AClose (c : nat)       (* the application (or 810) calls Close on c *)
| AClCheck (i : nat)     (* conn.go:516-519 *)
| AClSent (i : nat)      (* conn.go:521-524: the Disconnect command has been answered (or failed) *)
| AClClean (i : nat)     (* conn.go:527 *)
| ADial (a : bytes)      (* Dial: Create Connection accepted by the controller (gap.go:211-221) *)
| ADialTake (i : nat)    (* receive from chMasterConn (gap.go:237 or 259) *)
| ADialMClosed (i : nat) (* 237-240, 259: the channel is closed and drained (a select begun after hci.go:201 would not see it) *)
| ADialGiveUp (i : nat)  (* context done or dialer time-out (gap.go:231-234) *)
| ADialDone (i : nat)    (* 235-236: h.done: return nil, h.err *)
| ACancelOk (i : nat)    (* gap.go:247-251 *)
| ACancelDisallowed (i : nat)  (* gap.go:256 *)
| ACancelFail (i : nat)  (* gap.go:267 *)
| AGraceOver (i : nat)   (* gap.go:262-264 *)
| AShut                  (* HCI.Close (226-238) *)
| AErr (e : bool)        (* h.err is set by a goroutine (485-505, 522-525) *)
| ALoopExit              (* sktProcessLoop leaves its loop (453-464): h.done or the socket is gone; cleanup 195-200 *)
| ALoopClean (h : Z)     (* cleanup 211-213: one handle *)
| ALoopEnd.              (* cleanup 215-222, every handle of the table having been cleaned up *)

(** [Ret None]: the action is not possible in this state.  [smp]: security is enabled (option.go:32-42), so that Conn.smp is
    not nil (conn.go:113-118). *)
Definition exec (smp : bool) (s : host) (a : act) : go (option host) :=
  match a with
  | APkt b =>
      match loop s with
      | LIdle =>
          let! k := dec_pkt b in
          match k with
          | KAcl h p =>
              match tab s h with
              | Some c => Ret (Some (set_mlock (set_loop s (LAcl c p)) true))
              | None => Ret (Some s)
              end
          | KConn h role _ addr =>
              let c := length (objs s) in
              Ret (Some (set_loop (add_conn s h role addr) (if role =? 0 then LMaster c else LSlave c)))
          | KDisc h reason =>
              if reason =? 22 then Ret (Some s)
              else let! s' := cleanup s h in Ret (Some s')
          | KEnc h rest =>
              match tab s h with
              | Some _ => let! x := rest in if negb (fst x =? 0) && negb smp then Panic else Ret (Some s)  (* conn.go:463: c.smp is nil *)
              | None => Ret (Some s)
              end
          | KRefresh h status =>
              match tab s h with
              | Some _ => if negb (status =? 0) && negb smp then Panic else Ret (Some s)  (* conn.go:488 *)
              | None => Ret (Some s)
              end
          | KCmd _ _ | KCompleted _ | KAdv _ | KNothing => Ret (Some s)
          end
      | _ => Ret None
      end
  | AAclPut =>
      match loop s with
      | LAcl c p =>
          match nth_error (objs s) c with
          | Some k =>
              if k_inclosed k then Panic (* send on a closed channel *)
              else if Nat.ltb (length (k_in k)) in_cap
              then Ret (Some (set_mlock (set_loop (set_conn s c (set_in k (k_in k ++ [p]))) LIdle) false))
              else Ret None
          | None => Ret None
          end
      | _ => Ret None
      end
  | AMasterPut =>
      match loop s with
      | LMaster c =>
          if mclosed s then Panic
          else match master s with [] => Ret (Some (set_loop (set_master s [c]) LIdle)) | _ => Ret None end
      | _ => Ret None
      end
  | AMasterLate =>
      match loop s with
      | LMaster c => Ret (Some (set_loop (set_closers s (closers s ++ [ClStart c])) LIdle))
      | _ => Ret None
      end
  | AAccept =>
      match loop s with
      | LSlave c => Ret (Some (set_loop (set_accepted s (accepted s ++ [c])) LIdle))
      | _ => Ret None
      end
  | ARxTake c =>
      match nth_error (objs s) c with
      | Some k => match k_rx k, k_in k with
                  | RxRun, _ :: r => Ret (Some (set_conn s c (set_in k r)))
                  | _, _ => Ret None
                  end
      | None => Ret None
      end
  | ARxFail c =>
      match nth_error (objs s) c with
      | Some k => match k_rx k with RxRun => Ret (Some (set_conn s c (set_rx k RxClean))) | _ => Ret None end
      | None => Ret None
      end
  | ARxClean c =>
      match nth_error (objs s) c with
      | Some k => match k_rx k with
                  | RxClean => if mlock s then Ret None
                               else let! s' := cleanup (set_conn s c (set_rx k RxEnd)) (k_handle k) in Ret (Some s')
                  | _ => Ret None
                  end
      | None => Ret None
      end
  | ARxEof c =>
      match nth_error (objs s) c with
      | Some k => match k_rx k with
                  | RxRun => if (k_inclosed k && Nat.eqb (length (k_in k)) 0) || negb (isopen s)
                             then Ret (Some (set_conn s c (set_rx k RxEnd))) else Ret None
                  | _ => Ret None
                  end
      | None => Ret None
      end
  | AClose c => if Nat.ltb c (length (objs s)) then Ret (Some (set_closers s (closers s ++ [ClStart c]))) else Ret None
  | AClCheck i =>
      match nth_error (closers s) i with
      | Some (ClStart c) =>
          match nth_error (objs s) c with
          | Some k => Ret (Some (set_closers s (upd (closers s) i (if k_done k then ClRet c else ClSend c))))
          | None => Ret None
          end
      | _ => Ret None
      end
  | AClSent i =>
      match nth_error (closers s) i with
      | Some (ClSend c) => Ret (Some (set_closers s (upd (closers s) i (ClClean c))))
      | _ => Ret None
      end
  | AClClean i =>
      match nth_error (closers s) i with
      | Some (ClClean c) =>
          match nth_error (objs s) c with
          | Some k => if mlock s then Ret None
                      else let! s' := cleanup (set_closers s (upd (closers s) i (ClRet c))) (k_handle k) in Ret (Some s')
          | None => Ret None
          end
      | _ => Ret None
      end
  | ADial a => if haserr s || negb (isopen s) then Ret None else Ret (Some (set_dials s (dials s ++ [DWait a])))
  | ADialTake i =>
      match nth_error (dials s) i, master s with
      | Some (DWait a), c :: r => Ret (Some (set_dials (set_master s r) (upd (dials s) i (DGot a c))))
      | Some (DGrace a), c :: r => Ret (Some (set_dials (set_master s r) (upd (dials s) i (DGot a c))))
      | _, _ => Ret None
      end
  | ADialMClosed i =>
      match nth_error (dials s) i with
      | Some (DWait a) => if mclosed s && Nat.eqb (length (master s)) 0 then Ret (Some (set_dials s (upd (dials s) i (DErr a)))) else Ret None
      | Some (DGrace a) => if mclosed s && Nat.eqb (length (master s)) 0 then Panic else Ret None  (* gap.go:259: no ok check; NewClient(nil), gatt/client.go:45 *)
      | _ => Ret None
      end
  | ADialGiveUp i =>
      match nth_error (dials s) i with
      | Some (DWait a) => Ret (Some (set_dials s (upd (dials s) i (DCancel a))))
      | _ => Ret None
      end
  | ADialDone i =>
      match nth_error (dials s) i with
      | Some (DWait a) => if isopen s then Ret None else Ret (Some (set_dials s (upd (dials s) i (if haserr s then DErr a else DNil a))))
      | _ => Ret None
      end
  | ACancelOk i =>
      match nth_error (dials s) i with
      | Some (DCancel a) => Ret (Some (set_dials s (upd (dials s) i (DErr a))))
      | _ => Ret None
      end
  | ACancelDisallowed i =>
      match nth_error (dials s) i with
      | Some (DCancel a) => Ret (Some (set_dials s (upd (dials s) i (DGrace a))))
      | _ => Ret None
      end
  | ACancelFail i =>
      match nth_error (dials s) i with
      | Some (DCancel a) => Ret (Some (set_dials s (upd (dials s) i (DErr a))))
      | _ => Ret None
      end
  | AGraceOver i =>
      match nth_error (dials s) i with
      | Some (DGrace a) => Ret (Some (set_dials s (upd (dials s) i (DErr a))))
      | _ => Ret None
      end
  | AShut => Ret (Some (mkHost (objs s) (tab s) (mlock s) (master s) (mclosed s) false (haserr s) (loop s) (closers s) (dials s) (accepted s)))
  | AErr e => Ret (Some (mkHost (objs s) (tab s) (mlock s) (master s) (mclosed s) (isopen s) e (loop s) (closers s) (dials s) (accepted s)))
  | ALoopExit =>
      match loop s with
      | LIdle => Ret (Some (mkHost (objs s) (tab s) (mlock s) (master s) true (isopen s) false LCleanup (closers s) (dials s) (accepted s)))
      | _ => Ret None
      end
  | ALoopClean h =>
      match loop s with
      | LCleanup => if mlock s then Ret None else let! s' := cleanup s h in Ret (Some s')
      | _ => Ret None
      end
  | ALoopEnd =>
      match loop s with
      | LCleanup => if forallb (fun k => match tab s (k_handle k) with None => true | Some _ => false end) (objs s)
                    then Ret (Some (set_loop s LEnd)) else Ret None
      | _ => Ret None
      end
  end.

Fixpoint exec_all (smp : bool) (s : host) (l : list act) : go (option host) :=
  match l with
  | [] => Ret (Some s)
  | a :: r => let! x := exec smp s a in match x with Some s' => exec_all smp s' r | None => Ret None end
  end.

(** conn.go:537-540 RemoteAddr *)
Definition remote_addr (k : conn) : bytes := new_addr (hw_string (rev (k_addr k))).
(** gap.go:201-218: the peer address Dial puts into the Create Connection command for the address with text t (net.ParseMAC's
    check of the text is not modelled; a well-formed address has six bytes) *)
Definition dial_wire (t : bytes) : option bytes :=
  let ab := addr_bytes (new_addr t) in if Nat.eqb (length ab) 6 then Some (rev ab) else None.
