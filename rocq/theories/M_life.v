(** Model of the path of incoming packets and of its end: the transports linux/hci/h4/h4.go (framing: M_h4) and linux/hci/socket/socket.go (Read, Close), and
    sktReadLoop, sktProcessLoop, close, cleanup, Close, dispatchError of linux/hci/hci.go, as a transition system of three goroutines.
    Simplifications: what handlePkt does with a packet is M_hci/M_hcicmd/M_advrep; here a handler takes a packet and returns later.  The rest of cleanup is in
    M_hci.  Close of a transport waits for a Read in progress (at most a second): one step here.  A raw socket packet longer than the 4096 byte buffer
    (hci.go:480) is cut when it enters the queue. *)
Require Import Verif.Base Verif.M_h4.

(** errors: io.EOF, a read error (hci.go:499), a failed command write (hci.go:412-416) *)
Inductive lerr := LEof | LRead | LCmd.
(** rxLoop (h4.go:187-220): reading, inside Assemble with packets still to send to the queue, ended *)
Inductive xst := XRead | XSend (l : list bytes) | XDone.
(** sktReadLoop: before a Read, inside Read with a packet taken, about to put it into the channel, ended *)
Inductive rst := RRead | RGot (p : bytes) | RPut (p : bytes) | REnd.
(** sktProcessLoop: not started, waiting, in a handler, the deferred calls (dispatchError, cleanup), ended *)
Inductive wst := WStart | WWait | WHandle (p : bytes) | WDisp | WClean | WEnd.
(** l_in, l_hist, l_handled: ghosts, the reads of the transport, the packets assembled, the packets handled *)
Record st := mkL { l_fr : frame; l_x : xst; l_q : list bytes; l_open : bool; l_r : rst; l_ch : list bytes; l_w : wst; l_cap : option lerr; l_done : bool;
  l_err : option lerr; l_calls : list (option lerr); l_handled : list bytes; l_hist : list bytes; l_in : list (Z * bytes) }.
(** hci.go:26-60 NewHCI, 173-186; h4.go:66-77, 101-112: no rxLoop for a raw socket *)
Definition start (raw : bool) : st := mkL new_frame (if raw then XDone else XRead) [] true RRead [] WStart None false None [] [] [] [].

Definition set_x (s : st) (x : xst) : st := mkL (l_fr s) x (l_q s) (l_open s) (l_r s) (l_ch s) (l_w s) (l_cap s) (l_done s) (l_err s) (l_calls s) (l_handled s) (l_hist s) (l_in s).
Definition set_q (s : st) (q : list bytes) : st := mkL (l_fr s) (l_x s) q (l_open s) (l_r s) (l_ch s) (l_w s) (l_cap s) (l_done s) (l_err s) (l_calls s) (l_handled s) (l_hist s) (l_in s).
Definition set_r (s : st) (r : rst) : st := mkL (l_fr s) (l_x s) (l_q s) (l_open s) r (l_ch s) (l_w s) (l_cap s) (l_done s) (l_err s) (l_calls s) (l_handled s) (l_hist s) (l_in s).
Definition set_ch (s : st) (c : list bytes) : st := mkL (l_fr s) (l_x s) (l_q s) (l_open s) (l_r s) c (l_w s) (l_cap s) (l_done s) (l_err s) (l_calls s) (l_handled s) (l_hist s) (l_in s).
Definition set_w (s : st) (w : wst) : st := mkL (l_fr s) (l_x s) (l_q s) (l_open s) (l_r s) (l_ch s) w (l_cap s) (l_done s) (l_err s) (l_calls s) (l_handled s) (l_hist s) (l_in s).
Definition set_err (s : st) (e : option lerr) : st := mkL (l_fr s) (l_x s) (l_q s) (l_open s) (l_r s) (l_ch s) (l_w s) (l_cap s) (l_done s) e (l_calls s) (l_handled s) (l_hist s) (l_in s).
Definition set_closed (s : st) : st := mkL (l_fr s) (l_x s) (l_q s) false (l_r s) (l_ch s) (l_w s) (l_cap s) (l_done s) (l_err s) (l_calls s) (l_handled s) (l_hist s) (l_in s).
Definition set_done (s : st) : st := mkL (l_fr s) (l_x s) (l_q s) (l_open s) (l_r s) (l_ch s) (l_w s) (l_cap s) true (l_err s) (l_calls s) (l_handled s) (l_hist s) (l_in s).
Definition set_cap (s : st) (e : option lerr) : st := mkL (l_fr s) (l_x s) (l_q s) (l_open s) (l_r s) (l_ch s) (l_w s) e (l_done s) (l_err s) (l_calls s) (l_handled s) (l_hist s) (l_in s).
Definition told (s : st) (e : option lerr) : st := mkL (l_fr s) (l_x s) (l_q s) (l_open s) (l_r s) (l_ch s) (l_w s) (l_cap s) (l_done s) (l_err s) (l_calls s ++ [e]) (l_handled s) (l_hist s) (l_in s).
Definition handle (s : st) (p : bytes) : st := mkL (l_fr s) (l_x s) (l_q s) (l_open s) (l_r s) (l_ch s) (l_w s) (l_cap s) (l_done s) (l_err s) (l_calls s) (l_handled s ++ [p]) (l_hist s) (l_in s).
Definition got (s : st) (f : frame) (t : Z) (b : bytes) (o : list bytes) : st := mkL f (l_x s) (l_q s) (l_open s) (l_r s) (l_ch s) (l_w s) (l_cap s) (l_done s) (l_err s) (l_calls s) (l_handled s) (l_hist s ++ o) (l_in s ++ [(t, b)]).
Definition kernel (s : st) (p : bytes) : st := mkL (l_fr s) (l_x s) (l_q s ++ [p]) (l_open s) (l_r s) (l_ch s) (l_w s) (l_cap s) (l_done s) (l_err s) (l_calls s) (l_handled s) (l_hist s ++ [p]) (l_in s).

(** Events: from outside: a chunk read from the UART or TCP connection (h4.go:204, at most 512 bytes), a read failure, a packet of the raw socket, a poll error, Close called,
    a command that cannot be written.  The rest are steps of the program *)
Inductive act := EChunk (t : Z) (b : bytes) | EFail | EPacket (p : bytes) | EPollErr | EClose | ESendFail
| XPush | XStop | RClosed | RTick | RTake | RCheck | RPutC | RQuit | WBegin | WTake | WSeen | WEof | WRet | WTell | WClose.
Definition internal (a : act) : bool := match a with EChunk _ _ | EFail | EPacket _ | EPollErr | EClose | ESendFail => false | _ => true end.
Definition exec (raw eh : bool) (s : st) (a : act) : option st :=
  match a with
  | EChunk t b => match l_x s with
      | XRead => if l_open s && Nat.leb (length b) 512 then
          match Assemble (l_fr s) t b with
          | Ret (f, o) => Some (set_x (got s f t b o) (match o with [] => XRead | _ => XSend o end))
          | Panic => None
          end else None
      | _ => None end
  (* h4.go:213-217, 188: rxLoop ends and closes the transport *)
  | EFail => match l_x s with XRead => if l_open s then Some (set_closed (set_x s XDone)) else None | _ => None end
  | EPacket p => if raw && l_open s && negb (Nat.eqb (length p) 0) then Some (kernel s (firstn 4096 p)) else None
  (* socket.go:143-145; hci.go:494-496 *)
  | EPollErr => match l_r s with RRead => if raw && l_open s then Some (set_r (set_err s (Some LEof)) REnd) else None | _ => None end
  (* hci.go:224-238 *)
  | EClose => Some (set_done s)
  (* hci.go:411-416, 521-524 *)
  | ESendFail => if l_done s then None else Some (set_closed (set_err s (Some LCmd)))
  (* frame.go:65; h4.go:17, 70 *)
  | XPush => match l_x s with
      | XSend (p :: r) => if Nat.ltb (length (l_q s)) 64 then Some (set_x (set_q s (l_q s ++ [p])) (match r with [] => XRead | _ => XSend r end)) else None
      | _ => None end
  (* h4.go:192-195, 213-217: done seen or the closed connection fails to read *)
  | XStop => match l_x s with XRead => if l_open s then None else Some (set_x s XDone) | _ => None end
  (* h4.go:115-118, socket.go:130-132 Read on a closed transport; hci.go:494-496, 475-478 *)
  | RClosed => match l_r s with RRead => if l_open s then None else Some (set_r (set_err s (Some LEof)) REnd) | _ => None end
  (* h4.go:133-134, socket.go:151-153 time-out; hci.go:484-492 *)
  | RTick => match l_r s, l_q s with RRead, [] => if l_open s && l_done s then Some (set_r s REnd) else None | _, _ => None end
  (* h4.go:125-131, socket.go:147-149 *)
  | RTake => match l_r s, l_q s with
      | RRead, p :: q => if l_open s then
          (if Nat.ltb 4096 (length p) then Some (set_r (set_err (set_q s q) (Some LRead)) REnd) else Some (set_r (set_q s q) (RGot p))) else None
      | _, _ => None end
  (* h4.go:137-140, socket.go:156-159; hci.go:498-508 *)
  | RCheck => match l_r s with RGot p => if l_open s then Some (set_r s (RPut p)) else Some (set_r (set_err s (Some LEof)) REnd) | _ => None end
  (* hci.go:509-511, 57 *)
  | RPutC => match l_r s with RPut p => if Nat.ltb (length (l_ch s)) 16 then Some (set_r (set_ch s (l_ch s ++ [p])) RRead) else None | _ => None end
  (* hci.go:514-516 *)
  | RQuit => match l_r s with RPut _ => if l_done s then Some (set_r s REnd) else None | _ => None end
  (* hci.go:449: the argument of the deferred dispatchError is taken here *)
  | WBegin => match l_w s with WStart => Some (set_w (set_cap s (l_err s)) WWait) | _ => None end
  (* hci.go:461-473 *)
  | WTake => match l_w s, l_ch s with WWait, p :: c => Some (set_w (handle (set_ch s c) p) (WHandle p)) | _, _ => None end
  (* hci.go:456-459 *)
  | WSeen => match l_w s with WWait => if l_done s then Some (set_w (set_err s (Some LEof)) WDisp) else None | _ => None end
  (* hci.go:461-466: the channel is closed (the reading loop has ended) and empty *)
  | WEof => match l_w s, l_ch s, l_r s with WWait, [], REnd => Some (set_w (set_err s (Some LEof)) WDisp) | _, _, _ => None end
  | WRet => match l_w s with WHandle _ => Some (set_w s WWait) | _ => None end
  (* hci.go:1009-1019 *)
  | WTell => match l_w s with WDisp => Some (set_w (if eh then (if l_done s then s else told s (l_cap s)) else s) WClean) | _ => None end
  (* hci.go:193-195, 521-524 *)
  | WClose => match l_w s with WClean => Some (set_w (set_closed (set_err s None)) WEnd) | _ => None end
  end.
