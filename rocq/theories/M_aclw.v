(** Model of Write and writePDU (linux/hci/conn.go:217-391) called by any number of goroutines on any number of connections, with the
    buffer pool (linux/hci/buffer.go), closing connections (linux/hci/hci.go:851-894), completed-packets events (hci.go:937-954) and
    changes of the transmit MTU (conn.go:566).  Every read of c.txMTU and of chDone, every lock, Get, filling of a buffer and transport write is
    one step, in any interleaving.  leFrame is never set (M_l2cap).  Simplifications: the four binary.Write calls that fill a buffer are
    one step; muConns, which only delays the closing of connections, is left out (M_bufs has it). *)
Require Import Verif.Base.

(** [KWrite]: Write; [KPdu]: writePDU by the signalling, pairing and channel code; [KClose]: the clean-up of a connection *)
Inductive call := KWrite (c : nat) (sdu : bytes) | KPdu (c : nat) (pdu : bytes) | KClose (c : nat).
(** Where a call is.  [lft]: what Write has yet to hand to writePDU afterwards, None if the slicing sdu[plen:] is out of range. *)
Inductive ph :=
| WCheck                                                       (* 218 *)
| WLen | WLen2                                                 (* 222-224 *)
| PLock (pdu : bytes) (lft : option bytes)                    (* 335 *)
| PDone (pdu : bytes) (lft : option bytes)                    (* 341-345 *)
| PGet (pdu : bytes) (first : bool) (lft : option bytes)      (* 347-349 *)
| PFill (b : nat) (pdu : bytes) (first : bool) (lft : option bytes)   (* 350-371 *)
| PChk (b : nat) (pdu : bytes) (lft : option bytes)           (* 374-378; pdu: the rest after this fragment *)
| PSend (b : nat) (pdu : bytes) (lft : option bytes)          (* 381-383 *)
| TLen (lft : bytes) | TLen2 (lft : bytes)                   (* 243-246 *)
| CClose | CLock | CPut                                        (* hci.go:879, 890, 891 *)
| Ended (ok : bool)
| Crashed.
Record thr := mkT { t_call : call; t_ph : ph }.
(** c_sent: buffer.go:31-34, oldest first *)
Record conn := mkC { c_handle : Z; c_mtu : nat; c_done : bool; c_sent : list nat }.
(** k_log: the packets written to the transport, with the call *)
Record kst := mkK { k_bufsz : nat; k_free : list nat; k_buf : list bytes; k_conns : list conn; k_thr : list thr; k_lock : option nat; k_log : list (nat * bytes) }.
Definition conn_of (k : call) : nat := match k with KWrite c _ => c | KPdu c _ => c | KClose c => c end.
Definition with_thr (s : kst) (t : nat) (th : thr) : kst := mkK (k_bufsz s) (k_free s) (k_buf s) (k_conns s) (upd (k_thr s) t th) (k_lock s) (k_log s).
Definition with_lock (s : kst) (o : option nat) : kst := mkK (k_bufsz s) (k_free s) (k_buf s) (k_conns s) (k_thr s) o (k_log s).
Definition with_free (s : kst) (f : list nat) : kst := mkK (k_bufsz s) f (k_buf s) (k_conns s) (k_thr s) (k_lock s) (k_log s).
Definition with_buf (s : kst) (b : list bytes) : kst := mkK (k_bufsz s) (k_free s) b (k_conns s) (k_thr s) (k_lock s) (k_log s).
Definition with_conn (s : kst) (c : nat) (x : conn) : kst := mkK (k_bufsz s) (k_free s) (k_buf s) (upd (k_conns s) c x) (k_thr s) (k_lock s) (k_log s).
Definition with_log (s : kst) (l : list (nat * bytes)) : kst := mkK (k_bufsz s) (k_free s) (k_buf s) (k_conns s) (k_thr s) (k_lock s) l.

(** conn.go:226-235: b and what is left, for the plen read *)
Definition frame (sdu : bytes) (plen : nat) : bytes := le16 (Z.of_nat (length sdu)) ++ le16 4 ++ firstn plen sdu ++ repeat 0 (plen - length sdu).
Definition left_of (sdu : bytes) (plen : nat) : option bytes := if Nat.leb plen (length sdu) then Some (skipn plen sdu) else None.
(** after writePDU has returned without an error *)
Definition next_of (lft : option bytes) : ph := match lft with None => Crashed | Some [] => Ended true | Some r => TLen r end.
Definition piece (n : nat) (pdu : bytes) : nat := if Nat.ltb n (length pdu) then n else length pdu.
Definition packet (h : Z) (n : nat) (pdu : bytes) (first : bool) : bytes :=
  [2] ++ le16 (Z.lor h ((if first then 0 else 16) * 256)) ++ le16 (Z.of_nat (piece n pdu)) ++ firstn (piece n pdu) pdu.
(** One step of call [t]; [None]: it has to wait (for the lock or a buffer), or it has ended. The transport write is [exec]'s. *)
Definition step (s : kst) (t : nat) : option kst :=
  match nth_error (k_thr s) t with
  | Some (mkT k p) =>
      match nth_error (k_conns s) (conn_of k) with
      | Some x =>
          let go p := Some (with_thr s t (mkT k p)) in
          let stop p := Some (with_lock (with_thr s t (mkT k p)) None) in
          match p, k with
          | WCheck, KWrite _ sdu => go (if Nat.ltb (c_mtu x) (length sdu) then Ended false else WLen)
          | WLen, KWrite _ sdu => go (if Nat.ltb (c_mtu x) (length sdu) then WLen2 else PLock (frame sdu (length sdu)) (left_of sdu (length sdu)))
          | WLen2, KWrite _ sdu => go (PLock (frame sdu (c_mtu x)) (left_of sdu (c_mtu x)))
          | PLock pdu lft, _ => match k_lock s with None => Some (with_lock (with_thr s t (mkT k (PDone pdu lft))) (Some t)) | Some _ => None end
          | PDone pdu lft, _ => if c_done x then stop (Ended false) else go (PGet pdu true lft)
          | PGet pdu first lft, _ =>
              match pdu with
              | [] => stop (next_of lft)
              | _ => match k_free s with
                     | [] => None
                     | b :: f => Some (with_thr (with_conn (with_free s f) (conn_of k) (mkC (c_handle x) (c_mtu x) (c_done x) (c_sent x ++ [b]))) t (mkT k (PFill b pdu first lft)))
                     end
              end
          | PFill b pdu first lft, _ =>
              Some (with_thr (with_buf s (upd (k_buf s) b (packet (c_handle x) (k_bufsz s) pdu first))) t (mkT k (PChk b (skipn (piece (k_bufsz s) pdu) pdu) lft)))
          | PChk b pdu lft, _ => if c_done x then stop (Ended false) else go (PSend b pdu lft)
          | TLen l, _ => go (if Nat.ltb (c_mtu x) (length l) then TLen2 l else PLock l (Some []))
          | TLen2 l, _ => go (PLock (firstn (c_mtu x) l) (if Nat.leb (c_mtu x) (length l) then Some (skipn (c_mtu x) l) else None))
          | CClose, _ => Some (with_thr (with_conn s (conn_of k) (mkC (c_handle x) (c_mtu x) true (c_sent x))) t (mkT k CLock))
          | CLock, _ => match k_lock s with None => Some (with_lock (with_thr s t (mkT k CPut)) (Some t)) | Some _ => None end
          | CPut, _ => Some (with_lock (with_thr (with_conn (with_free s (k_free s ++ c_sent x)) (conn_of k) (mkC (c_handle x) (c_mtu x) (c_done x) [])) t (mkT k (Ended true))) None)
          | _, _ => None
          end
      | None => None
      end
  | None => None
  end.
(** [AWrite t ok]: the transport write of call [t] and its outcome; [ACompleted c n]: the controller reports n packets of c completed;
    [AMtu c v]: the transmit MTU of c becomes v; [AConnect h v]: a new connection. *)
Inductive act := ACall (k : call) | AStep (t : nat) | AWrite (t : nat) (ok : bool) | ACompleted (c n : nat) | AMtu (c v : nat) | AConnect (h : Z) (v : nat).
Definition exec (s : kst) (a : act) : option kst :=
  match a with
  | ACall k => if Nat.ltb (conn_of k) (length (k_conns s))
      then Some (mkK (k_bufsz s) (k_free s) (k_buf s) (k_conns s) (k_thr s ++ [mkT k (match k with KWrite _ _ => WCheck | KPdu _ p => PLock p (Some []) | KClose _ => CClose end)]) (k_lock s) (k_log s))
      else None
  | AStep t => step s t
  | AWrite t ok =>
      match nth_error (k_thr s) t with
      | Some (mkT k (PSend b pdu lft)) =>
          if ok then Some (with_log (with_thr s t (mkT k (PGet pdu false lft))) (k_log s ++ [(t, nth b (k_buf s) [])]))
          else Some (with_lock (with_thr s t (mkT k (Ended false))) None)
      | _ => None
      end
  | ACompleted c n =>
      match nth_error (k_conns s) c with
      | Some x => Some (with_conn (with_free s (k_free s ++ firstn n (c_sent x))) c (mkC (c_handle x) (c_mtu x) (c_done x) (skipn n (c_sent x))))
      | None => None
      end
  | AMtu c v =>
      match nth_error (k_conns s) c with Some x => Some (with_conn s c (mkC (c_handle x) v (c_done x) (c_sent x))) | None => None end
  | AConnect h v => Some (mkK (k_bufsz s) (k_free s) (k_buf s) (k_conns s ++ [mkC h v false []]) (k_thr s) (k_lock s) (k_log s))
  end.
Fixpoint exec_all (s : kst) (l : list act) : option kst :=
  match l with [] => Some s | a :: r => match exec s a with Some s' => exec_all s' r | None => None end end.
(** A host whose controller has [cnt] buffers for [n] bytes of payload *)
Definition k0 (cnt n : nat) : kst := mkK n (seq 0 cnt) (repeat [] cnt) [] [] None [].
