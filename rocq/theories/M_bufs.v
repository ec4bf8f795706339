(** Model of the controller-buffer flow control: linux/hci/buffer.go, the locking of conn.go writePDU,
    hci.go cleanupConnectionHandle / handleNumberOfCompletedPackets / handleLEConnectionComplete.
    A small-step transition system: any number of goroutines interleaved at every lock, channel operation and transport write. *)
Require Import Verif.Base.

(** One connection: buffer.go:31-34 Client.sent (oldest first), conn.go chDone closed?, still in h.conns?,
    and (ghost) how many of its packets the controller holds. *)
Record cst := mkC { sent : list nat; cdone : bool; inmap : bool; ctrl : nat }.
(** Program counters of a goroutine. *)
Inductive pc :=
| TIdle
| WLock (c n : nat)   (* conn.go:335 waiting for the pool lock, n fragments to send *)
| WCheck (c n : nat)  (* conn.go:341-345, holding the pool lock *)
| WLoop (c n : nat)   (* conn.go:347-349, n fragments left, about to Get *)
| WWrite (c n : nat)  (* conn.go:374-383, buffer obtained, about to check chDone and write; n left afterwards *)
| CLock (c : nat)     (* hci.go:890, holding muConns, chDone closed, waiting for the pool lock *)
| CPut (c : nat).     (* hci.go:891, holding both locks *)
Record st := mkSt { free : list nat; conns : list cst; threads : list pc; plock : option nat; mlock : option nat }.

Definition init (cnt nthreads : nat) : st := mkSt (seq 0 cnt) [] (repeat TIdle nthreads) None None.
Definition set_thread (s : st) (i : nat) (p : pc) : st := mkSt (free s) (conns s) (upd (threads s) i p) (plock s) (mlock s).
Definition set_plock (s : st) (l : option nat) : st := mkSt (free s) (conns s) (threads s) l (mlock s).
Definition set_mlock (s : st) (l : option nat) : st := mkSt (free s) (conns s) (threads s) (plock s) l.
Definition set_conn (s : st) (c : nat) (k : cst) : st := mkSt (free s) (upd (conns s) c k) (threads s) (plock s) (mlock s).
Definition set_free (s : st) (f : list nat) : st := mkSt f (conns s) (threads s) (plock s) (mlock s).

(** buffer.go:60-66 Put k times: the oldest sent buffers go back (a no-op once sent is empty) *)
Definition put (k : nat) (x : cst) (f : list nat) : cst * list nat :=
  (mkC (skipn k (sent x)) (cdone x) (inmap x) (ctrl x - k), f ++ firstn k (sent x)).

Inductive step : st -> st -> Prop :=
(** hci.go:790-803 a new connection (fresh Conn object) *)
| s_connect : forall s i, nth_error (threads s) i = Some TIdle -> mlock s = None ->
    step s (mkSt (free s) (conns s ++ [mkC [] false true 0]) (threads s) (plock s) (mlock s))
(** conn.go:328-335 a goroutine starts writing a PDU of n fragments *)
| s_write : forall s i c n, nth_error (threads s) i = Some TIdle -> (c < length (conns s))%nat -> step s (set_thread s i (WLock c n))
| s_lock : forall s i c n, nth_error (threads s) i = Some (WLock c n) -> plock s = None ->
    step s (set_plock (set_thread s i (WCheck c n)) (Some i))
(** conn.go:341-345 *)
| s_check_closed : forall s i c n x, nth_error (threads s) i = Some (WCheck c n) -> nth_error (conns s) c = Some x -> cdone x = true ->
    step s (set_plock (set_thread s i TIdle) None)
| s_check_open : forall s i c n x, nth_error (threads s) i = Some (WCheck c n) -> nth_error (conns s) c = Some x -> cdone x = false ->
    step s (set_thread s i (WLoop c n))
(** buffer.go:52-57 Get: blocks while the pool is empty *)
| s_get : forall s i c n x b f, nth_error (threads s) i = Some (WLoop c (S n)) -> nth_error (conns s) c = Some x -> free s = b :: f ->
    step s (set_thread (set_conn (set_free s f) c (mkC (sent x ++ [b]) (cdone x) (inmap x) (ctrl x))) i (WWrite c n))
| s_end : forall s i c, nth_error (threads s) i = Some (WLoop c 0) -> step s (set_plock (set_thread s i TIdle) None)
(** conn.go:374-378 *)
| s_write_closed : forall s i c n x, nth_error (threads s) i = Some (WWrite c n) -> nth_error (conns s) c = Some x -> cdone x = true ->
    step s (set_plock (set_thread s i TIdle) None)
(** conn.go:381-389: the packet reaches the controller *)
| s_write_ok : forall s i c n x, nth_error (threads s) i = Some (WWrite c n) -> nth_error (conns s) c = Some x -> cdone x = false ->
    step s (set_thread (set_conn s c (mkC (sent x) (cdone x) (inmap x) (S (ctrl x)))) i (WLoop c n))
(** conn.go:381-383: the transport write fails *)
| s_write_err : forall s i c n, nth_error (threads s) i = Some (WWrite c n) -> step s (set_plock (set_thread s i TIdle) None)
(** hci.go:851-880 cleanupConnectionHandle with the HCI open: remove from the map, close chDone *)
| s_clean : forall s i c x, nth_error (threads s) i = Some TIdle -> mlock s = None -> nth_error (conns s) c = Some x -> inmap x = true ->
    step s (set_mlock (set_thread (set_conn s c (mkC (sent x) true false (ctrl x))) i (CLock c)) (Some i))
| s_clean_lock : forall s i c, nth_error (threads s) i = Some (CLock c) -> plock s = None ->
    step s (set_plock (set_thread s i (CPut c)) (Some i))
(** buffer.go:69-78 PutAll; then both locks are released *)
| s_clean_put : forall s i c x, nth_error (threads s) i = Some (CPut c) -> nth_error (conns s) c = Some x ->
    step s (set_mlock (set_plock (set_thread (set_conn (set_free s (free s ++ sent x)) c (mkC [] (cdone x) (inmap x) (ctrl x))) i TIdle) None) None)
(** hci.go:937-954 one handle of a NumberOfCompletedPackets event, k packets; only connections in the map *)
| s_completed : forall s i c x k, nth_error (threads s) i = Some TIdle -> mlock s = None -> nth_error (conns s) c = Some x -> inmap x = true ->
    step s (set_conn (set_free s (snd (put k x (free s)))) c (fst (put k x (free s)))).

Inductive steps : st -> st -> Prop :=
| steps_refl : forall s, steps s s
| steps_one : forall s1 s2 s3, steps s1 s2 -> step s2 s3 -> steps s1 s3.
