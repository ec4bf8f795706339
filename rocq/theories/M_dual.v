(** Model of an attribute client with an embedded server: every connection made with Device.Dial gets one (linux/device.go:225-245,
    linux/gatt/client.go:59-62, linux/att/client.go:57-66 WithServer).  The client's goroutines are those of M_attloop.v; its queue of
    requests is emptied by asyncReqLoop (client.go:559-586), which handles a request with the server (M_attsrv.v), then takes the
    client's transmit buffer, writes the answer and puts the buffer back (sendResp, 544-556).  Calls of Notifier.Write and the exchange
    of the server's buffers are those of M_srvloop.v; its Loop does not run, so nothing reads confirmations for the server.
    The state is a pair: client side, server side; in the client's list of callers number 0 stands for asyncReqLoop.
    Simplifications: those of M_attloop.v and M_srvloop.v; the client makes no MTU exchange of its own (the transmit MTU of the
    connection is changed by the server side only); the end of the connection is the end of the client's Loop. *)
Require Import Verif.Base Verif.M_attdb Verif.M_attsrv Verif.M_srvloop.
Require Verif.M_attloop.

(** asyncReqLoop: never started (601: the server was not there yet when Loop looked), running, returned *)
Inductive aph := AOff | AOn | AEnd.
Record du := mkDu { cl : M_attloop.lst; sl : ls; ap : aph }.
(** [attached]: WithServer was done before Loop looked (601) *)
Definition uinit (n : nat) (s : srv) (attached : bool) : du := mkDu (M_attloop.linit (S n)) (linit s) (if attached then AOn else AOff).

(** what the server side does by itself: the application's calls, handling, buffers, the timer *)
Definition server_act (a : act) : bool :=
  match a with ACall _ _ | AHandle _ | AMtuN | AMtuI | ACTake _ | ACWrite _ _ | ACSelect _ | ACTimeout _ => true | _ => false end.
(** what is seen: of the client (M_attloop.v) and of the server (M_srvloop.v) *)
Inductive uev := UC (e : M_attloop.ev) | US (v : vis).
Definition pop_inc (c : M_attloop.lst) (q : list bytes) : M_attloop.lst :=
  M_attloop.mkL (M_attloop.token c) (M_attloop.callers c) (M_attloop.blk c) (M_attloop.nq c) q (M_attloop.failed c) (M_attloop.alive c).
Definition no_serve (e : M_attloop.ev) : Prop := match e with M_attloop.EServe _ => False | _ => True end.

(** conn.Read fails on a payload longer than the client's buffer of 515 bytes (conn.go:206-208): Loop ends (M_attloop.l_read_error) *)
Definition readable (e : M_attloop.ev) : Prop := match e with M_attloop.ERx b => (length b <= 515)%nat | _ => True end.

Inductive ustep : du -> list uev -> du -> Prop :=
(* the client's other goroutines: callers, Loop, the notification handler *)
| u_client : forall s e c', hd (sl s) <> HPanic -> M_attloop.lstep (cl s) e c' -> Forall no_serve e -> Forall readable e ->
    nth_error (M_attloop.callers c') 0 = nth_error (M_attloop.callers (cl s)) 0 -> ustep s (map UC e) (mkDu c' (sl s) (ap s))
(* the server's users: the application's calls and their goroutines; the handler *)
| u_server : forall s a s' v, server_act a = true -> lstep (sl s) a = Some (s', v) -> ustep s (map US v) (mkDu (cl s) s' (ap s))
(* 577: the next request *)
| u_recv : forall s b q, ap s = AOn -> hd (sl s) = HWait -> M_attloop.inq (cl s) = b :: q ->
    ustep s [UC (M_attloop.EServe b)] (mkDu (pop_inc (cl s) q) (set_hd (HGot 0) (set_bufs [mkB b (length b)] (sl s))) (ap s))
(* 546 *)
| u_take : forall s k rsp, hd (sl s) = HWrite k rsp -> M_attloop.token (cl s) = true -> nth_error (M_attloop.callers (cl s)) 0 = Some M_attloop.KIdle ->
    ustep s [] (mkDu (M_attloop.set_caller (cl s) false 0 M_attloop.KHold) (sl s) (ap s))
(* 551-555 *)
| u_write : forall s k rsp ok, hd (sl s) = HWrite k rsp -> nth_error (M_attloop.callers (cl s)) 0 = Some M_attloop.KHold -> may_write (sl s) rsp ok = true ->
    ustep s [US (VWrite SRsp rsp ok)] (mkDu (M_attloop.set_caller (cl s) true 0 M_attloop.KIdle) (set_hd (HPut k) (sl s)) (ap s))
(* 560: the next round *)
| u_next : forall s k, hd (sl s) = HPut k -> ustep s [] (mkDu (cl s) (set_hd HWait (sl s)) (ap s))
(* 563-575: Loop has ended *)
| u_stop : forall s, ap s = AOn -> hd (sl s) = HWait -> M_attloop.alive (cl s) = false -> ustep s [] (mkDu (cl s) (sl s) AEnd).
Inductive urun : du -> list uev -> du -> Prop :=
| ur_nil : forall s, urun s [] s
| ur_snoc : forall s t s1 e s2, urun s t s1 -> ustep s1 e s2 -> urun s (t ++ e) s2.
