(** Model of the goroutines of linux/att/client.go: any number of callers of the operations (each takes the transmit buffer from chTxBuf,
    writes, and waits in sendReq 514-542), the reading goroutine Loop (589-717) with its queue of 16 notifications and the goroutine calling
    the handler (597-603), and the queue [inc] of 10 requests for the server (559-586, 672-686).
    A step is one channel operation or one write; the reading goroutine's work on one PDU is a single step, its confirmation (712-715) included.
    Time is not modelled: the 2 s timer may fire whenever a caller waits.  Not modelled: done / connection closed (the goroutines return). *)
Require Import Verif.Base Verif.M_attcli.

Inductive kph := KIdle | KHold | KWait (op : Z).
(** [token]: the buffer is in chTxBuf; [blk]: the response Loop is trying to hand over on rspc; [failed]: an error waits in chErr; [alive]: Loop runs *)
Record lst := mkL { token : bool; callers : list kph; blk : option bytes; nq : list bytes; inq : list bytes; failed : bool; alive : bool }.
Inductive ev := ESent (k : nat) (req : bytes) | ERx (b : bytes) | EGot (k : nat) (b : bytes) | ERej (k : nat) (b : bytes) | EGave (k : nat) | ECmd (k : nat)
  | ECfm | EDrop (b : bytes) | EDropReq (b : bytes) | ENotify (b : bytes) | EServe (b : bytes) | ECrash.
Definition linit (n : nat) : lst := mkL true (repeat KIdle n) None [] [] false true.
Definition is_req (b : bytes) : bool := Z.even (hd 0 b).
Definition is_note (b : bytes) : bool := (hd 0 b =? 27) || (hd 0 b =? 29).
Definition is_ind (b : bytes) : bool := hd 0 b =? 29.
Definition is_rsp (b : bytes) : bool := negb (is_req b) && negb (is_note b).
Definition matches (op : Z) (b : bytes) : bool := (hd 0 b =? 1) || (hd 0 b =? rsp_of_req op).
(** client.go:665-716: one PDU read *)
Definition loop_step (s : lst) (b : bytes) : lst * list ev :=
  match b with
  | [] => (mkL (token s) (callers s) (blk s) (nq s) (inq s) (failed s) false, [ERx b; ECrash])
  | _ =>
    if is_req b then
      if Nat.ltb (length (inq s)) 10 then (mkL (token s) (callers s) (blk s) (nq s) (inq s ++ [b]) (failed s) (alive s), [ERx b])
      else (s, [ERx b; EDropReq b])
    else if is_note b then
      let c := if is_ind b then [ECfm] else [] in
      if Nat.ltb (length (nq s)) 16 then (mkL (token s) (callers s) (blk s) (nq s ++ [b]) (inq s) (failed s) (alive s), [ERx b] ++ c)
      else (s, [ERx b; EDrop b] ++ c)
    else (mkL (token s) (callers s) (Some b) (nq s) (inq s) (failed s) (alive s), [ERx b])
  end.
Definition set_caller (s : lst) (t : bool) (k : nat) (x : kph) : lst := mkL t (upd (callers s) k x) (blk s) (nq s) (inq s) (failed s) (alive s).
Definition set_blk (s : lst) (b : option bytes) : lst := mkL (token s) (callers s) b (nq s) (inq s) (failed s) (alive s).
Inductive lstep : lst -> list ev -> lst -> Prop :=
| l_acquire : forall s k, token s = true -> nth_error (callers s) k = Some KIdle -> lstep s [] (set_caller s false k KHold)
| l_send : forall s k op r, nth_error (callers s) k = Some KHold -> lstep s [ESent k (op :: r)] (set_caller s false k (KWait op))
| l_cmd : forall s k, nth_error (callers s) k = Some KHold -> lstep s [ECmd k] (set_caller s true k KIdle)
| l_send_fail : forall s k, nth_error (callers s) k = Some KHold -> lstep s [] (set_caller s true k KIdle)
| l_rx : forall s b, alive s = true -> blk s = None -> lstep s (snd (loop_step s b)) (fst (loop_step s b))
| l_got : forall s k op b, nth_error (callers s) k = Some (KWait op) -> blk s = Some b -> matches op b = true ->
    lstep s [EGot k b] (set_blk (set_caller s true k KIdle) None)
| l_reject : forall s k op b, nth_error (callers s) k = Some (KWait op) -> blk s = Some b -> matches op b = false -> lstep s [ERej k b] (set_blk s None)
| l_reject_fail : forall s k op b, nth_error (callers s) k = Some (KWait op) -> blk s = Some b -> matches op b = false ->
    lstep s [ERej k b; EGave k] (set_blk (set_caller s true k KIdle) None)
| l_timeout : forall s k op, nth_error (callers s) k = Some (KWait op) -> lstep s [EGave k] (set_caller s true k KIdle)
| l_err : forall s k op, nth_error (callers s) k = Some (KWait op) -> failed s = true ->
    lstep s [EGave k] (mkL true (upd (callers s) k KIdle) (blk s) (nq s) (inq s) false (alive s))
| l_read_error : forall s, alive s = true -> blk s = None -> lstep s [] (mkL (token s) (callers s) (blk s) (nq s) (inq s) true false)
| l_notify : forall s b q, nq s = b :: q -> lstep s [ENotify b] (mkL (token s) (callers s) (blk s) q (inq s) (failed s) (alive s))
| l_serve : forall s b q, inq s = b :: q -> lstep s [EServe b] (mkL (token s) (callers s) (blk s) (nq s) q (failed s) (alive s)).
Inductive lruns : lst -> list ev -> lst -> Prop :=
| lr_nil : forall s, lruns s [] s
| lr_step : forall s t s1 e s2, lruns s t s1 -> lstep s1 e s2 -> lruns s (t ++ e) s2.
