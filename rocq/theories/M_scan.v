(** Model of the package-level calls Scan, Find and Connect (gatt.go:81-149) on a Linux device (linux/device.go:212-244, linux/hci/gap.go:23-44) as a
    transition system: the calling goroutine, the event loop of the HCI (hci.go:446-470, 609-735), the handler goroutines it starts, the contexts, and the
    controller.  One call at a time.  Simplifications: events from the controller are advertisements and replies to the scan commands, in one FIFO;
    the command path is M_hcicmd (here: a command is on its way, then its reply is in the FIFO, or the caller gives up: time-out, device closed); merging
    of scan responses is M_advrep; a panic of a handler is not modelled; Dial itself is M_hci/M_gap; a slice append is a read and a write of the whole list. *)
Require Import Verif.Base.

(** an advertisement: number of the report, address, data *)
Record adv := mkA { a_id : nat; a_addr : Z; a_data : bytes }.
Inductive ev := ERep (a : adv) | EReply (ok : bool).
Inductive reason := Canceled | Deadline.
(** which call: Scan(h), Find, Connect (gatt.go) *)
Inductive kind := CScan | CFind | CConnect.
(** a running handler: started (filter not yet applied), in the handler; Find: list read; Connect: about to send on the channel; ended *)
Inductive task := TNew (a : adv) | TIn (a : adv) | TGot (a : adv) (l : list adv) | TSend (a : adv) | TDone.
(** results: the error of the context, an error of Scan *)
Inductive res := RCtx (r : reason) | RErr.
(** the caller: P0 start, P1 handler set, P2 scan enabling sent, P3 waiting for the context, P4 scan disabling sent, P5 scan disabled, P6 Connect waits
    for the channel, P7 Connect dials, returned *)
Inductive phase := P0 | P1 | P2 | P3 | P4 | P5 | P6 | P7 (a : adv) | PRet (r : res).
Record st := mkS { s_ctx : option reason; s_ctx2 : option reason; s_scan : bool; s_cmd : option bool; s_q : list ev; s_hset : bool; s_loop : option task;
  s_gos : list task; s_main : phase; s_hist : list adv; s_called : list adv; s_advs : list adv; s_out : list adv }.
Definition start : st := mkS None None false None [] false None [] P0 [] [] [] [].

Definition set_main (s : st) (p : phase) : st := mkS (s_ctx s) (s_ctx2 s) (s_scan s) (s_cmd s) (s_q s) (s_hset s) (s_loop s) (s_gos s) p (s_hist s) (s_called s) (s_advs s) (s_out s).
Definition set_cmd (s : st) (c : option bool) : st := mkS (s_ctx s) (s_ctx2 s) (s_scan s) c (s_q s) (s_hset s) (s_loop s) (s_gos s) (s_main s) (s_hist s) (s_called s) (s_advs s) (s_out s).
Definition set_q (s : st) (q : list ev) : st := mkS (s_ctx s) (s_ctx2 s) (s_scan s) (s_cmd s) q (s_hset s) (s_loop s) (s_gos s) (s_main s) (s_hist s) (s_called s) (s_advs s) (s_out s).
Definition set_ctl (s : st) (b : bool) (q : list ev) : st := mkS (s_ctx s) (s_ctx2 s) b None q (s_hset s) (s_loop s) (s_gos s) (s_main s) (s_hist s) (s_called s) (s_advs s) (s_out s).
Definition set_hset (s : st) : st := mkS (s_ctx s) (s_ctx2 s) (s_scan s) (s_cmd s) (s_q s) true (s_loop s) (s_gos s) (s_main s) (s_hist s) (s_called s) (s_advs s) (s_out s).
Definition set_ctx (s : st) (r : option reason) : st := mkS r (s_ctx2 s) (s_scan s) (s_cmd s) (s_q s) (s_hset s) (s_loop s) (s_gos s) (s_main s) (s_hist s) (s_called s) (s_advs s) (s_out s).
Definition set_ctx2 (s : st) (r : reason) : st := mkS (s_ctx s) (match s_ctx2 s with None => Some r | Some x => Some x end) (s_scan s) (s_cmd s) (s_q s) (s_hset s) (s_loop s) (s_gos s) (s_main s) (s_hist s) (s_called s) (s_advs s) (s_out s).
Definition set_tasks (s : st) (l : option task) (g : list task) : st := mkS (s_ctx s) (s_ctx2 s) (s_scan s) (s_cmd s) (s_q s) (s_hset s) l g (s_main s) (s_hist s) (s_called s) (s_advs s) (s_out s).
Definition emit (s : st) (a : adv) : st := mkS (s_ctx s) (s_ctx2 s) (s_scan s) (s_cmd s) (s_q s ++ [ERep a]) (s_hset s) (s_loop s) (s_gos s) (s_main s) (s_hist s ++ [a]) (s_called s) (s_advs s) (s_out s).
Definition call (s : st) (a : adv) : st := mkS (s_ctx s) (s_ctx2 s) (s_scan s) (s_cmd s) (s_q s) (s_hset s) (s_loop s) (s_gos s) (s_main s) (s_hist s) (s_called s ++ [a]) (s_advs s) (s_out s).
Definition set_advs (s : st) (l : list adv) : st := mkS (s_ctx s) (s_ctx2 s) (s_scan s) (s_cmd s) (s_q s) (s_hset s) (s_loop s) (s_gos s) (s_main s) (s_hist s) (s_called s) l (s_out s).
Definition set_out (s : st) (l : list adv) : st := mkS (s_ctx s) (s_ctx2 s) (s_scan s) (s_cmd s) (s_q s) (s_hset s) (s_loop s) (s_gos s) (s_main s) (s_hist s) (s_called s) (s_advs s) l.

(** what the caller waits for: Connect scans with the derived context (gatt.go:125, 139) *)
Definition waited (k : kind) (s : st) : option reason := match k with CConnect => s_ctx2 s | _ => s_ctx s end.
(** the calling goroutine.  device.go:212-226 Scan; gatt.go:107 Find returns the list as it is when Scan has returned ([late]) or as it was at the start
    (the language leaves the order open); gatt.go:139-147 Connect goes on after Canceled *)
Definition main_step (k : kind) (late : bool) (s : st) : option st :=
  match s_main s with
  | P0 => Some (set_main (set_hset s) P1)
  | P1 => Some (set_main (set_cmd s (Some true)) P2)
  | P3 => match waited k s with Some _ => Some (set_main (set_cmd s (Some false)) P4) | None => None end
  | P5 => match waited k s with
          | Some r => match k, r with
                      | CConnect, Canceled => Some (set_main s P6)
                      | CConnect, Deadline => Some (set_main s (PRet RErr))
                      | CFind, _ => Some (set_out (set_main s (PRet (RCtx r))) (if late then s_advs s else []))
                      | CScan, _ => Some (set_main s (PRet (RCtx r)))
                      end
          | None => None
          end
  | _ => None
  end.
(** a handler: the filter (gatt.go:91-95), then the handler: Scan's (any; it ends), Find's (gatt.go:104-106), Connect's (gatt.go:135-138).
    Result: the new state and the task, or None if it cannot go on by itself *)
Definition task_step (k : kind) (f : adv -> bool) (s : st) (t : task) : option (st * task) :=
  match t with
  | TNew a => if f a then Some (call s a, TIn a) else Some (s, TDone)
  | TIn a => match k with CScan => Some (s, TDone) | CFind => Some (s, TGot a (s_advs s)) | CConnect => Some (set_ctx2 s Canceled, TSend a) end
  | TGot a l => Some (set_advs s (l ++ [a]), TDone)
  | TSend _ | TDone => None
  end.
(** the event loop takes an event.  A reply goes to the caller if it waits (otherwise dropped); a report goes to the handler, in the loop itself if
    the option AdvHandlerSync was set, otherwise in a goroutine (hci.go:610, 728-732) *)
Definition loop_step (sync : bool) (s : st) : option st :=
  match s_loop s, s_q s with
  | None, EReply ok :: q =>
      let s := set_q s q in
      match s_main s with
      | P2 => Some (set_main s (if ok then P3 else PRet RErr))
      | P4 => Some (set_main s (if ok then P5 else PRet RErr))
      | _ => Some s
      end
  | None, ERep a :: q =>
      let s := set_q s q in
      if s_hset s then (if sync then Some (set_tasks s (Some (TNew a)) (s_gos s)) else Some (set_tasks s None (s_gos s ++ [TNew a]))) else Some s
  | _, _ => None
  end.
Definition norm (t : task) : option task := match t with TDone => None | _ => Some t end.
Fixpoint upd {A} (l : list A) (i : nat) (x : A) : list A := match l, i with [], _ => [] | _ :: r, O => x :: r | y :: r, S j => y :: upd r j x end.

Inductive act := AMain | ALoop | ATaskL | ATask (i : nat) | ARecvL | ARecv (i : nat) | ACtl (accept : bool) | AEmit (addr : Z) (data : bytes) | ACancel (r : reason)
| APropagate | AHelper | ATimeout.
Definition exec (k : kind) (sync late : bool) (f : adv -> bool) (s : st) (a : act) : option st :=
  match a with
  | AMain => main_step k late s
  | ALoop => loop_step sync s
  | ATaskL => match s_loop s with Some t => match task_step k f s t with Some (s', t') => Some (set_tasks s' (norm t') (s_gos s')) | None => None end | None => None end
  | ATask i => match nth_error (s_gos s) i with Some t => match task_step k f s t with Some (s', t') => Some (set_tasks s' (s_loop s') (upd (s_gos s') i t')) | None => None end | None => None end
  | ARecvL => match s_main s, s_loop s with P6, Some (TSend a) => Some (set_main (set_tasks s None (s_gos s)) (P7 a)) | _, _ => None end
  | ARecv i => match s_main s, nth_error (s_gos s) i with P6, Some (TSend a) => Some (set_main (set_tasks s (s_loop s) (upd (s_gos s) i TDone)) (P7 a)) | _, _ => None end
  | ACtl b => match s_cmd s with Some e => Some (set_ctl s (if b then e else s_scan s) (s_q s ++ [EReply b])) | None => None end
  | AEmit addr data => if s_scan s then Some (emit s (mkA (length (s_hist s)) addr data)) else None
  | ACancel r => match s_ctx s with None => Some (set_ctx s (Some r)) | Some _ => None end
  | APropagate => match s_ctx s, s_ctx2 s with Some r, None => Some (set_ctx2 s r) | _, _ => None end
  | AHelper => match s_ctx s, s_ctx2 s with Some _, None => Some (set_ctx2 s Canceled) | _, _ => None end
  | ATimeout => match s_main s with P2 | P4 => Some (set_main s (PRet RErr)) | _ => None end
  end.
