(** What constructing a device means, said without the code: the last setting of a kind wins, the transport asked for, and histories of the devices of one process. *)
Require Import Verif.Base Verif.M_cmd Verif.M_params Verif.S_params Verif.M_gap Verif.M_open.

(** the settings made by a list of options, in order *)
Definition setters (l : list option_fn) : list setter := flat_map (fun o => match o with Opt s => [s] | OUser l _ => l end) l.
(** of one kind *)
Definition dialers (l : list setter) : list Z := flat_map (fun s => match s with SDialerTimeout d => [d] | _ => [] end) l.
Definition listeners (l : list setter) : list Z := flat_map (fun s => match s with SListenerTimeout d => [d] | _ => [] end) l.
Definition connps (l : list setter) : list sval := flat_map (fun s => match s with SConnParams p => [p] | _ => [] end) l.
Definition scanps (l : list setter) : list sval := flat_map (fun s => match s with SScanParams p => [p] | _ => [] end) l.
Definition advps (l : list setter) : list sval := flat_map (fun s => match s with SAdvParams p => [p] | _ => [] end) l.
Definition syncs (l : list setter) : list bool := flat_map (fun s => match s with SAdvHandlerSync b => [b] | _ => [] end) l.
Definition errhs (l : list setter) : list (option Z) := flat_map (fun s => match s with SErrorHandler f => [f] | _ => [] end) l.
Definition caches (l : list setter) : list (option string) := flat_map (fun s => match s with SGattCacheFile n => [Some n] | _ => [] end) l.
(** security is on when a proper bond manager was given; anything else is no bond manager *)
Definition managers (l : list setter) : list (option Z) := flat_map (fun s => match s with SEnableSecurity (BManager m) => [Some m] | _ => [] end) l.
(** the transports asked for *)
Inductive wanted := WHci (id : Z) | WTcp (addr : string) (timeout : Z) | WTty (path : string) (baud : Z).
Definition transports (l : list setter) : list (option wanted) := flat_map (fun s => match s with SHCISocket id => [Some (WHci id)] | SH4Socket a t => [Some (WTcp a t)] | SH4Uart p b => [Some (WTty p b)] | _ => [] end) l.
Definition transport_for (l : list option_fn) : option wanted := last (transports (setters l)) None.

(** an open file that is the transport asked for: HCI device [id] (16 bits of it; -1: any device), a connection to that address, that serial port at that rate
    (-1: 1000000) *)
Definition is_for (t : wanted) (f : file) : Prop :=
  match t with
  | WHci id => if id =? -1 then exists i, f = FRaw (Some i) else f = FRaw (Some (id mod 65536))
  | WTcp a _ => f = FTcp a
  | WTty p b => f = FTty p (if b =? -1 then 1000000 else b)
  end.

(** the HCI devices the process holds *)
Definition held (w : world) : list Z := flat_map (fun x => match snd x with FRaw (Some i) => [i] | _ => [] end) (w_files w).
Definition fds (w : world) : list nat := map fst (w_files w).
(** a process that has not opened anything *)
Definition fresh_world : world := mkW [] 0 0 [] [].
(** What happens in a process: a call to NewDevice ends (whatever the options, the controller and the length of its waits), Stop is called on a device, the goroutines of
    stopped devices end, time passes *)
Inductive happens {K} (env : environ) : world -> world -> Prop :=
| PNew rounds n (step : controller K) k opts w w' k' o : new_device env rounds n step w k opts = Some (Ret (w', k', o)) -> happens env w w'
| PStop w fd : happens env w (close_dev w fd)
| PSettle w : happens env w (settle w)
| PTime w : happens env w (tick w).
Inductive later {K} (env : environ) : world -> world -> Prop :=
| later_refl w : later env w w
| later_step w w1 w2 : happens (K := K) env w w1 -> later env w1 w2 -> later env w w2.

(** From moment [t] on nothing gets in the way: no call is refused, nothing is read from the transport, it does not break *)
Definition calm (env : environ) (t : nat) : Prop := forall u, (t <= u)%nat ->
  e_deny (env u) = false /\ e_poll (env u) = PNone /\ e_read (env u) = RTimeout /\ e_late (env u) = false /\ e_break (env u) = false.
(** HCI device [i] exists and no other process holds it *)
Definition free (env : environ) (t : nat) (i : Z) : Prop := forall u, (t <= u)%nat -> In i (e_devs (env u)) /\ e_taken (env u) i = false.
