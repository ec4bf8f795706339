(** Model of the construction of a device: the options (option.go, linux/hci/option.go, linux/hci/hci.go:240-248), NewHCI and Init up to the set-up
    commands (hci.go:38-66, 142-192; the commands themselves are init_host of M_gap), the opening of the transport (linux/hci/transport.go,
    linux/hci/socket/socket.go:66-127, linux/hci/h4/h4.go:31-113, 222-257) and NewDeviceWithNameAndHandler and Stop (linux/device.go:20-53, 108-111).
    The operating system is modelled as far as these calls need it: the open descriptors of the process, and an environment that says, for every moment
    (counted in system calls), which HCI devices exist, which are held by another process, and what else refuses a call.
    Simplifications: descriptor numbers are not reused; the file descriptor behind a TCP connection or a serial port is opened in one step; a bond manager is a
    number; a dial or serial option is its value; the GATT cache is its file name; a transport that fails during the set-up commands is [e_break]; logging is dropped. *)
Require Import Verif.Base Verif.M_uuid Verif.M_adv Verif.M_cmd Verif.M_params Verif.M_gap.

(** linux/hci/transport.go:12-29 *)
Record transport := mkT { t_hci : option Z; t_uart : option (string * Z); t_sock : option (string * Z) }.
Definition no_transport : transport := mkT None None None.
(** the fields of HCI set by options (hci.go:72-136); [g_sec]: smpEnabled and the bond manager of the factory *)
Record cfg := mkG { g_host : host; g_dial : Z; g_listen : Z; g_sync : bool; g_errh : option Z; g_sec : option Z; g_tr : transport; g_cache : option string }.
(** hci.go:38-60: NewHCI before the options; device.go:30 the factory has no bond manager *)
Definition new_cfg : cfg := mkG new_host 0 0 false None None no_transport None.
Definition with_host (c : cfg) (h : host) : cfg := mkG h (g_dial c) (g_listen c) (g_sync c) (g_errh c) (g_sec c) (g_tr c) (g_cache c).
Definition with_tr (c : cfg) (t : transport) : cfg := mkG (g_host c) (g_dial c) (g_listen c) (g_sync c) (g_errh c) (g_sec c) t (g_cache c).

(** what is given as bond manager (an interface{}): one of the right type, or anything else *)
Inductive bondarg := BManager (m : Z) | BWrongType.
(** The methods of DeviceOption (option.go:10-27) *)
Inductive setter := SDialerTimeout (d : Z) | SListenerTimeout (d : Z) | SConnParams (p : sval) | SScanParams (p : sval) | SAdvParams (p : sval)
| SPeripheralRole | SCentralRole | SAdvHandlerSync (b : bool) | SErrorHandler (f : option Z) | SEnableSecurity (b : bondarg)
| SHCISocket (id : Z) | SH4Socket (addr : string) (timeout : Z) | SH4Uart (path : string) (baud : Z) | SGattCacheFile (name : string).
(** linux/hci/option.go:14-118: the new state and whether the error is nil *)
Definition set (c : cfg) (s : setter) : cfg * bool :=
  match s with
  | SDialerTimeout d => (mkG (g_host c) d (g_listen c) (g_sync c) (g_errh c) (g_sec c) (g_tr c) (g_cache c), true)
  | SListenerTimeout d => (mkG (g_host c) (g_dial c) d (g_sync c) (g_errh c) (g_sec c) (g_tr c) (g_cache c), true)
  | SConnParams p => (with_host c (with_connp (g_host c) p), true)
  | SScanParams p => (with_host c (with_scanp (g_host c) p), true)
  | SAdvParams p => (with_host c (with_advp (g_host c) p), true)
  | SPeripheralRole | SCentralRole => (c, false)
  | SAdvHandlerSync b => (mkG (g_host c) (g_dial c) (g_listen c) b (g_errh c) (g_sec c) (g_tr c) (g_cache c), true)
  | SErrorHandler f => (mkG (g_host c) (g_dial c) (g_listen c) (g_sync c) f (g_sec c) (g_tr c) (g_cache c), true)
  | SEnableSecurity (BManager m) => (mkG (g_host c) (g_dial c) (g_listen c) (g_sync c) (g_errh c) (Some m) (g_tr c) (g_cache c), true)
  | SEnableSecurity BWrongType => (c, false)
  | SHCISocket id => (with_tr c (mkT (Some id) None None), true)
  | SH4Socket a t => (with_tr c (mkT None None (Some (a, t))), true)
  | SH4Uart p b => (with_tr c (mkT None (Some (p, b)) None), true)
  | SGattCacheFile n => (mkG (g_host c) (g_dial c) (g_listen c) (g_sync c) (g_errh c) (g_sec c) (g_tr c) (Some n), true)
  end.
(** option.go:30-150: an Option of the package calls one setter, drops its error and returns nil ([OptDeviceID] is OptTransportHCISocket).
    [OUser]: any other function of type Option: it calls setters and returns an error or not. *)
Inductive option_fn := Opt (s : setter) | OUser (l : list setter) (ok : bool).
Definition set_all (c : cfg) (l : list setter) : cfg := fold_left (fun c s => fst (set c s)) l c.
Definition apply_option (c : cfg) (o : option_fn) : cfg * bool :=
  match o with Opt s => (fst (set c s), true) | OUser l ok => (set_all c l, ok) end.
(** hci.go:240-248 Option: the error is that of the last option *)
Fixpoint option_loop (c : cfg) (ok : bool) (l : list option_fn) : cfg * bool :=
  match l with [] => (c, ok) | o :: r => let (c', ok') := apply_option c o in option_loop c' ok' r end.
Definition hci_option (c : cfg) (l : list option_fn) : cfg * bool := option_loop c true l.
(** hci.go:38-66 NewHCI *)
Definition new_hci (l : list option_fn) : option cfg := let (c, ok) := hci_option new_cfg l in if ok then Some c else None.

(** params.go:83-96 reads these fields of the parameter structs *)
Definition fint (fv : sval) (n : string) : Z := match fv n with GInt z => z | _ => 0 end.
Definition scan_of (fv : sval) : scan_params := mkScan (fint fv "LEScanType") (fint fv "LEScanInterval") (fint fv "LEScanWindow") (fint fv "OwnAddressType") (fint fv "ScanningFilterPolicy").
Definition conn_of (fv : sval) : conn_params := mkConn (fint fv "LEScanInterval") (fint fv "LEScanWindow") (fint fv "InitiatorFilterPolicy") (fint fv "PeerAddressType")
  (fint fv "OwnAddressType") (fint fv "ConnIntervalMin") (fint fv "ConnIntervalMax") (fint fv "ConnLatency") (fint fv "SupervisionTimeout") (fint fv "MinimumCELength") (fint fv "MaximumCELength").
Definition params_valid (c : cfg) : bool := validate (conn_of (h_connp (g_host c))) (scan_of (h_scanp (g_host c))).

(** ---- the operating system ---- *)
(** an open file: an HCI socket with the device it is bound to (as a user channel), a TCP connection, a serial port *)
Inductive file := FRaw (bound : option Z) | FTcp (addr : string) | FTty (path : string) (baud : Z).
(** [w_run]: descriptors served by the two goroutines of a device (hci.go:173-174); [w_stop]: those whose device was closed: the goroutines end and close them *)
Record world := mkW { w_files : list (nat * file); w_next : nat; w_t : nat; w_run : list nat; w_stop : list nat }.
Inductive pollres := PErr | PIn | PNone.
Inductive readres := RData (n : nat) | RTimeout | REof | RError.
(** a moment: devices present (in the order the kernel lists them), devices held by other processes, refusal of the call made now for any other reason, what poll
    and read return, whether the deadline of a loop has passed, whether the transport breaks during set-up *)
Record moment := mkE { e_devs : list Z; e_taken : Z -> bool; e_deny : bool; e_poll : pollres; e_read : readres; e_late : bool; e_break : bool }.
Notation environ := (nat -> moment).

Definition tick (w : world) : world := mkW (w_files w) (w_next w) (S (w_t w)) (w_run w) (w_stop w).
Definition with_files (w : world) (l : list (nat * file)) : world := mkW l (w_next w) (w_t w) (w_run w) (w_stop w).
Definition file_of (w : world) (fd : nat) : option file := option_map snd (find (fun x => Nat.eqb (fst x) fd) (w_files w)).
Definition holds (id : Z) (f : file) : bool := match f with FRaw (Some i) => i =? id | _ => false end.
Definition bound_here (w : world) (id : Z) : bool := existsb (fun x => holds id (snd x)) (w_files w).
(** socket(2), the TCP connection (net.DialTimeout) and the serial port (serial.Open): a new descriptor *)
Definition sys_new (env : environ) (w : world) (f : file) : world * option nat :=
  if e_deny (env (w_t w)) then (tick w, None)
  else (tick (mkW ((w_next w, f) :: w_files w) (S (w_next w)) (w_t w) (w_run w) (w_stop w)), Some (w_next w)).
Definition sys_close (w : world) (fd : nat) : world := tick (with_files w (filter (fun x => negb (Nat.eqb (fst x) fd)) (w_files w))).
(** HCIGETDEVLIST: at most 16 devices (socket.go:35) *)
Definition sys_devlist (env : environ) (w : world) (fd : nat) : world * option (list Z) :=
  (tick w, match file_of w fd with Some (FRaw None) => if e_deny (env (w_t w)) then None else Some (firstn 16 (e_devs (env (w_t w)))) | _ => None end).
(** a device nobody uses as a user channel; the kernel takes 16 bits of the id *)
Definition available (env : environ) (w : world) (id : Z) : bool :=
  existsb (Z.eqb id) (e_devs (env (w_t w))) && negb (e_taken (env (w_t w)) id) && negb (bound_here w id).
(** HCIDEVDOWN: an unbound HCI socket, a device that exists and is no user channel *)
Definition sys_down (env : environ) (w : world) (fd : nat) (id : Z) : world * bool :=
  (tick w, match file_of w fd with Some (FRaw None) => negb (e_deny (env (w_t w))) && available env w (u16 id) | _ => false end).
(** bind to HCI_CHANNEL_USER: the device 0xFFFF is HCI_DEV_NONE *)
Definition sys_bind (env : environ) (w : world) (fd : nat) (id : Z) : world * bool :=
  match file_of w fd with
  | Some (FRaw None) => if negb (e_deny (env (w_t w))) && negb (u16 id =? 65535) && available env w (u16 id)
      then (tick (with_files w (map (fun x => if Nat.eqb (fst x) fd then (fd, FRaw (Some (u16 id))) else x) (w_files w))), true) else (tick w, false)
  | _ => (tick w, false)
  end.

(** socket.go:100-127 open *)
Definition open (env : environ) (w : world) (fd : nat) (id : Z) : world * bool :=
  let (w, ok) := sys_down env w fd id in
  if ok then
    let (w, ok) := sys_bind env w fd id in
    if ok then
      match e_poll (env (w_t w)) with PErr => (tick w, false) | PIn => (tick (tick w), true) | PNone => (tick w, true) end
    else (w, false)
  else (w, false).
(** socket.go:76-86: [n] rounds, a second each, until 60 seconds have passed *)
Fixpoint retry (env : environ) (n : nat) (w : world) (fd : nat) (id : Z) : world * bool :=
  match n with
  | O => (w, false)
  | S n => let (w, ok) := open env w fd id in if ok then (w, true) else retry env n (sys_close w fd) fd id
  end.
(** socket.go:94-100: one device after the other; [m] devices from number [id] *)
Fixpoint first_open (env : environ) (m : nat) (w : world) (fd : nat) (id : Z) : world * bool :=
  match m with
  | O => (w, false)
  | S m => let (w, ok) := open env w fd id in if ok then (w, true) else first_open env m w fd (id + 1)
  end.
(** socket.go:66-103 NewSocket; [rounds]: the number of rounds of the retry loop after the first *)
Definition new_socket (env : environ) (rounds : nat) (w : world) (id : Z) : world * option nat :=
  let (w, r) := sys_new env w (FRaw None) in
  match r with
  | None => (w, None)
  | Some fd =>
      if negb (id =? -1) then let (w, ok) := retry env (S rounds) w fd id in (w, if ok then Some fd else None)
      else
        let (w, l) := sys_devlist env w fd in
        match l with
        | None => (sys_close w fd, None)
        | Some l => let (w, ok) := first_open env (length l) w fd 0 in if ok then (w, Some fd) else (sys_close w fd, None)
        end
  end.

(** h4.go:230-257: the loop of resetAndWaitIdle; [None]: still reading after [n] reads *)
Fixpoint wait_idle (env : environ) (eof_err : bool) (n : nat) (w : world) : option (world * bool) :=
  match n with
  | O => None
  | S n =>
      let r := e_read (env (w_t w)) in
      let late := e_late (env (w_t w)) in
      let w := tick w in
      match r with
      | RData O => Some (w, true)
      | RData _ => if late then Some (w, false) else wait_idle env eof_err n w
      | RTimeout => if late then Some (w, false) else Some (w, true)
      | REof => if late then Some (w, false) else Some (w, negb eof_err)
      | RError => Some (w, false)
      end
  end.
(** h4.go:222-229: write the reset command first *)
Definition reset_and_wait (env : environ) (eof_err : bool) (n : nat) (w : world) : option (world * bool) :=
  if e_deny (env (w_t w)) then Some (tick w, false) else wait_idle env eof_err n (tick w).
(** h4.go:44-78 NewSerial, 80-113 NewSocket *)
Definition new_h4 (env : environ) (f : file) (eof_err : bool) (n : nat) (w : world) : option (world * option nat) :=
  let (w, r) := sys_new env w f in
  match r with
  | None => Some (w, None)
  | Some fd => match reset_and_wait env eof_err n w with
               | None => None
               | Some (w, true) => Some (w, Some fd)
               | Some (w, false) => Some (sys_close w fd, None)
               end
  end.
(** transport.go:31-52 getTransport; h4.go:31-42 the default baud rate *)
Definition get_transport (env : environ) (rounds n : nat) (w : world) (t : transport) : option (world * option nat) :=
  match t with
  | mkT (Some id) _ _ => Some (new_socket env rounds w id)
  | mkT None _ (Some (a, _)) => new_h4 env (FTcp a) true n w
  | mkT None (Some (p, b)) None => new_h4 env (FTty p (if b =? -1 then 1000000 else b)) false n w
  | mkT None None None => Some (w, None)
  end.

(** ---- the device ---- *)
Inductive outcome := NErr | NDev (c : cfg) (fd : nat).
Definition run_loops (w : world) (fd : nat) : world := mkW (w_files w) (w_next w) (w_t w) (fd :: w_run w) (w_stop w).
(** Close (hci.go:224-238, device.go:108-111): the goroutines of the device are told to end *)
Definition close_dev (w : world) (fd : nat) : world :=
  if existsb (Nat.eqb fd) (w_run w) then mkW (w_files w) (w_next w) (w_t w) (filter (fun x => negb (Nat.eqb x fd)) (w_run w)) (fd :: w_stop w) else w.
(** the goroutines told to end have ended: they close the transport (hci.go:193-195; that they do is C121) *)
Definition settle (w : world) : world :=
  mkW (filter (fun x => negb (existsb (Nat.eqb (fst x)) (w_stop w))) (w_files w)) (w_next w) (w_t w) (w_run w) [].
(** hci.go:142-192 Init and device.go:29-53 *)
Definition init {K} (env : environ) (rounds n : nat) (step : controller K) (w : world) (k : K) (c : cfg) : option (go (world * K * outcome)) :=
  match get_transport env rounds n w (g_tr c) with
  | None => None
  | Some (w, None) => Some (Ret (w, k, NErr))
  | Some (w, Some fd) =>
      if negb (params_valid c) then Some (Ret (close_dev w fd, k, NErr))
      else
        let w := run_loops w fd in
        if e_break (env (w_t w)) then Some (Ret (close_dev (sys_close w fd) fd, k, NErr))
        else Some (let! (h, k, ok) := init_host step (g_host c) k in
                   if ok then Ret (tick w, k, NDev (with_host c h) fd) else Ret (close_dev (tick w) fd, k, NErr))
  end.
Definition new_device {K} (env : environ) (rounds n : nat) (step : controller K) (w : world) (k : K) (opts : list option_fn) : option (go (world * K * outcome)) :=
  match new_hci opts with None => Some (Ret (w, k, NErr)) | Some c => init env rounds n step w k c end.
