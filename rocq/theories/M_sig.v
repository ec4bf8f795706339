(** Model of the interrupt handling of gatt.go: trap, untrap, WithSigHandler and the package level calls that use them.
    A transition system over one process: any number of calls in any number of goroutines, contexts ending and signals arriving at
    any moment. The device operation itself is one instruction that ends whenever it likes (its behaviour: C01 to C35, C55 to C63).
    os/signal: Notify registers a channel, a signal is sent to every registered channel without blocking, Stop unregisters; with no
    registration SIGINT and SIGTERM end the process. Registrations by other parts of the application are left out. *)
Require Import Verif.Base.

(** A context: carries a (non-nil) handler of type func() under ContextKeySig (WithSigHandler, gatt.go:171-173, and the tests of
    trap, 177-184); has ended; is derived from another (WithCancel in Connect, 140). *)
Record ctxt := mkCtx { x_handler : bool; x_done : bool; x_parent : option nat }.

(** A call of trap that went past its tests (gatt.go:186-195): its call, its context; the channel registered, a signal in its
    buffer of 1; its goroutine still waiting; the handler was called. *)
Record trapt := mkTrap { t_call : nat; t_ctx : nat; t_reg : bool; t_pend : bool; t_wait : bool; t_called : bool }.

(** What a call does, one instruction after the other. *)
Inductive instr :=
| IGuard (n : nat)   (* defaultDevice == nil: return ErrDefaultDevice, i.e. skip n instructions *)
| ITrap              (* trap(ctx) *)
| IOp                (* the device operation *)
| IUntrap            (* the deferred untrap *)
| ITake              (* Connect, 154-160: Scan has returned; an error ends the call, otherwise wait for an advertisement *)
| IBack.             (* 161: from here on with the caller's context *)
Inductive kind := KOne | KFind | KConnect.
(** gatt.go:59-65, 68-74, 77-83, 86-102, 121-127: AdvertiseNameAndServices, AdvertiseIBeaconData, AdvertiseIBeacon, Scan, Dial *)
Definition prog_one : list instr := [IGuard 3; ITrap; IOp; IUntrap].
(** 105-118 Find: its own trap around the one of Scan.  139-163 Connect: Scan with the derived context, then Dial. *)
Definition prog (k : kind) : list instr :=
  match k with
  | KOne => prog_one
  | KFind => [IGuard 6; ITrap] ++ prog_one ++ [IUntrap]
  | KConnect => [IGuard 9; ITrap; IOp; IUntrap; ITake; IBack] ++ prog_one
  end.

(** A call: the context given, the one used now, the instructions left, the channels of its traps (None: trap returned nil). *)
Record callt := mkCall { c_kind : kind; c_given : nat; c_ctx : nat; c_pc : list instr; c_traps : list (option nat) }.

Record sys := mkSys { dev : bool; ctxs : list ctxt; calls : list callt; traps : list trapt; alive : bool }.
Definition sys0 : sys := mkSys false [] [] [] true.

Definition set_call (s : sys) (i : nat) (c : callt) : sys := mkSys (dev s) (ctxs s) (upd (calls s) i c) (traps s) (alive s).
Definition set_trap (s : sys) (t : nat) (v : trapt) : sys := mkSys (dev s) (ctxs s) (calls s) (upd (traps s) t v) (alive s).

Inductive act :=
| ASetDevice (b : bool)            (* SetDefaultDevice (gatt.go:17-19) *)
| AContext (handler : bool)        (* the application makes a context, with or without handler *)
| ADone (x : nat)                  (* a context ends, and with it those derived from it *)
| ACall (k : kind) (x : nat)       (* a call begins *)
| AStep (i : nat)                  (* call i does its next instruction *)
| AGiveUp (i : nat)                (* Connect returns the error of Scan (gatt.go:154-158) *)
| ASignal                          (* SIGINT or SIGTERM *)
| AFire (t : nat)                  (* the goroutine of trap t takes the signal and calls the handler (190-191) *)
| AQuit (t : nat).                 (* it sees the end of its context (192) *)

Definition is_done (s : sys) (x : nat) : bool := match nth_error (ctxs s) x with Some c => x_done c | None => false end.
Definition end_ctx (x : nat) (i : nat) (c : ctxt) : ctxt :=
  mkCtx (x_handler c) (x_done c || Nat.eqb i x || match x_parent c with Some p => Nat.eqb p x | None => false end) (x_parent c).
Fixpoint mapi {A B} (f : nat -> A -> B) (i : nat) (l : list A) : list B := match l with [] => [] | a :: r => f i a :: mapi f (S i) r end.

(** gatt.go:176-195 *)
Definition do_trap (s : sys) (i : nat) (c : callt) (rest : list instr) : sys :=
  match nth_error (ctxs s) (c_ctx c) with
  | Some x =>
      if x_handler x
      then mkSys (dev s) (ctxs s) (upd (calls s) i (mkCall (c_kind c) (c_given c) (c_ctx c) rest (Some (length (traps s)) :: c_traps c)))
             (traps s ++ [mkTrap i (c_ctx c) true false true false]) (alive s)
      else set_call s i (mkCall (c_kind c) (c_given c) (c_ctx c) rest (None :: c_traps c))
  | None => set_call s i (mkCall (c_kind c) (c_given c) (c_ctx c) rest (None :: c_traps c))
  end.
(** gatt.go:198-203 *)
Definition do_untrap (s : sys) (o : option nat) : sys :=
  match o with
  | Some t => match nth_error (traps s) t with
              | Some v => set_trap s t (mkTrap (t_call v) (t_ctx v) false (t_pend v) (t_wait v) (t_called v))
              | None => s
              end
  | None => s
  end.

Definition exec (s : sys) (a : act) : option sys :=
  if negb (alive s) then None else
  match a with
  | ASetDevice b => Some (mkSys b (ctxs s) (calls s) (traps s) (alive s))
  | AContext h => Some (mkSys (dev s) (ctxs s ++ [mkCtx h false None]) (calls s) (traps s) (alive s))
  | ADone x => Some (mkSys (dev s) (mapi (end_ctx x) 0 (ctxs s)) (calls s) (traps s) (alive s))
  | ACall k x =>
      match nth_error (ctxs s) x with
      | None => None
      | Some c =>
          if match x_parent c with Some _ => true | None => false end then None else  (* ctx2 never leaves Connect *)
          match k with
          | KConnect => (* 140: ctx2 is made before anything else; it ends at once if ctx has ended *)
              Some (mkSys (dev s) (ctxs s ++ [mkCtx (x_handler c) (x_done c) (Some x)])
                      (calls s ++ [mkCall k x (length (ctxs s)) (prog k) []]) (traps s) (alive s))
          | _ => Some (mkSys (dev s) (ctxs s) (calls s ++ [mkCall k x x (prog k) []]) (traps s) (alive s))
          end
      end
  | AStep i =>
      match nth_error (calls s) i with
      | None => None
      | Some c =>
          match c_pc c with
          | [] => None
          | IGuard n :: r => Some (set_call s i (mkCall (c_kind c) (c_given c) (c_ctx c) (if dev s then r else skipn n r) (c_traps c)))
          | ITrap :: r => Some (do_trap s i c r)
          | IUntrap :: r =>
              match c_traps c with
              | [] => None
              | o :: os => Some (do_untrap (set_call s i (mkCall (c_kind c) (c_given c) (c_ctx c) r os)) o)
              end
          | IBack :: r => Some (set_call s i (mkCall (c_kind c) (c_given c) (c_given c) r (c_traps c)))
          | IOp :: r | ITake :: r => Some (set_call s i (mkCall (c_kind c) (c_given c) (c_ctx c) r (c_traps c)))
          end
      end
  | AGiveUp i =>
      match nth_error (calls s) i with
      | None => None
      | Some c => match c_pc c with
                  | ITake :: _ => Some (set_call s i (mkCall (c_kind c) (c_given c) (c_ctx c) [] (c_traps c)))
                  | _ => None
                  end
      end
  | ASignal =>
      if existsb t_reg (traps s)
      then Some (mkSys (dev s) (ctxs s) (calls s)
                  (map (fun v => if t_reg v then mkTrap (t_call v) (t_ctx v) true true (t_wait v) (t_called v) else v) (traps s)) (alive s))
      else Some (mkSys (dev s) (ctxs s) (calls s) (traps s) false)
  | AFire t =>
      match nth_error (traps s) t with
      | Some v => if t_wait v && t_pend v then Some (set_trap s t (mkTrap (t_call v) (t_ctx v) (t_reg v) false false true)) else None
      | None => None
      end
  | AQuit t =>
      match nth_error (traps s) t with
      | Some v => if t_wait v && is_done s (t_ctx v) then Some (set_trap s t (mkTrap (t_call v) (t_ctx v) (t_reg v) (t_pend v) false (t_called v))) else None
      | None => None
      end
  end.
Fixpoint exec_all (s : sys) (l : list act) : option sys :=
  match l with [] => Some s | a :: r => match exec s a with Some s' => exec_all s' r | None => None end end.
