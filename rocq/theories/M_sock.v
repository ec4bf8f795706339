(** Model of a transport used by several goroutines: Read, Write, Close and isOpen of linux/hci/socket/socket.go, and Write, Close, isOpen of linux/hci/h4/h4.go
    (they differ in the file below: the socket uses the number of a descriptor, h4 a Go file or connection, which remembers that it was closed).
    A transition system: any number of calls, one action per lock, test or system call, in any order; other parts of the process open and close files of their own
    at any moment. Not modelled: the time-outs of poll and read (they return at any moment), partial writes (a packet on a user channel is written as one),
    h4.Read (M_life), the contents of files. *)
Require Import Verif.Base.

(** What a call returns: io.EOF, zero bytes and no error, data, another error, success. *)
Inductive res := RsEof | RsNone | RsData (b : bytes) | RsErr | RsOk.
Inductive pollr := PoErr | PoData | PoNone.
Inductive op := OpRead | OpWrite (p : bytes) | OpClose.
(** Where a call is, named after what it does next.
    Read (socket.go:134-174): isOpen; rmu.Lock; Poll; Read; isOpen; rmu.Unlock
    Write (socket.go:176-185, h4.go:145-155): isOpen; wmu.Lock; Write; wmu.Unlock
    Close (socket.go:187-204, h4.go:157-175): cmu.Lock; select on done, close(done); rmu.Lock; Close; rmu.Unlock; cmu.Unlock *)
Inductive phase :=
| RdTest | RdLock | RdPoll | RdSys | RdTest2 (r : res) | RdUnlock (r : res)
| WrTest | WrLock | WrSys | WrUnlock (r : res)
| ClLock | ClSelect | ClRLock | ClSys | ClRUnlock (r : res) | ClUnlock (r : res)
| Fin (r : res).
Record call := mkCall { k_op : op; k_ph : phase }.

(** table: the open files of the process by descriptor number, file 0 is the transport's; files: how many files were ever opened; wrote, took: what the calls of
    this transport wrote to and read from files (call, file, bytes). *)
Record st := mkSt { table : nat -> option nat; files : nat; done : bool; rmu : option nat; wmu : option nat; cmu : option nat; calls : list call;
  wrote : list (nat * nat * bytes); took : list (nat * nat * bytes) }.
(** the number of the transport's descriptor *)
Definition own_fd : nat := 7.
Definition set_tab (f : nat -> option nat) (n : nat) (v : option nat) : nat -> option nat := fun x => if Nat.eqb x n then v else f x.
(** socket.go:137, h4.go:66-112: opened, not used yet; [other]: the files of the rest of the process *)
Definition start (other : nat -> option nat) (k : nat) : st := mkSt (set_tab other own_fd (Some 0%nat)) k false None None None [] [] [].

(** [raw]: the descriptor number is used, whatever it now means (socket.go:147, 160, 183, 199); otherwise the file itself *)
Definition target (raw : bool) (s : st) : option nat :=
  match table s own_fd with
  | Some o => if raw || Nat.eqb o 0 then Some o else None
  | None => None
  end.

Inductive act :=
| ACall (o : op)                            (* a call begins *)
| AStep (i : nat)                           (* call i: lock, unlock, test *)
| APoll (i : nat) (p : pollr)               (* socket.go:145-148 *)
| ARead (i : nat) (d : option bytes)        (* socket.go:157: data or an error *)
| AWrite (i : nat) (ok : bool)              (* socket.go:183, h4.go:152 *)
| ACloseFd (i : nat) (ok : bool)            (* socket.go:199, h4.go:170: the descriptor is gone even if close reports an error *)
| AOpen (n : nat)                           (* another part of the process opens a file and gets a free number *)
| ACloseOther (n : nat).                    (* and closes a file of its own *)

Definition first_phase (o : op) : phase := match o with OpRead => RdTest | OpWrite _ => WrTest | OpClose => ClLock end.
Definition set_ph (s : st) (i : nat) (o : op) (p : phase) : st :=
  mkSt (table s) (files s) (done s) (rmu s) (wmu s) (cmu s) (upd (calls s) i (mkCall o p)) (wrote s) (took s).
Definition set_rmu (s : st) (x : option nat) : st := mkSt (table s) (files s) (done s) x (wmu s) (cmu s) (calls s) (wrote s) (took s).
Definition set_wmu (s : st) (x : option nat) : st := mkSt (table s) (files s) (done s) (rmu s) x (cmu s) (calls s) (wrote s) (took s).
Definition set_cmu (s : st) (x : option nat) : st := mkSt (table s) (files s) (done s) (rmu s) (wmu s) x (calls s) (wrote s) (took s).

(** the steps that are no system calls; isOpen is socket.go:206-213, h4.go:177-185 *)
Definition step (s : st) (i : nat) (o : op) (p : phase) : option st :=
  match p with
  | RdTest => Some (set_ph s i o (if done s then Fin RsEof else RdLock))
  | RdLock => match rmu s with None => Some (set_rmu (set_ph s i o RdPoll) (Some i)) | Some _ => None end
  | RdTest2 r => Some (set_ph s i o (RdUnlock (if done s then RsEof else r)))
  | RdUnlock r => Some (set_rmu (set_ph s i o (Fin r)) None)
  | WrTest => Some (set_ph s i o (if done s then Fin RsEof else WrLock))
  | WrLock => match wmu s with None => Some (set_wmu (set_ph s i o WrSys) (Some i)) | Some _ => None end
  | WrUnlock r => Some (set_wmu (set_ph s i o (Fin r)) None)
  | ClLock => match cmu s with None => Some (set_cmu (set_ph s i o ClSelect) (Some i)) | Some _ => None end
  | ClSelect => if done s then Some (set_ph s i o (ClUnlock RsOk))
                else Some (mkSt (table s) (files s) true (rmu s) (wmu s) (cmu s) (upd (calls s) i (mkCall o ClRLock)) (wrote s) (took s))
  | ClRLock => match rmu s with None => Some (set_rmu (set_ph s i o ClSys) (Some i)) | Some _ => None end
  | ClRUnlock r => Some (set_rmu (set_ph s i o (ClUnlock r)) None)
  | ClUnlock r => Some (set_cmu (set_ph s i o (Fin r)) None)
  | _ => None
  end.
Definition exec (raw : bool) (s : st) (a : act) : option st :=
  match a with
  | ACall o => Some (mkSt (table s) (files s) (done s) (rmu s) (wmu s) (cmu s) (calls s ++ [mkCall o (first_phase o)]) (wrote s) (took s))
  | AStep i => match nth_error (calls s) i with Some c => step s i (k_op c) (k_ph c) | None => None end
  (* POLLNVAL when there is no such file *)
  | APoll i p =>
      match nth_error (calls s) i with
      | Some (mkCall o RdPoll) =>
          match target raw s, p with
          | None, PoErr | Some _, PoErr => Some (set_ph s i o (RdUnlock RsEof))
          | None, _ => None
          | Some _, PoNone => Some (set_ph s i o (RdUnlock RsNone))
          | Some _, PoData => Some (set_ph s i o RdSys)
          end
      | _ => None
      end
  | ARead i d =>
      match nth_error (calls s) i with
      | Some (mkCall o RdSys) =>
          match target raw s, d with
          | Some f, Some b => Some (mkSt (table s) (files s) (done s) (rmu s) (wmu s) (cmu s) (upd (calls s) i (mkCall o (RdTest2 (RsData b)))) (wrote s) (took s ++ [(i, f, b)]))
          | _, None => Some (set_ph s i o (RdTest2 RsErr))
          | None, Some _ => None
          end
      | _ => None
      end
  | AWrite i ok =>
      match nth_error (calls s) i with
      | Some (mkCall (OpWrite p) WrSys) =>
          match target raw s, ok with
          | Some f, true => Some (mkSt (table s) (files s) (done s) (rmu s) (wmu s) (cmu s) (upd (calls s) i (mkCall (OpWrite p) (WrUnlock RsOk))) (wrote s ++ [(i, f, p)]) (took s))
          | _, false => Some (set_ph s i (OpWrite p) (WrUnlock RsErr))
          | None, true => None
          end
      | _ => None
      end
  | ACloseFd i ok =>
      match nth_error (calls s) i with
      | Some (mkCall o ClSys) =>
          Some (mkSt (set_tab (table s) own_fd None) (files s) (done s) (rmu s) (wmu s) (cmu s) (upd (calls s) i (mkCall o (ClRUnlock (if ok then RsOk else RsErr)))) (wrote s) (took s))
      | _ => None
      end
  | AOpen n => match table s n with None => Some (mkSt (set_tab (table s) n (Some (files s))) (S (files s)) (done s) (rmu s) (wmu s) (cmu s) (calls s) (wrote s) (took s)) | Some _ => None end
  | ACloseOther n => match table s n with
      | Some (S _) => Some (mkSt (set_tab (table s) n None) (files s) (done s) (rmu s) (wmu s) (cmu s) (calls s) (wrote s) (took s))
      | _ => None
      end
  end.
Fixpoint exec_all (raw : bool) (s : st) (l : list act) : option st :=
  match l with [] => Some s | a :: r => match exec raw s a with Some s' => exec_all raw s' r | None => None end end.
