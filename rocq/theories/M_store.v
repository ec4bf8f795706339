(** A file, the system calls the two stores make on it, programs over these calls, and many goroutines running such
    programs under a sync.RWMutex.
    This is the meaning given to the os/ioutil calls in linux/hci/bond/manager.go and cache/cache.go, and to the lock
    in their method bodies; the methods themselves are in M_bond.v and M_cache.v. *)
Require Export Verif.Base.

(** The content of the store's file; [None]: there is no file. *)
Notation file := (option bytes).

(** Ways in which a system call can fail; a theorem says which of them it allows. *)
Inductive fault := FStat | FCreate | FRead | FOpen | FWrite | FRemove.

(** os.Stat; os.Create; reading the whole file (ioutil.ReadFile: one atomic step here); open for writing with
    O_CREATE|O_TRUNC; write one octet at an offset; os.Remove. *)
Inductive cmd := Stat | Create | Read | Trunc | Write (off : nat) (b : Z) | Remove.

Inductive resp := Ok (d : bytes) | Fail.

(** Writing octet [b] at offset [off] of [d] (a hole reads as zeros). *)
Definition put (off : nat) (b : Z) (d : bytes) : bytes :=
  firstn off d ++ repeat 0 (off - length d) ++ [b] ++ skipn (S off) d.

(** One system call. For [Stat], [Fail] means "does not exist": any other error is treated by the code as success
    (os.IsNotExist is false), so a faulty [Stat] answers [Ok]. *)
Inductive io (F : fault -> Prop) : cmd -> file -> resp -> file -> Prop :=
| io_stat : forall d, io F Stat (Some d) (Ok []) (Some d)
| io_stat_none : io F Stat None Fail None
| io_stat_err : forall f, F FStat -> io F Stat f (Ok []) f
| io_create : forall f, io F Create f (Ok []) (Some [])
| io_create_err : forall f, F FCreate -> io F Create f Fail f
| io_read : forall d, io F Read (Some d) (Ok d) (Some d)
| io_read_none : io F Read None Fail None
| io_read_err : forall f, F FRead -> io F Read f Fail f
| io_trunc : forall f, io F Trunc f (Ok []) (Some [])
| io_trunc_err : forall f, F FOpen -> io F Trunc f Fail f
| io_write : forall d off b, io F (Write off b) (Some d) (Ok []) (Some (put off b d))
| io_write_gone : forall off b, io F (Write off b) None (Ok []) None
| io_write_err : forall f off b, F FWrite -> io F (Write off b) f Fail f
| io_remove : forall d, io F Remove (Some d) (Ok []) None
| io_remove_none : io F Remove None Fail None
| io_remove_err : forall f, F FRemove -> io F Remove f Fail f.

(** A method body: it makes system calls, then returns a value or panics. *)
Inductive prog (A : Type) : Type :=
| PRet (a : A)
| PPanic
| PIo (c : cmd) (k : resp -> prog A).
Arguments PRet {A} a.
Arguments PPanic {A}.
Arguments PIo {A} c k.

Fixpoint pbind {A B} (p : prog A) (f : A -> prog B) : prog B :=
  match p with PRet a => f a | PPanic => PPanic | PIo c k => PIo c (fun r => pbind (k r) f) end.
Notation "'do' x <- e ; k" := (pbind e (fun x => k)) (at level 200, x pattern, e at level 100, k at level 200, right associativity).

Definition lift {A} (x : go A) : prog A := match x with Ret a => PRet a | Panic => PPanic end.

(** ioutil.WriteFile(name, data, 0644): open with truncation, then write; the write may fail after any number of octets.
    (The error of the final close is not modelled.) *)
Fixpoint write_from (off : nat) (data : bytes) : prog bool :=
  match data with
  | [] => PRet true
  | b :: r => PIo (Write off b) (fun x => match x with Ok _ => write_from (S off) r | Fail => PRet false end)
  end.
Definition WriteFile (data : bytes) : prog bool :=
  PIo Trunc (fun x => match x with Ok _ => write_from 0 data | Fail => PRet false end).

(** ** One goroutine alone *)

(** [p] started on file [f] ends with the given result ([Panic]: it panics) and file. *)
Inductive exec {A} (F : fault -> Prop) : prog A -> file -> go A -> file -> Prop :=
| ex_ret : forall a f, exec F (PRet a) f (Ret a) f
| ex_panic : forall f, exec F PPanic f Panic f
| ex_io : forall c k f r f1 x f2, io F c f r f1 -> exec F (k r) f1 x f2 -> exec F (PIo c k) f x f2.

(** The process dies somewhere while [p], started on [f], is running; what it leaves in the file. *)
Inductive crash {A} (F : fault -> Prop) : prog A -> file -> file -> Prop :=
| cr_here : forall p f, crash F p f f
| cr_io : forall c k f r f1 f2, io F c f r f1 -> crash F (k r) f1 f2 -> crash F (PIo c k) f f2.

(** ** Many goroutines *)

(** The two ways of holding a sync.RWMutex. *)
Inductive mode := MRead | MWrite.

(** A call of a store with operations [O] and results [R]: waiting for the lock, or running its body. *)
Inductive thr (O R : Type) : Type := TWait (o : O) | TRun (o : O) (m : mode) (p : prog R).
Arguments TWait {O R} o.
Arguments TRun {O R} o m p.

(** What can be seen from outside: a call is made, a call returns. *)
Inductive ev (O R : Type) : Type := EvCall (i : nat) (o : O) | EvRet (i : nat) (o : O) (r : R).
Arguments EvCall {O R} i o.
Arguments EvRet {O R} i o r.

Record sys (O R : Type) := mkSys { sy_file : file; sy_thr : nat -> option (thr O R) }.
Arguments mkSys {O R}.
Arguments sy_file {O R}.
Arguments sy_thr {O R}.

Definition setT {O R} (t : nat -> option (thr O R)) (i : nat) (x : option (thr O R)) : nat -> option (thr O R) :=
  fun j => if Nat.eqb i j then x else t j.

(** Whether the lock can be taken: RLock when no writer holds it, Lock when nobody does. *)
Definition may_lock {O R} (m : mode) (t : nat -> option (thr O R)) : Prop :=
  forall j o m' p, t j = Some (TRun o m' p) -> m = MRead /\ m' = MRead.

(** [lockof o]: how the method takes the lock ([None]: it returns before taking it, with the given result);
    [body o]: what it does while it holds it. A goroutine that panics takes no further step. *)
Inductive sstep {O R} (F : fault -> Prop) (lockof : O -> option mode) (body : O -> prog R) (early : O -> R) :
  sys O R -> list (ev O R) -> sys O R -> Prop :=
| ss_call : forall s i o, sy_thr s i = None ->
    sstep F lockof body early s [EvCall i o] (mkSys (sy_file s) (setT (sy_thr s) i (Some (TWait o))))
| ss_early : forall s i o, sy_thr s i = Some (TWait o) -> lockof o = None ->
    sstep F lockof body early s [EvRet i o (early o)] (mkSys (sy_file s) (setT (sy_thr s) i None))
| ss_lock : forall s i o m, sy_thr s i = Some (TWait o) -> lockof o = Some m -> may_lock m (sy_thr s) ->
    sstep F lockof body early s [] (mkSys (sy_file s) (setT (sy_thr s) i (Some (TRun o m (body o)))))
| ss_io : forall s i o m c k r f', sy_thr s i = Some (TRun o m (PIo c k)) -> io F c (sy_file s) r f' ->
    sstep F lockof body early s [] (mkSys f' (setT (sy_thr s) i (Some (TRun o m (k r)))))
| ss_ret : forall s i o m r, sy_thr s i = Some (TRun o m (PRet r)) ->
    sstep F lockof body early s [EvRet i o r] (mkSys (sy_file s) (setT (sy_thr s) i None)).

Inductive sruns {O R} (F : fault -> Prop) (lockof : O -> option mode) (body : O -> prog R) (early : O -> R) :
  sys O R -> list (ev O R) -> sys O R -> Prop :=
| sr_nil : forall s, sruns F lockof body early s [] s
| sr_snoc : forall s h s1 e s2, sruns F lockof body early s h s1 -> sstep F lockof body early s1 e s2 ->
    sruns F lockof body early s (h ++ e) s2.

(** A store at rest with the given file. *)
Definition sys0 {O R} (f : file) : sys O R := mkSys f (fun _ => None).

(** The calls that have returned, in the order in which they returned. *)
Fixpoint returned {O R} (h : list (ev O R)) : list (O * R) :=
  match h with [] => [] | EvRet _ o r :: t => (o, r) :: returned t | EvCall _ _ :: t => returned t end.

(** ** Go maps keyed by strings: association lists, of which only the lookups matter. *)
Fixpoint mget {V} (k : bytes) (m : list (bytes * V)) : option V :=
  match m with [] => None | (k', v) :: r => if beq_bytes k k' then Some v else mget k r end.
Definition mset {V} (k : bytes) (v : V) (m : list (bytes * V)) : list (bytes * V) := (k, v) :: m.
Definition mdel {V} (k : bytes) (m : list (bytes * V)) : list (bytes * V) := filter (fun e => negb (beq_bytes k (fst e))) m.
