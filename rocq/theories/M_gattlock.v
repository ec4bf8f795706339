(** Model of the lock of a GATT client (linux/gatt/client.go): any number of application goroutines call its methods, while the
    goroutine started by the attribute client's Loop (linux/att/client.go:596-602) takes one notification after the other from the
    queue of 16 and calls HandleNotification (gatt/client.go:439-468), which holds the lock while the application's handler runs.
    What a method does with its lock held is a function of M_gattcli.v (subscriptions) or leaves the subscriptions alone (the others);
    its requests go out one by one, the lock is given back when it returns.
    Simplifications: the RWMutex is a lock with one writer, a reader takes and gives it back in one step (64-83: it only copies a field);
    which waiting goroutine gets the lock is not determined (sync.RWMutex prefers the readers that wait when a writer unlocks);
    the reading goroutine's work on one notification is one step; confirmations and the transmit buffer are those of M_attloop.v. *)
Require Import Verif.Base Verif.M_attsrv Verif.M_attcli Verif.M_gattcli.

(** the methods: subscriptions; the others that take the lock and talk to the peer (ReadCharacteristic, WriteCharacteristic,
    DiscoverServices, ExchangeMTU, ReadRSSI, ...; DiscoverProfile is a sequence of such calls, 86-108); CancelConnection and
    Disconnected (420-431), which take the lock and send nothing; Addr, Name and Profile (64-83), which take it for reading;
    Conn, Pair, StartEncryption, OpenLECreditBasedConnection, ConnectionHandle (434-436, 470-490), which do without *)
Inductive meth := MSub (ch : gchar) (ind : bool) (h : option nat) | MClear | MAsk | MClose | MPeek | MFree.
Definition locks (m : meth) : bool := match m with MPeek | MFree => false | _ => true end.
Definition needs (m : meth) : bool := match m with MFree => false | _ => true end.

(** how a call with the lock goes: the peer it meets and the order in which Go walks over a map; or, for the methods that leave the
    subscriptions alone, what they send and what they make of the connection's and the profile's state *)
Inductive outc := OPeer (p : peer) (ord : list Z) | OAsk (c : cli) (pr : option (list gsvc)) (reqs : list bytes) (r : cres unit).
Definition new_reqs (g g' : gcl) : list bytes := skipn (length (clog (g_cli g))) (clog (g_cli g')).
Definition done (g : gcl) (x : go (gcl * cres unit)) : go (list bytes * gcl * cres unit) := let! (g', r) := x in Ret (new_reqs g g', g', r).
(** requests, state afterwards, result; Panic: the process dies; None: no such outcome *)
Definition work (m : meth) (o : outc) (g : gcl) : option (go (list bytes * gcl * cres unit)) :=
  match m, o with
  (* 347-371 *)
  | MSub ch ind h, OPeer p _ => Some (done g (subscribe p g ch ind h))
  (* 406-417: every entry of the map is visited *)
  | MClear, OPeer p ord => if forallb (fun x => existsb (Z.eqb (fst x)) ord) (g_subs g)
                           then Some (done g (clear_subs p g ord)) else None
  | MAsk, OAsk c pr reqs r => Some (Ret (reqs, mkG c pr (g_subs g), r))
  (* 420-431 *)
  | MClose, OAsk _ _ _ r => Some (Ret ([], g, r))
  | _, _ => None
  end.

(** an application goroutine: idle; waiting for the lock; inside, with what is still to be sent and how it will end *)
Inductive aph := PIdle | PWant (m : meth) | PIn (m : meth) (reqs : list bytes) (g' : gcl) (r : cres unit).
(** the notification goroutine: at the queue; waiting for the lock (440); in the application's handler (455-457), with the state after it;
    in a method the handler has called; the process has died *)
Inductive nph := NIdle | NWant (b : bytes) | NRun (g' : gcl) | NCall (m : meth) (g' : gcl) | NPanic.
Inductive who := WApp (k : nat) | WNote.
Record kst := mkK { owner : option who; gc : gcl; apps : list aph; nq : list bytes; nt : nph; alive : bool }.
Definition kinit (n : nat) (mtu : Z) : kst := mkK None (new_gcl mtu) (repeat PIdle n) [] NIdle true.

Inductive lev := LCall (k : nat) (m : meth) | LReq (k : nat) (b : bytes) | LRet (k : nat) (m : meth) (r : cres unit)
  | LRx (b : bytes) | LDrop (b : bytes) | LNote (b : bytes) (h : nat) (id : Z) (d : bytes) | LNoteEnd | LIgnored (b : bytes)
  | LHCall (m : meth) | LHRet (m : meth) | LCrash (b : bytes) | LDie (k : nat).
Definition set_app (s : kst) (o : option who) (k : nat) (x : aph) : kst := mkK o (gc s) (upd (apps s) k x) (nq s) (nt s) (alive s).
Definition set_nt (s : kst) (o : option who) (g : gcl) (x : nph) : kst := mkK o g (apps s) (nq s) x (alive s).

Inductive lab := BCall (k : nat) (m : meth) | BFree (k : nat) | BPeek (k : nat) | BLock (k : nat) (o : outc) | BSend (k : nat) | BRet (k : nat)
  | BRx (b : bytes) | BEnd | BPop | BDispatch | BHEnd | BHCall (m : meth) | BHRet.
Definition kdo (s : kst) (x : lab) : option (list lev * kst) :=
  match nt s, x with
  | NPanic, _ => None
  | _, BCall k m => match nth_error (apps s) k with Some PIdle => Some ([LCall k m], set_app s (owner s) k (PWant m)) | _ => None end
  | _, BFree k => match nth_error (apps s) k with
                  | Some (PWant m) => if needs m then None else Some ([LRet k m (COk tt)], set_app s (owner s) k PIdle) | _ => None end
  | _, BPeek k => match nth_error (apps s) k, owner s with
                  | Some (PWant m), None => if negb (locks m) && needs m then Some ([LRet k m (COk tt)], set_app s None k PIdle) else None | _, _ => None end
  (* p.Lock() *)
  | _, BLock k o => match nth_error (apps s) k, owner s with
                  | Some (PWant m), None => match work m o (gc s) with
                                          | Some (Ret (q, g', r)) => Some ([], set_app s (Some (WApp k)) k (PIn m q g' r))
                                          | Some Panic => Some ([LDie k], set_nt s None (gc s) NPanic)
                                          | None => None end
                  | _, _ => None end
  | _, BSend k => match nth_error (apps s) k with Some (PIn m (b :: q) g' r) => Some ([LReq k b], set_app s (owner s) k (PIn m q g' r)) | _ => None end
  (* defer p.Unlock() *)
  | _, BRet k => match nth_error (apps s) k with
                  | Some (PIn m [] g' r) => Some ([LRet k m r], mkK None g' (upd (apps s) k PIdle) (nq s) (nt s) (alive s)) | _ => None end
  (* att/client.go:695-709 *)
  | _, BRx b => if alive s && ((hd 0 b =? 27) || (hd 0 b =? 29)) then
                  if Nat.ltb (length (nq s)) 16 then Some ([LRx b], mkK (owner s) (gc s) (apps s) (nq s ++ [b]) (nt s) (alive s)) else Some ([LRx b; LDrop b], s)
                else None
  | _, BEnd => Some ([], mkK (owner s) (gc s) (apps s) (nq s) (nt s) false)
  (* att/client.go:599 *)
  | NIdle, BPop => match nq s with b :: q => Some ([], mkK (owner s) (gc s) (apps s) q (NWant b) (alive s)) | [] => None end
  (* gatt/client.go:440-466 *)
  | NWant b, BDispatch => match owner s with
                  | Some _ => None
                  | None => match handle_notification (gc s) b with
                            | Panic => Some ([LCrash b], set_nt s None (gc s) NPanic)
                            | Ret (g', None) => Some ([LIgnored b], set_nt s None g' NIdle)
                            | Ret (g', Some (h, id, d)) => Some ([LNote b h id d], set_nt s (Some WNote) (gc s) (NRun g'))
                            end end
  | NRun g', BHEnd => Some ([LNoteEnd], set_nt s None g' NIdle)
  | NRun g', BHCall m => if needs m then Some ([LHCall m], set_nt s (owner s) (gc s) (NCall m g')) else Some ([LHCall m; LHRet m], s)
  | NCall m g', BHRet => match owner s with None => Some ([LHRet m], set_nt s (Some WNote) (gc s) (NRun g')) | Some _ => None end
  | _, _ => None
  end.
Inductive krun : kst -> list lev -> kst -> Prop :=
| kr_nil : forall s, krun s [] s
| kr_snoc : forall s t s1 x e s2, krun s t s1 -> kdo s1 x = Some (e, s2) -> krun s (t ++ e) s2.
