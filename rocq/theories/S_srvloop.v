(** Specification vocabulary for the goroutines of an ATT server: what an observer says about a history. *)
Require Import Verif.Base Verif.M_attsrv Verif.M_srvloop.

(** the L2CAP payloads the connection delivered, in order *)
Definition arrived (l : list act) : list bytes := flat_map (fun a => match a with AArrive p => [p] | _ => [] end) l.
(** a PDU that asks the server for something: not empty, not too long for the library's buffers, not a confirmation *)
Definition is_request (p : bytes) : bool :=
  match p with [] => false | c :: _ => negb (c =? 30) && Nat.leb (length p) 515 end.
Definition requests (l : list bytes) : list bytes := filter is_request l.

(** one request as it was served: by which handlers, the PDU, the answer (if any), the user handlers called *)
Notation serving := (env * bytes * option bytes * list call)%type.
Definition servings (t : list vis) : list serving := flat_map (fun v => match v with VHandle e p o cs => [(e, p, o, cs)] | _ => [] end) t.
Definition pdu_of (x : serving) : bytes := snd (fst (fst x)).
Definition reads (t : list vis) : list bytes := flat_map (fun v => match v with VRead p => [p] | _ => [] end) t.
(** a server that does one request after the other *)
Inductive served : srv -> list serving -> srv -> Prop :=
| sv_nil : forall s, served s [] s
| sv_snoc : forall s l s1 e p o cs s2, served s l s1 -> handle s1 e p = Ret (s2, o, cs) -> served s (l ++ [(e, p, o, cs)]) s2.
(** what is seen of the requests only *)
Definition request_view (t : list vis) : list vis :=
  filter (fun v => match v with VHandle _ _ _ _ => true | VWrite SRsp _ _ => true | _ => false end) t.
(** a request served to the end: handled, then its answer (if there is one) written, with or without success *)
Definition turn (x : serving) (ok : bool) : list vis :=
  let '(e, p, o, cs) := x in VHandle e p o cs :: match o with Some (b :: r) => [VWrite SRsp (b :: r) ok] | _ => [] end.
Definition turns (l : list (serving * bool)) : list vis := flat_map (fun x => turn (fst x) (snd x)) l.

(** The calls of the application and how they ended *)
Definition returned (k : nat) (t : list vis) : list cres := flat_map (fun v => match v with VRet j r => if Nat.eqb j k then [r] else [] | _ => [] end) t.
Definition calls_made (l : list act) : nat := length (filter (fun a => match a with ACall _ _ => true | _ => false end) l).
(** what the environment does, as opposed to the library's goroutines; timers are the library's but take 30 s *)
Definition external (a : act) : bool := match a with AArrive _ | ADown | ACall _ _ => true | _ => false end.
Definition timer (a : act) : bool := match a with ACTimeout _ => true | _ => false end.
(** nothing can happen any more inside the library *)
Definition quiet (s : ls) : Prop := forall a, external a = false -> lstep s a = None.
(** nothing can happen inside the library unless a timer fires *)
Definition quiet_but_timers (s : ls) : Prop := forall a, external a = false -> timer a = false -> lstep s a = None.
(** an indication has been sent and is not confirmed yet *)
Definition awaiting_confirmation (s : ls) : Prop := exists k c n, nth_error (callers s) k = Some c /\ c_ph c = CWait n.
Definition crashed (s : ls) : Prop := hd s = HPanic.
(** what call k put on the air (the PDU, and whether the connection took it), and whether it was confirmed *)
Definition writes (k : nat) (t : list vis) : list (bytes * bool) :=
  flat_map (fun v => match v with VWrite (SCall j) p ok => if Nat.eqb j k then [(p, ok)] else [] | _ => [] end) t.
Definition confirmed (k : nat) (t : list vis) : nat := length (filter (fun v => match v with VConf (Some j) => Nat.eqb j k | _ => false end) t).
(** a notification (27) or indication (29) of value handle [vh] carrying a prefix of [data]; all of it unless the PDU is full *)
Definition carries (ind : bool) (vh : Z) (data p : bytes) : Prop :=
  exists n, (20 <= n)%nat /\ p = (if ind then 29 else 27) :: le16 vh ++ firstn n data.
(** how a call ended, from what was seen: [COk] means taken by the connection, and for an indication confirmed *)
Definition result_fits (ind : bool) (r : cres) (ok : bool) (conf : nat) : Prop :=
  match r with
  | COk => ok = true /\ conf = (if ind then 1%nat else 0%nat)
  | CErrWrite => ok = false /\ conf = 0%nat
  | CErrClosed | CErrTimeout => ok = true /\ ind = true /\ conf = 0%nat
  end.
(** the data of the application's calls, in order *)
Definition call_data (l : list act) : list bytes := flat_map (fun a => match a with ACall _ d => [d] | _ => [] end) l.
(** a PDU the server's reading goroutine accepts *)
Definition acceptable (p : bytes) : Prop := p <> [] /\ (length p <= 515)%nat.
(** how often the connection was closed by the server, and how often Loop returned *)
Definition times_closed (t : list vis) : nat := length (filter (fun v => match v with VClose => true | _ => false end) t).
Definition times_ended (t : list vis) : nat := length (filter (fun v => match v with VDone => true | _ => false end) t).
(** the buffer with the request the server is working on, from the hand-over to its return to the pool, and whether its handler is done *)
Definition working_on (h : hphase) : option (nat * bool) :=
  match h with HGot k => Some (k, false) | HMtuN k _ _ | HMtuI k _ _ | HWrite k _ | HPut k => Some (k, true) | _ => None end.
(** call k: its indication was taken by the connection and the call has not returned *)
Definition outstanding (k : nat) (t : list vis) : Prop := (exists p, writes k t = [(p, true)]) /\ returned k t = [].
(** PDUs sent without having been asked for *)
Definition unsolicited (t : list vis) : list bytes := flat_map (fun v => match v with VWrite (SCall _) p true => [p] | _ => [] end) t.
(** every request gets through its handler without a run-time panic *)
Definition no_panics (s0 : srv) (l : list act) : Prop := forall x s e p, served s0 x s -> incl (map pdu_of x) (arrived l) -> In p (arrived l) -> handle s e p <> Panic.
