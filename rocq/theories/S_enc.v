(** Specification of the encryption of connections.  Everything is said about the history: the steps taken (packets from the
    controller, calls of the application, PDUs of the peer) with what could be observed at each of them.  Nothing here looks
    into the state of the model. *)
Require Import Verif.Base Verif.M_smp Verif.M_enc.
Require Verif.S_smp.

Notation history := (list (act * list obs)).

(** ** Connections, in the order of their creation: handle, peer address, security enabled *)
Record created := mkCr { cr_handle : Z; cr_peer : bytes; cr_sec : bool }.
Definition created_in (l : history) : list created :=
  flat_map (fun x => match fst x with TConnect h _ ra _ _ sec => [mkCr h ra sec] | _ => [] end) l.
Definition conn_of (l : history) (i : nat) : option created := nth_error (created_in l) i.
(** The connection a handle stands for: that of the last connection event, if it has not been removed. *)
Definition owner_step (s : nat * (Z -> option nat)) (x : act * list obs) : nat * (Z -> option nat) :=
  match fst x with
  | TConnect h _ _ _ _ _ => (S (fst s), fun k => if k =? h then Some (fst s) else snd s k)
  | TRemove h => (fst s, fun k => if k =? h then None else snd s k)
  | _ => s
  end.
Definition owner (l : history) : Z -> option nat := snd (fold_left owner_step l (O, fun _ => None)).

(** ** Encryption events [Vol 4, Part E, 7.7.8 and 7.7.39] *)
(** An HCI event packet: 0x04, the code, the length, the parameters. *)
Definition event (b : bytes) : option (Z * bytes) :=
  match b with t :: c :: n :: p => if (t =? 4) && (n =? Z.of_nat (length p)) then Some (c, p) else None | _ => None end.
Inductive encevent :=
| Change (handle status enabled : Z)
| Refresh (handle status : Z).      (* LE Meta with the (reserved) subevent code 0x30, read as status; not event 0x30 *)
Definition enc_event (b : bytes) : option encevent :=
  match event b with
  | Some (8, st :: hl :: hh :: en :: _) => Some (Change (hl + 256 * hh) st en)
  | Some (62, 48 :: hl :: hh :: _) => Some (Refresh (hl + 256 * hh) 48)
  | _ => None
  end.
Definition ev_handle (v : encevent) : Z := match v with Change h _ _ => h | Refresh h _ => h end.
(** What the application should be told: the status, an error unless it is 0, and whether encryption is on. *)
Definition ev_info (v : encevent) : info :=
  match v with
  | Change _ st en => mkInfo st (if st =? 0 then None else Some st) (en =? 1)
  | Refresh _ st => mkInfo st (if st =? 0 then None else Some st) true
  end.
Definition ev_status (v : encevent) : Z := i_status (ev_info v).
(** An encryption event of connection i happens when packet b arrives after l. *)
Definition event_for (l : history) (b : bytes) (i : nat) : option encevent :=
  match enc_event b with
  | Some v => match owner l (ev_handle v) with Some j => if Nat.eqb j i then Some v else None | None => None end
  | None => None
  end.

(** The last things said about connection i. *)
Fixpoint fold_hist {A} (f : A -> history -> act -> list obs -> A) (acc : A) (before l : history) : A :=
  match l with
  | [] => acc
  | (a, o) :: r => fold_hist f (f acc before a o) (before ++ [(a, o)]) r
  end.
(** Encryption is on, according to the last event. *)
Definition on_step (i : nat) (acc : bool) (before : history) (a : act) (o : list obs) : bool :=
  match a with
  | TPacket b _ => match event_for before b i with Some v => i_enabled (ev_info v) | None => acc end
  | _ => acc
  end.
Definition encrypted (l : history) (i : nat) : bool := fold_hist (on_step i) false [] l.
(** The last Encryption Change event. *)
Definition info_step (i : nat) (acc : info) (before : history) (a : act) (o : list obs) : info :=
  match a with
  | TPacket b _ => match event_for before b i with Some (Change h st en) => ev_info (Change h st en) | _ => acc end
  | _ => acc
  end.
Definition last_info (l : history) (i : nat) : info := fold_hist (info_step i) (mkInfo 0 None false) [] l.
(** The channel of the application that waits for events of connection i: that of the last call of StartEncryption that did
    not return at once, until a call of StartEncryption for i has returned an error. *)
Definition returned (i : nat) (o : list obs) : bool :=
  existsb (fun x => match x with OStartRet j _ => Nat.eqb j i | _ => false end) o.
Definition failed (i : nat) (o : list obs) : bool :=
  existsb (fun x => match x with OStartRet j RError => Nat.eqb j i | _ => false end) o.
Definition listener_step (i : nat) (acc : option nat) (before : history) (a : act) (o : list obs) : option nat :=
  match a with
  | TStart j ch _ => if Nat.eqb j i && negb (returned i o) then ch else acc
  | TFinish _ => if failed i o then None else acc
  | _ => acc
  end.
Definition listener (l : history) (i : nat) : option nat := fold_hist (listener_step i) None [] l.

(** ** Channels *)
Definition all_obs (l : history) : list obs := flat_map snd l.
Definition put_in (l : history) (k : nat) : list info :=
  flat_map (fun x => match x with OReport _ j v => if Nat.eqb j k then [v] else [] | _ => [] end) (all_obs l).
Definition taken_out (l : history) (k : nat) : list info :=
  flat_map (fun x => match x with OGot j v => if Nat.eqb j k then [v] else [] | _ => [] end) (all_obs l).
Definition receives (l : history) (k : nat) : nat :=
  length (filter (fun x => match fst x with TRecv j => Nat.eqb j k | _ => false end) l).
Definition leaves (l : history) (k : nat) : nat :=
  length (filter (fun x => match fst x with TLeave j => Nat.eqb j k | _ => false end) l).
(** Channel k accepts a value now: somebody is waiting for one, or there is room in its buffer. *)
Definition accepts (cap : nat -> nat) (l : history) (k : nat) : Prop :=
  (length (taken_out l k) + leaves l k < receives l k)%nat \/ (length (put_in l k) < length (taken_out l k) + cap k)%nat.

(** ** The bond store: the bonds at the start, changed by what was stored and deleted *)
Definition store_obs (s : bytes -> option bondinfo) (x : obs) : bytes -> option bondinfo :=
  match x with
  | OSaved a b => fun k => if beq_bytes k a then Some b else s k
  | ODeleted a => fun k => if beq_bytes k a then None else s k
  | _ => s
  end.
Definition stored (t : list (bytes * bondinfo)) (l : history) : bytes -> option bondinfo :=
  fold_left store_obs (all_obs l) (fun k => find_bond k t).
(** The key of a bond in the 16-byte field of the command. *)
Definition key_field (k : bytes) : bytes := k ++ repeat 0 (16 - length k).
(** Key, diversifier and random number are those of bond b. *)
Definition key_of (b : bondinfo) (k : bytes) (ed rn : Z) : Prop := k = key_field (ltk b) /\ ed = ediv b /\ rn = brand b.

(** ** Calls of StartEncryption *)
Definition starts_of (l : history) (i : nat) : nat :=
  length (filter (fun x => match fst x with TStart j _ _ => Nat.eqb j i | _ => false end) l).
Definition returns_of (l : history) (i : nat) : nat :=
  length (filter (fun x => match x with OStartRet j _ => Nat.eqb j i | _ => false end) (all_obs l)).

(** ** Keys made in a pairing *)
(** [k] was the key of the encryption started, with diversifier and random number 0, on a Pairing Random message (code 4) of
    the peer of connection i: the short term key of a legacy pairing (C43). *)
Definition short_term_key (l : history) (i : nat) (k : bytes) : Prop :=
  exists l1 e pdu o l2 r h, l = l1 ++ (TSmp i (AMsg e pdu), o) :: l2 /\ S_smp.msg_of pdu = Some (4, r) /\ In (OCmd i h k 0 0) o.

(** ** What an encryption event must do *)
(** The bond of the peer is forgotten if the event reports a failure, a bond is stored and the store lets it be deleted. *)
Definition forgotten (t : list (bytes * bondinfo)) (l : history) (cr : created) (v : encevent) (del : bool) (o : list obs) : Prop :=
  (ev_status v <> 0 /\ stored t l (rev (cr_peer cr)) <> None /\ del = true /\ o = [ODeleted (rev (cr_peer cr))]) \/
  ((ev_status v = 0 \/ stored t l (rev (cr_peer cr)) = None \/ del = false) /\ o = []).
(** The application is told through the listening channel: a waiting receiver obtains the value at once; it is kept if there
    is room; otherwise it is lost. *)
Definition waits (l : history) (k : nat) : Prop := (length (taken_out l k) + leaves l k < receives l k)%nat.
Definition room (cap : nat -> nat) (l : history) (k : nat) : Prop := (length (put_in l k) < length (taken_out l k) + cap k)%nat.
Definition told (cap : nat -> nat) (l : history) (i : nat) (v : info) (o : list obs) : Prop :=
  match listener l i with
  | None => o = []
  | Some k => (waits l k /\ o = [OReport i k v; OGot k v]) \/
              (~ waits l k /\ room cap l k /\ o = [OReport i k v]) \/
              (~ waits l k /\ ~ room cap l k /\ o = [OLost i k v])
  end.

(** ** The results of StartEncryption *)
(** Calls for connection i whose command the controller accepted; calls for i that waited and returned nil. *)
Definition has_cmd (o : list obs) : bool := existsb (fun x => match x with OCmd _ _ _ _ _ => true | _ => false end) o.
Definition accepted_of (l : history) (i : nat) : nat :=
  length (filter (fun x => match fst x with TStart j _ e => Nat.eqb j i && has_cmd (snd x) && e_cmd e | _ => false end) l).
Definition nil_of (l : history) (i : nat) : nat :=
  length (filter (fun x => match fst x with
                           | TFinish _ => existsb (fun y => match y with OStartRet j RNil => Nat.eqb j i | _ => false end) (snd x)
                           | _ => false
                           end) l).
(** Bonds whose key fits into the command, or that are of the kind for which the length of the key is looked at. *)
Definition fits (b : bondinfo) : Prop := blegacy b = true \/ (length (ltk b) <= 16)%nat.
