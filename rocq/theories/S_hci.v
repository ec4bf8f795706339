(** Specification of the connection properties of the HCI host: packet formats of the Core Specification (Vol 4 Part E) and
    observations on execution traces. *)
Require Import Verif.Base Verif.M_hci.

(** ---- packet formats ---- *)
(** HCI ACL data packet (5.4.2): 12-bit handle, packet boundary and broadcast flags, length, data. *)
Definition acl_packet (handle pb bc : Z) (data : bytes) : bytes :=
  [2; handle mod 256; handle / 256 + 16 * pb + 64 * bc] ++ le16 (Z.of_nat (length data)) ++ data.
(** HCI event packet (5.4.4). *)
Definition event (code : Z) (params : bytes) : bytes := [4; code; Z.of_nat (length params)] ++ params.
(** LE Connection Complete (7.7.65.1). *)
Definition ev_connected (status handle role ptype : Z) (addr : bytes) (interval latency timeout accuracy : Z) : bytes :=
  event 62 ([1; status] ++ le16 handle ++ [role; ptype] ++ addr ++ le16 interval ++ le16 latency ++ le16 timeout ++ [accuracy]).
(** Disconnection Complete (7.7.5). *)
Definition ev_disconnected (status handle reason : Z) : bytes := event 5 ([status] ++ le16 handle ++ [reason]).

(** ---- traces ---- *)
(** [l] can be executed from start-up and leads to [s]. *)
Definition runs (smp : bool) (l : list act) (s : host) : Prop := exec_all smp host0 l = Ret (Some s).

(** The number of the n-th connection event's connection is n (counting from 0): what the events of a trace say of it. *)
Definition new_conns (a : act) : list (Z * Z * bytes) :=
  match a with APkt b => match dec_pkt b with Ret (KConn h r _ addr) => [(h, r, addr)] | _ => [] end | _ => [] end.
Definition conns_of (l : list act) : list (Z * Z * bytes) := flat_map new_conns l.

(** ACL packets that arrived, with their handle, in order. *)
Definition arrivals1 (a : act) : list (Z * bytes) :=
  match a with APkt b => match dec_pkt b with Ret (KAcl h p) => [(h, p)] | _ => [] end | _ => [] end.

(** What happens to the data of connection [c] along a trace starting in [s]: packets handed to it, packets it has taken. *)
Fixpoint handed (smp : bool) (s : host) (l : list act) (c : nat) : list bytes :=
  match l with
  | [] => []
  | a :: r =>
      match exec smp s a with
      | Ret (Some s') =>
          (match a, loop s with AAclPut, LAcl c' p => if Nat.eqb c' c then [p] else [] | _, _ => [] end) ++ handed smp s' r c
      | _ => []
      end
  end.
Fixpoint taken (smp : bool) (s : host) (l : list act) (c : nat) : list bytes :=
  match l with
  | [] => []
  | a :: r =>
      match exec smp s a with
      | Ret (Some s') =>
          (match a with ARxTake c' => if Nat.eqb c' c then match nth_error (objs s) c with Some k => firstn 1 (k_in k) | None => [] end else [] | _ => [] end)
          ++ taken smp s' r c
      | _ => []
      end
  end.
(** The ACL packets that arrived while [c] was the connection registered under their handle. *)
Fixpoint addressed (smp : bool) (s : host) (l : list act) (c : nat) : list bytes :=
  match l with
  | [] => []
  | a :: r =>
      match exec smp s a with
      | Ret (Some s') =>
          (match arrivals1 a with (h, p) :: _ => match tab s h with Some c' => if Nat.eqb c' c then [p] else [] | None => [] end | [] => [] end)
          ++ addressed smp s' r c
      | _ => []
      end
  end.
(** The packet that the process loop is still trying to hand to [c]. *)
Definition in_hand (s : host) (c : nat) : list bytes :=
  match loop s with LAcl c' p => if Nat.eqb c' c then [p] else [] | _ => [] end.

(** The packets of [c] waiting for its receive loop. *)
Definition queued (s : host) (c : nat) : list bytes := match nth_error (objs s) c with Some k => k_in k | None => [] end.
(** The connection handle in an ACL packet (without the type byte). *)
Definition acl_handle (p : bytes) : Z := nth 0 p 0 + 256 * (nth 1 p 0 mod 16).

(** Connection [c] has been removed from the table at least once (its handle was cleaned up): its input is closed. *)
Definition gone (s : host) (c : nat) : Prop := exists k, nth_error (objs s) c = Some k /\ k_inclosed k = true.
(** [c] is registered under its handle. *)
Definition live (s : host) (c : nat) : Prop := exists k, nth_error (objs s) c = Some k /\ tab s (k_handle k) = Some c.
(** Disconnected() of [c] is closed. *)
Definition disconnected (s : host) (c : nat) : Prop := exists k, nth_error (objs s) c = Some k /\ k_done k = true.

(** The controller does not report a new connection under a handle that is still registered. *)
Fixpoint fresh_handles (smp : bool) (s : host) (l : list act) : Prop :=
  match l with
  | [] => True
  | a :: r =>
      (forall h role addr, new_conns a = [(h, role, addr)] -> tab s h = None) /\
      match exec smp s a with Ret (Some s') => fresh_handles smp s' r | _ => True end
  end.

(** Connections handed to the application: by Accept, by Dial. *)
Definition given_by_dial (s : host) : list nat := flat_map (fun d => match d with DGot _ c => [c] | _ => [] end) (dials s).

(** ---- a controller answering connection requests ---- *)
(** The address of the connection the controller is trying to create. *)
Definition active (d : dialst) : bool := match d with DWait _ | DCancel _ | DGrace _ => true | _ => false end.
Fixpoint dial_ok (smp : bool) (pending : option bytes) (s : host) (l : list act) : Prop :=
  match l with
  | [] => True
  | a :: r =>
      match exec smp s a with
      | Ret (Some s') =>
          match a with
          | ADial x => forallb (fun d => negb (active d)) (dials s) = true /\ pending = None /\ dial_ok smp (Some x) s' r
          | ACancelOk _ => pending <> None /\ dial_ok smp None s' r
          | ACancelDisallowed _ => pending = None /\ dial_ok smp pending s' r
          | ACancelFail _ => False
          | AGraceOver _ => pending = None /\ master s = [] /\ (forall c, loop s <> LMaster c) /\ dial_ok smp pending s' r
          | APkt b =>
              match new_conns a with
              | (_, 0, addr) :: _ => pending = Some addr /\ dial_ok smp None s' r
              | _ => dial_ok smp pending s' r
              end
          | _ => dial_ok smp pending s' r
          end
      | _ => True
      end
  end.

(** ---- packets the process loop cannot survive ---- *)
(** Too short for the fields that are read.  [known h]: the table has a connection with handle h. *)
Definition too_short (b : bytes) (known : Z -> Prop) (smp : bool) : Prop :=
  match b with
  | [] => True
  | 2 :: p => (length p < 2)%nat
  | 4 :: p =>
      match p with
      | code :: n :: q =>
          n = Z.of_nat (length q) /\
          ((code = 62 /\ match q with
                         | [] => True
                         | 1 :: r => match r with [] => True | st :: _ => st = 0 /\ (length q < 6)%nat end
                         | 48 :: r => match r with h0 :: h1 :: _ => known (de16 h0 h1) /\ smp = false | _ => True end
                         | _ => False
                         end)
           \/ (code = 5 /\ (length q < 4)%nat)
           \/ (code = 8 /\ match q with
                           | st :: h0 :: h1 :: r => known (de16 h0 h1) /\ (r = [] \/ (st <> 0 /\ smp = false))
                           | _ => True
                           end))
      | _ => True
      end
  | _ => False
  end.

(** A call of Dial that was cancelled too late sits in its 50 ms grace period while the channel it reads is closed and empty. *)
Definition abandoned (s : host) (i : nat) : Prop :=
  exists a, nth_error (dials s) i = Some (DGrace a) /\ mclosed s = true /\ master s = [].

(** ---- what ends a connection ---- *)
(** The handle that a step removes from the connection table, if any: a Disconnection Complete event whose reason is not
    "terminated by the local host" (16 hex), the end of a failed receive loop, the last step of a call of Close, shutdown. *)
Definition removes (s : host) (a : act) : option Z :=
  match a with
  | APkt b => match dec_pkt b with Ret (KDisc h reason) => if reason =? 22 then None else Some h | _ => None end
  | ARxClean c => match nth_error (objs s) c with Some k => Some (k_handle k) | None => None end
  | AClClean i => match nth_error (closers s) i with
                  | Some (ClClean c) => match nth_error (objs s) c with Some k => Some (k_handle k) | None => None end
                  | _ => None
                  end
  | ALoopClean h => Some h
  | _ => None
  end.
