(** Model of the encryption of connections: Conn.StartEncryption, Pair, encrypt (linux/hci/conn.go:154-183, 270-323),
    handleEncryptionChanged and handleEncryptionKeyRefreshComplete (458-508), their dispatch in linux/hci/hci.go:564-599 and
    912-935, and the bond store shared by all connections (linux/hci/smp/manager.go:142-163).
    The Security Manager of each connection is M_smp.v, packet decoding is M_hci.v, the bond store is the map that C46 shows
    it to be (here keyed by the six address bytes; hex.EncodeToString is injective).
    A transition system: one action is one atomic step of the event loop, of a connection's receive loop, of an application
    goroutine or of the goroutine started by StartEncryption; any interleaving is allowed, time-outs may fire at any moment.
    Simplifications: the application does not close the channels it passes; a connection is created with its addresses given;
    each call into the Security Manager is one step (the answer of the controller to LE Start Encryption is part of [env]). *)
Require Import Verif.Base Verif.M_smp.
Require Verif.M_hci.

(** conn.go:9-13 (root package) EncryptionChangedInfo.  Err is nil, or the error whose text is errCmd[status]: [i_err]. *)
Record info := mkInfo { i_status : Z; i_err : option Z; i_enabled : bool }.
(** The zero value of encInfo. *)
Definition info0 : info := mkInfo 0 None false.
(** conn.go:459-470: what an event says. *)
Definition info_of (status : Z) (enabled : bool) : info :=
  mkInfo status (if status =? 0 then None else Some status) enabled.

(** The fields of Conn (linux/hci/conn.go:20-81) that matter here; [c_smp] is nil when security was not enabled. *)
Record conn := mkConn {
  c_handle : Z;
  c_smp : option smp;
  c_enabled : bool;               (* encryptionEnabled *)
  c_info : info;                  (* encInfo *)
  c_ch : option nat }.            (* encChanged: a channel of the application *)
Definition set_smp (v : option smp) (c : conn) : conn := mkConn (c_handle c) v (c_enabled c) (c_info c) (c_ch c).
Definition set_ch (v : option nat) (c : conn) : conn := mkConn (c_handle c) (c_smp c) (c_enabled c) (c_info c) v.
Definition set_enabled (v : bool) (c : conn) : conn := mkConn (c_handle c) (c_smp c) v (c_info c) (c_ch c).
Definition set_info (v : info) (c : conn) : conn := mkConn (c_handle c) (c_smp c) (c_enabled c) v (c_ch c).

(** A channel of the application: its capacity, its buffer (oldest first), how many goroutines are blocked receiving. *)
Record chan := mkChan { ch_cap : nat; ch_buf : list info; ch_wait : nat }.

(** A call of StartEncryption that waits for the controller, with what the controller will say: conn, channel, error. *)
Record call := mkCall { l_conn : nat; l_ok : bool }.
(** The goroutine of conn.go:161-168: before and after the select has evaluated conn.encInfo. *)
Record sender := mkSender { s_conn : nat; s_chan : nat; s_val : option info }.

Record world := mkW {
  conns : list conn;                 (* every Conn ever created; its number is its position *)
  tab : list (Z * nat);              (* h.conns, newest first *)
  bonds : list (bytes * bondinfo);   (* the bond store, newest first *)
  chans : nat -> chan;
  calls : list call;
  senders : list sender }.
Definition set_conns v w := mkW v (tab w) (bonds w) (chans w) (calls w) (senders w).
Definition set_tab v w := mkW (conns w) v (bonds w) (chans w) (calls w) (senders w).
Definition set_bonds v w := mkW (conns w) (tab w) v (chans w) (calls w) (senders w).
Definition set_chans v w := mkW (conns w) (tab w) (bonds w) v (calls w) (senders w).
Definition set_calls v w := mkW (conns w) (tab w) (bonds w) (chans w) v (senders w).
Definition set_senders v w := mkW (conns w) (tab w) (bonds w) (chans w) (calls w) v.
Definition on_conn (i : nat) (f : conn -> conn) (w : world) : world :=
  match nth_error (conns w) i with Some c => set_conns (upd (conns w) i (f c)) w | None => w end.
Definition set_chan (k : nat) (c : chan) (w : world) : world :=
  set_chans (fun j => if Nat.eqb j k then c else chans w j) w.

(** A Go map as an association list. *)
Fixpoint assoc (h : Z) (t : list (Z * nat)) : option nat :=
  match t with [] => None | (k, i) :: r => if k =? h then Some i else assoc h r end.
Definition drop_handle (h : Z) (t : list (Z * nat)) : list (Z * nat) := filter (fun x => negb (fst x =? h)) t.
Fixpoint find_bond (a : bytes) (t : list (bytes * bondinfo)) : option bondinfo :=
  match t with [] => None | (k, b) :: r => if beq_bytes k a then Some b else find_bond a r end.
Definition drop_bond (a : bytes) (t : list (bytes * bondinfo)) : list (bytes * bondinfo) :=
  filter (fun x => negb (beq_bytes (fst x) a)) t.
Definition put_bond (a : bytes) (b : bondinfo) (t : list (bytes * bondinfo)) : list (bytes * bondinfo) := (a, b) :: drop_bond a t.

(** What is observable. *)
Inductive result := RNil | RAlready | RError.      (* of StartEncryption: nil, ErrEncryptionAlreadyEnabled, another error *)
Inductive obs :=
| OCmd (i : nat) (handle : Z) (key : bytes) (ediv rnd : Z)    (* LE Start Encryption for connection i *)
| OPdu (i : nat) (pdu : bytes)                                (* an SMP PDU is sent on connection i *)
| OSaved (a : bytes) (b : bondinfo)                           (* a bond is stored *)
| OSaveFailed (a : bytes)
| ODeleted (a : bytes)                                        (* the bond of an address is deleted *)
| OPairRet (i : nat) (ok : bool)                              (* a call of Pair returns *)
| OStartRet (i : nat) (r : result)                            (* a call of StartEncryption returns *)
| OReport (i : nat) (k : nat) (v : info)                      (* connection i puts v into channel k *)
| OLost (i : nat) (k : nat) (v : info)                        (* connection i could not put v into channel k *)
| OGot (k : nat) (v : info).                                  (* a receiver of channel k obtains v *)

(** A send that can proceed: to a blocked receiver, or into the buffer. *)
Definition chan_send (k : nat) (v : info) (w : world) : option (world * list obs) :=
  let c := chans w k in
  if Nat.ltb 0 (ch_wait c) then Some (set_chan k (mkChan (ch_cap c) (ch_buf c) (pred (ch_wait c))) w, [OGot k v])
  else if Nat.ltb (length (ch_buf c)) (ch_cap c) then Some (set_chan k (mkChan (ch_cap c) (ch_buf c ++ [v]) (ch_wait c)) w, [])
  else None.
(** select with default: conn.go:471-480 and 496-505. *)
Definition report (i : nat) (ch : option nat) (v : info) (w : world) : world * list obs :=
  match ch with
  | None => (w, [])
  | Some k => match chan_send k v w with Some (w', o) => (w', OReport i k v :: o) | None => (w, [OLost i k v]) end
  end.

(** conn.go:458-481 handleEncryptionChanged, with manager.go:161-163 DeleteBondInfo ([del]: the store lets it succeed; a bond
    that is not stored makes Delete fail, which is only logged).  With c.smp nil a failure status is a nil dereference. *)
Definition delete_bond (a : bytes) (del : bool) (w : world) : world * list obs :=
  match find_bond a (bonds w) with
  | Some _ => if del then (set_bonds (drop_bond a (bonds w)) w, [ODeleted a]) else (w, [])
  | None => (w, [])
  end.
Definition on_failure (c : conn) (status : Z) (del : bool) (w : world) : go (world * list obs) :=
  if status =? 0 then Ret (w, [])
  else match c_smp c with
       | None => Panic
       | Some s => Ret (delete_bond (p_raddr (ctx s)) del w)
       end.
Definition handleEncryptionChanged (i : nat) (status enabled : Z) (del : bool) (w : world) : go (world * list obs) :=
  match nth_error (conns w) i with
  | None => Ret (w, [])
  | Some c =>
      let! r := on_failure c status del w in
      let en := enabled =? 1 in
      let v := info_of status en in
      let w1 := on_conn i (fun c => set_info v (set_enabled en c)) (fst r) in
      let (w2, o) := report i (c_ch c) v w1 in
      Ret (w2, snd r ++ o)
  end.
(** conn.go:483-508 handleEncryptionKeyRefreshComplete: encInfo is not updated. *)
Definition handleEncryptionKeyRefreshComplete (i : nat) (status : Z) (del : bool) (w : world) : go (world * list obs) :=
  match nth_error (conns w) i with
  | None => Ret (w, [])
  | Some c =>
      let! r := on_failure c status del w in
      let w1 := on_conn i (set_enabled true) (fst r) in
      let (w2, o) := report i (c_ch c) (info_of status true) w1 in
      Ret (w2, snd r ++ o)
  end.
(** One packet from the controller, as far as encryption is concerned (decoding and dispatch: M_hci.dec_pkt;
    hci.go:912-935).  An LE Long Term Key Request is KNothing there: hci.go:956-961 only logs and returns an error. *)
Definition handle_packet (b : bytes) (del : bool) (w : world) : go (world * list obs) :=
  let! k := M_hci.dec_pkt b in
  match k with
  | M_hci.KEnc h rest =>
      match assoc h (tab w) with
      | None => Ret (w, [])
      | Some i => let! se := rest in handleEncryptionChanged i (fst se) (snd se) del w
      end
  | M_hci.KRefresh h s =>
      match assoc h (tab w) with
      | None => Ret (w, [])
      | Some i => handleEncryptionKeyRefreshComplete i s del w
      end
  | _ => Ret (w, [])
  end.

Section WithPrims.
Variable C : prims.

(** The effects of one step of a Security Manager on the shared world: a Save changes the store if it succeeds. *)
Definition out_obs (e : env) (i : nat) (h : Z) (o : out) : obs :=
  match o with
  | OSend pdu => OPdu i pdu
  | OSave a b => if e_save e then OSaved a b else OSaveFailed a
  | OStartEnc k ed rn => OCmd i h k ed rn
  end.
Definition ev_obs (e : env) (i : nat) (h : Z) (v : ev) : list obs :=
  match v with EOut o => [out_obs e i h o] | EPairRet ok => [OPairRet i ok] | EHandleErr => [] end.
Definition obs_bonds (t : list (bytes * bondinfo)) (l : list obs) : list (bytes * bondinfo) :=
  fold_left (fun t o => match o with OSaved a b => put_bond a b t | _ => t end) l t.
(** The bond lookup of the step answers from the store of this moment, or fails. *)
Definition find_ok (e : env) (s : smp) (w : world) : Prop :=
  e_find e = None \/ e_find e = find_bond (p_raddr (ctx s)) (bonds w).

(** A step of the Security Manager of connection i; with c.smp nil a PDU is dropped (440-442) and a call of Pair is a nil
    dereference (154-156). *)
Definition is_call (a : sact) : bool := match a with APair _ _ _ => true | _ => false end.
Definition act_env (a : sact) : option env :=
  match a with AMsg e _ | APair e _ _ | AStartEncryption e => Some e | APairTimeout => None end.
Definition smp_step (i : nat) (a : sact) (w : world) : option (go (world * list obs)) :=
  match nth_error (conns w) i with
  | None => None
  | Some c =>
      match c_smp c with
      | None => if is_call a then Some Panic else match a with AMsg _ _ => Some (Ret (w, [])) | _ => None end
      | Some s =>
          match sstep C s a with
          | None => None
          | Some Panic => Some Panic
          | Some (Ret (s', evs)) =>
              let o := match act_env a with
                       | Some e => concat (map (ev_obs e i (c_handle c)) evs)
                       | None => concat (map (fun v => match v with EPairRet ok => [OPairRet i ok] | _ => [] end) evs)
                       end in
              Some (Ret (set_bonds (obs_bonds (bonds w) o) (on_conn i (set_smp (Some s')) w), o))
          end
      end
  end.

(** conn.go:157-183 StartEncryption up to the command: already enabled, or the channel is registered and the bond is looked up
    (manager.go:142-148) and the controller asked (conn.go:270-323).  A call with an error from the lookup or from encrypt
    before the command ends at the second step as well. *)
Definition start (i : nat) (ch : option nat) (e : env) (w : world) : option (go (world * list obs)) :=
  match nth_error (conns w) i with
  | None => None
  | Some c =>
      if c_enabled c then
        match ch with
        | Some k => Some (Ret (set_senders (senders w ++ [mkSender i k None]) w, [OStartRet i RNil]))
        | None => Some (Ret (w, [OStartRet i RAlready]))
        end
      else
        let w1 := on_conn i (set_ch ch) w in
        match c_smp c with
        | None => Some Panic
        | Some s =>
            match StartEncryption e (ctx s) with
            | Panic => Some Panic
            | Ret (_, o, r) =>
                Some (Ret (set_calls (calls w1 ++ [mkCall i (match r with Some _ => true | None => false end)]) w1,
                           map (out_obs e i (c_handle c)) o))
            end
        end
  end.
(** conn.go:177-182: the answer of the controller has arrived. *)
Definition finish (j : nat) (w : world) : option (go (world * list obs)) :=
  match nth_error (calls w) j with
  | None => None
  | Some l =>
      let w1 := set_calls (firstn j (calls w) ++ skipn (S j) (calls w)) w in
      if l_ok l then Some (Ret (w1, [OStartRet (l_conn l) RNil]))
      else Some (Ret (on_conn (l_conn l) (set_ch None) w1, [OStartRet (l_conn l) RError]))
  end.
(** conn.go:161-168: the goroutine evaluates conn.encInfo, then sends or gives up after a second. *)
Definition go_eval (j : nat) (w : world) : option (go (world * list obs)) :=
  match nth_error (senders w) j with
  | Some (mkSender i k None) =>
      match nth_error (conns w) i with
      | Some c => Some (Ret (set_senders (upd (senders w) j (mkSender i k (Some (c_info c)))) w, []))
      | None => None
      end
  | _ => None
  end.
Definition go_end (j : nat) (give_up : bool) (w : world) : option (go (world * list obs)) :=
  match nth_error (senders w) j with
  | Some (mkSender i k (Some v)) =>
      let w1 := set_senders (firstn j (senders w) ++ skipn (S j) (senders w)) w in
      if give_up then Some (Ret (w1, [OLost i k v]))
      else match chan_send k v w1 with Some (w2, o) => Some (Ret (w2, OReport i k v :: o)) | None => None end
  | _ => None
  end.
(** The application receives from channel k: it obtains the oldest value, or blocks; a blocked receiver may stop waiting. *)
Definition recv (k : nat) (w : world) : world * list obs :=
  let c := chans w k in
  match ch_buf c with
  | v :: r => (set_chan k (mkChan (ch_cap c) r (ch_wait c)) w, [OGot k v])
  | [] => (set_chan k (mkChan (ch_cap c) [] (S (ch_wait c))) w, [])
  end.
Definition leave (k : nat) (w : world) : option world :=
  let c := chans w k in
  match ch_wait c with S n => Some (set_chan k (mkChan (ch_cap c) (ch_buf c) n) w) | O => None end.

Inductive act :=
| TConnect (handle : Z) (la ra : bytes) (lat rat : Z) (security : bool)  (* newConn, conn.go:87-141; hci.go:805-815 *)
| TRemove (handle : Z)                                                   (* cleanupConnectionHandle: removed from h.conns *)
| TPacket (b : bytes) (del : bool)                                       (* a packet from the controller *)
| TSmp (i : nat) (a : sact)                                              (* a PDU or a call at the Security Manager *)
| TStart (i : nat) (ch : option nat) (e : env)                           (* StartEncryption is called *)
| TFinish (j : nat)                                                      (* a waiting call of StartEncryption goes on *)
| TGoEval (j : nat) | TGoEnd (j : nat) (give_up : bool)
| TRecv (k : nat) | TLeave (k : nat).

(** newConn, conn.go:87-141. *)
Definition new_conn (h : Z) (la ra : bytes) (lat rat : Z) (security : bool) : conn :=
  mkConn h (if security then Some (smp_new la ra lat rat) else None) false info0 None.
Definition step (w : world) (a : act) : option (go (world * list obs)) :=
  match a with
  | TConnect h la ra lat rat sec =>
      Some (Ret (set_tab ((h, length (conns w)) :: drop_handle h (tab w))
                         (set_conns (conns w ++ [new_conn h la ra lat rat sec]) w), []))
  | TRemove h => Some (Ret (set_tab (drop_handle h (tab w)) w, []))
  | TPacket b del => Some (handle_packet b del w)
  | TSmp i a => match a with AStartEncryption _ => None | _ => smp_step i a w end
  | TStart i ch e => start i ch e w
  | TFinish j => finish j w
  | TGoEval j => go_eval j w
  | TGoEnd j g => go_end j g w
  | TRecv k => Some (Ret (recv k w))
  | TLeave k => match leave k w with Some w' => Some (Ret (w', [])) | None => None end
  end.
(** The environment answers bond lookups from the store. *)
Definition env_ok (w : world) (a : act) : Prop :=
  match a with
  | TSmp i a =>
      match act_env a, nth_error (conns w) i with
      | Some e, Some c => match c_smp c with Some s => find_ok e s w | None => True end
      | _, _ => True
      end
  | TStart i _ e => match nth_error (conns w) i with
                    | Some c => match c_smp c with Some s => find_ok e s w | None => True end
                    | None => True
                    end
  | _ => True
  end.
(** At the start: no connection, the bonds of earlier runs, empty channels. *)
Definition world0 (t : list (bytes * bondinfo)) (cap : nat -> nat) : world :=
  mkW [] [] t (fun k => mkChan (cap k) [] 0) [] [].
Inductive run : world -> list (act * list obs) -> world -> Prop :=
| run_nil w : run w [] w
| run_snoc w l w1 a w2 o : run w l w1 -> env_ok w1 a -> step w1 a = Some (Ret (w2, o)) -> run w (l ++ [(a, o)]) w2.
End WithPrims.
