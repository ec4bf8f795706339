(** Model of the advertising, scanning and dialling calls of linux/hci/gap.go when they run at the same time, and beside the
    goroutines that enable advertising again (hci.go:829-836, 868-872).  The calls share the parameter structs (params.go:9-32): each
    assignment is one step; a command is marshalled from the shared struct after its opcode has been locked (hci.go:372-388),
    and the opcode stays locked until the call has its answer (hci.go:373-379, 420-442; the command path in detail is M_hcicmd).
    Any interleaving is allowed.  Simplifications: an assignment or copy of one field is one step (the Go memory model promises less for
    these unsynchronised accesses); receiving the answer and unlocking the opcode are one step; a marshalling panic is no step (M_gap, C38:
    there is none for these commands); HCI stays open, and a command whose answer did not come in time is not answered later (else a call can
    report success with the answer of another or of none: C97).  Not modelled: Dial after its command (M_hci), what Scan does with adHist (M_advrep). *)
Require Import Verif.Base Verif.M_cmd Verif.M_gap.

(** Assignments to the shared structs *)
Inductive setting := SEnable (e : Z) | SAdLen (n : Z) | SAdData (b : bytes) | SSrLen (n : Z) | SSrData (b : bytes)
| SDup (d : Z) | SScanOn (e : Z) | SPeerType (z : Z) | SPeer (b : bytes) | SAdvParams (p : sval).
Definition assign (x : setting) (h : host) : host :=
  match x with
  | SEnable e => with_enable h e
  | SAdLen n => with_ad h (u8 n, snd (h_ad h))
  | SAdData b => with_ad h (fst (h_ad h), gcopy (snd (h_ad h)) b)
  | SSrLen n => with_sr h (u8 n, snd (h_sr h))
  | SSrData b => with_sr h (fst (h_sr h), gcopy (snd (h_sr h)) b)
  | SDup d => with_scan h (h_scan h) d
  | SScanOn e => with_scan h e (h_dup h)
  | SPeerType z => with_connp h (field "PeerAddressType" (GInt z) (h_connp h))
  | SPeer b => with_connp h (field "PeerAddress" (GBytes b) (h_connp h))
  | SAdvParams p => with_advp h p
  end.
(** The commands; [opcode] is the key of the opcode lock, [marshalled] the packet made of the shared struct *)
Inductive command := CAdvParams | CEnable | CAdData | CSrData | CScan | CCreate.
Definition name_of (c : command) : string :=
  match c with CAdvParams => "LESetAdvertisingParameters" | CEnable => "LESetAdvertiseEnable" | CAdData => "LESetAdvertisingData"
  | CSrData => "LESetScanResponseData" | CScan => "LESetScanEnable" | CCreate => "LECreateConnection" end.
Definition opcode (c : command) : Z := match find_cmd (name_of c) with Some d => cd_op d | None => 0 end.
Definition struct_of (c : command) (h : host) : sval :=
  match c with CAdvParams => h_advp h | CEnable => enable_struct (h_enable h) | CAdData => ad_struct (h_ad h) | CSrData => sr_struct (h_sr h)
  | CScan => scan_struct h | CCreate => h_connp h end.
Definition marshalled (c : command) (h : host) : go bytes := packet (name_of c) (struct_of c h).

(** The calls as sequences of assignments and commands.  [ICmd c r]: send the command; if it fails the call ends and reports success iff [r]. *)
Inductive instr := ISet (x : setting) | ICmd (c : command) (r : bool) | IRet (r : bool).
Inductive call := KAdv (ad sr : bytes) | KRaw (ad sr : bytes) (p : sval) | KStop | KScan (dup : bool) | KStopScan | KDial (a : bytes) (rnd : bool) | KReenable.
(** gap.go:282-299 SetAdvertisement ([r]: what the caller makes of its error), 271-279 Advertise *)
Definition p_set (ad sr : bytes) (r : bool) : list instr :=
  [ISet (SAdLen (Z.of_nat (length ad))); ISet (SAdData ad); ICmd CAdData r; ISet (SSrLen (Z.of_nat (length sr))); ISet (SSrData sr); ICmd CSrData r].
Definition p_advertise : list instr := [ICmd CAdvParams false; ISet (SEnable 1); ICmd CEnable false].
Definition too_long (ad sr : bytes) : bool := Nat.ltb 31 (length ad) || Nat.ltb 31 (length sr).
(** KAdv: gap.go:47-175 with the payload made by the call (M_adv), whose error of SetAdvertisement is dropped (gap.go:123-126 etc.);
    KRaw: linux/device.go:174-201; KStop: gap.go:178-181; KScan, KStopScan: gap.go:29-44; KDial: gap.go:201-222;
    KReenable: hci.go:834, 870 *)
Definition prog (k : call) : list instr :=
  match k with
  | KAdv ad sr => if too_long ad sr then [IRet true] else p_set ad sr true ++ p_advertise
  | KRaw ad sr p => ISet (SAdvParams p) :: if too_long ad sr then [IRet false] else p_set ad sr false ++ p_advertise
  | KStop => [ISet (SEnable 0); ICmd CEnable false]
  | KScan dup => ISet (SDup 1) :: (if dup then [ISet (SDup 0)] else []) ++ [ISet (SScanOn 1); ICmd CScan false]
  | KStopScan => [ISet (SScanOn 0); ICmd CScan false]
  | KDial a rnd => if Nat.eqb (length a) 6 then [ISet (SPeerType (if rnd then 1 else 0)); ISet (SPeer (rev a)); ICmd CCreate false] else [IRet false]
  | KReenable => [ICmd CEnable false]
  end.

(** A call: running; its command's opcode locked (372); the command marshalled (382-388); written and handled by the controller, [acc]: accepted;
    ended.  [t_todo]: what comes after the present command. *)
Inductive phase := Run | Locked (c : command) (r : bool) | Marsh (c : command) (r : bool) (b : bytes) | Written (c : command) (r : bool) (acc : bool) | Ended (ok : bool).
Record thread := mkT { t_call : call; t_todo : list instr; t_ph : phase }.
(** [g_log]: the commands the controller got, in order, and whether it accepted them.  [g_hist]: the assignments made so far and by which call;
    nothing reads it. *)
Record gst := mkG { g_host : host; g_thr : list thread; g_lock : Z -> option nat; g_log : list (bytes * bool); g_hist : list (nat * setting) }.
Definition g0 (h : host) : gst := mkG h [] (fun _ => None) [] [].
Definition set_thr (s : gst) (t : nat) (th : thread) : gst := mkG (g_host s) (upd (g_thr s) t th) (g_lock s) (g_log s) (g_hist s).
Definition set_lock (s : gst) (op : Z) (o : option nat) : gst := mkG (g_host s) (g_thr s) (fun x => if x =? op then o else g_lock s x) (g_log s) (g_hist s).

(** [GCall]: a call begins.  [GConnected]: the event loop has handled a connection as peripheral, or its end (829-836, 868-872).
    [GStep t]: the next assignment, locking, marshalling of call t.  [GWrite t acc]: its command is written, the controller accepts it or not.
    [GNoBuf t]: it is not written (no command buffer in time, 390-393).  [GAnswer t]: it gets the answer.
    [GLost t]: it gets none in time (421-425). *)
Inductive act := GCall (k : call) | GConnected | GStep (t : nat) | GWrite (t : nat) (acc : bool) | GNoBuf (t : nat) | GAnswer (t : nat) | GLost (t : nat).
Definition exec (s : gst) (a : act) : option gst :=
  let spawn k := mkG (g_host s) (g_thr s ++ [mkT k (prog k) Run]) (g_lock s) (g_log s) (g_hist s) in
  match a with
  | GCall KReenable => None
  | GCall k => Some (spawn k)
  | GConnected => Some (if h_enable (g_host s) =? 1 then spawn KReenable else s)
  | GStep t =>
      match nth_error (g_thr s) t with
      | None => None
      | Some th =>
          match t_ph th, t_todo th with
          | Run, [] => Some (set_thr s t (mkT (t_call th) [] (Ended true)))
          | Run, IRet r :: _ => Some (set_thr s t (mkT (t_call th) [] (Ended r)))
          | Run, ISet x :: rest =>
              Some (mkG (assign x (g_host s)) (upd (g_thr s) t (mkT (t_call th) rest Run)) (g_lock s) (g_log s) (g_hist s ++ [(t, x)]))
          | Run, ICmd c r :: rest =>
              match g_lock s (opcode c) with
              | Some _ => None
              | None => Some (set_lock (set_thr s t (mkT (t_call th) rest (Locked c r))) (opcode c) (Some t))
              end
          | Locked c r, rest => match marshalled c (g_host s) with Ret b => Some (set_thr s t (mkT (t_call th) rest (Marsh c r b))) | Panic => None end
          | _, _ => None
          end
      end
  | GWrite t acc =>
      match nth_error (g_thr s) t with
      | Some (mkT k rest (Marsh c r b)) => Some (mkG (g_host s) (upd (g_thr s) t (mkT k rest (Written c r acc))) (g_lock s) (g_log s ++ [(b, acc)]) (g_hist s))
      | _ => None
      end
  | GNoBuf t =>
      match nth_error (g_thr s) t with
      | Some (mkT k rest (Marsh c r b)) => Some (set_lock (set_thr s t (mkT k [] (Ended r))) (opcode c) None)
      | _ => None
      end
  | GAnswer t =>
      match nth_error (g_thr s) t with
      | Some (mkT k rest (Written c r acc)) => Some (set_lock (set_thr s t (if acc then mkT k rest Run else mkT k [] (Ended r))) (opcode c) None)
      | _ => None
      end
  | GLost t =>
      match nth_error (g_thr s) t with
      | Some (mkT k rest (Written c r acc)) => Some (set_lock (set_thr s t (mkT k [] (Ended r))) (opcode c) None)
      | _ => None
      end
  end.
Fixpoint exec_all (s : gst) (l : list act) : option gst :=
  match l with [] => Some s | a :: r => match exec s a with Some s' => exec_all s' r | None => None end end.
