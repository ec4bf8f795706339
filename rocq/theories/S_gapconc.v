(** Observations for C184: what the controller does, who asked last. *)
Require Import Verif.Base Verif.M_cmd Verif.S_gap Verif.M_gap Verif.M_gapconc.

Definition runs (h : host) (l : list act) (s : gst) : Prop := exec_all (g0 h) l = Some s.
(** LE Set Advertise Enable (opcode 0x200A) and LE Set Scan Enable (0x200C): packet type, opcode, length, enable (, filter) *)
Definition adv_value (b : bytes) : option Z := match b with [1; 10; 32; 1; e] => Some e | _ => None end.
Definition scan_value (b : bytes) : option Z := match b with [1; 12; 32; 2; e; _] => Some e | _ => None end.
(** What the controller was last told and accepted: [None] if it was told nothing *)
Definition told {A} (value : bytes -> option A) (log : list (bytes * bool)) : option A :=
  fold_left (fun (x : option A) (p : bytes * bool) => if snd p then match value (fst p) with Some e => Some e | None => x end else x) log None.
Definition advertising (s : gst) : Prop := told adv_value (g_log s) = Some 1.
Definition scanning (s : gst) : Prop := told scan_value (g_log s) = Some 1.
(** The call that was last to say whether the device should advertise (scan), and what it wants *)
Definition last_asked (pick : setting -> option Z) (hist : list (nat * setting)) : option (nat * Z) :=
  fold_left (fun (x : option (nat * Z)) (p : nat * setting) => match pick (snd p) with Some v => Some (fst p, v) | None => x end) hist None.
Definition wants_adv (x : setting) : option Z := match x with SEnable e => Some e | _ => None end.
Definition wants_scan (x : setting) : option Z := match x with SScanOn e => Some e | _ => None end.
Definition returned (s : gst) (t : nat) (ok : bool) : Prop := exists th, nth_error (g_thr s) t = Some th /\ t_ph th = Ended ok.
Definition call_of (s : gst) (t : nat) : option call := option_map t_call (nth_error (g_thr s) t).
(** The steps of one call in a run *)
Definition actor (a : act) : option nat := match a with GStep t | GWrite t _ | GNoBuf t | GAnswer t | GLost t => Some t | _ => None end.
Definition steps_of (l : list act) (t : nat) : nat := length (filter (fun a => match actor a with Some t' => Nat.eqb t' t | None => false end) l).
(** What the types of the Go program allow as arguments *)
Definition kcall_ok (k : call) : Prop := match k with KRaw _ _ p => struct_value adv_fields p | KDial a _ => all_bytes a | _ => True end.
Definition fineh (h : host) : Prop := length (snd (h_ad h)) = 31%nat /\ length (snd (h_sr h)) = 31%nat /\ struct_value adv_fields (h_advp h) /\ struct_value conn_fields (h_connp h).
Definition gact_ok (a : act) : Prop := match a with GCall k => kcall_ok k | _ => True end.
(** LE Set Advertising Data (0x2008) and LE Set Scan Response Data (0x2009): packet type, opcode, length, number of bytes, 31 bytes *)
Definition data_value (b : bytes) : option bytes := match b with 1 :: 8 :: 32 :: 32 :: n :: d => Some (firstn (Z.to_nat n) d) | _ => None end.
Definition rsp_value (b : bytes) : option bytes := match b with 1 :: 9 :: 32 :: 32 :: n :: d => Some (firstn (Z.to_nat n) d) | _ => None end.
(** The payload an advertising call is to put on the air (if it is not too long) *)
Definition payload_of (k : call) : option (bytes * bytes) :=
  match k with KAdv ad sr => if too_long ad sr then None else Some (ad, sr) | KRaw ad sr _ => if too_long ad sr then None else Some (ad, sr) | _ => None end.
Definition latest (s : gst) (t : nat) : Prop := forall t' th', (t < t')%nat -> nth_error (g_thr s) t' = Some th' -> payload_of (t_call th') = None.
(** No advertising call begins before those before it have returned; every other call, and enabling advertising again, at any time. *)
Definition one_at_a_time (h : host) (l : list act) : Prop := forall l1 k l2 s1 t th, l = l1 ++ GCall k :: l2 -> payload_of k <> None -> runs h l1 s1 ->
  nth_error (g_thr s1) t = Some th -> payload_of (t_call th) <> None -> exists ok, t_ph th = Ended ok.
(** Every command is sent, accepted and answered in time. *)
Definition reliable (l : list act) : Prop := Forall (fun a => match a with GWrite _ false | GNoBuf _ | GLost _ => False | _ => True end) l.
(** The step [a] is a failure of call t's command [c]: no command buffer in time, no answer in time, or an answer that refuses it. *)
Definition fails (s : gst) (t : nat) (c : command) (a : act) : Prop := exists th r b,
  nth_error (g_thr s) t = Some th /\ ((a = GNoBuf t /\ t_ph th = Marsh c r b) \/ (a = GLost t /\ exists acc, t_ph th = Written c r acc) \/ (a = GAnswer t /\ t_ph th = Written c r false)).
