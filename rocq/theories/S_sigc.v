(** Specification of C191, C192: signaling calls at the same time. *)
Require Import Verif.Base Verif.M_coc Verif.M_sigc.
Definition runs (l : list act) (s : sst) : Prop := exec_all s0 l = Some s.
(** Call t has returned; for a call of Open, [Some r]: a channel to the peer's channel r. *)
Definition returned (s : sst) (t : nat) (r : option Z) : Prop := exists th, nth_error (s_thr s) t = Some th /\ t_ph th = PDone r.
Definition opens (s : sst) (t : nat) (psm cid : Z) : Prop := exists th, nth_error (s_thr s) t = Some th /\ t_call th = KOpen psm /\ t_cid th = cid.
(** LE Credit Based Connection Response (code 0x15) with result 0: destination channel, MTU, MPS, credits, result, little endian; what follows is ignored *)
Definition grants (c : incoming) (r : Z) : Prop := i_code c = 21 /\
  exists d0 d1 m0 m1 p0 p1 k0 k1 rest, i_data c = d0 :: d1 :: m0 :: m1 :: p0 :: p1 :: k0 :: k1 :: 0 :: 0 :: rest /\ r = d0 + 256 * d1.
Definition granting (c : incoming) : bool := (i_code c =? 21) && match i_data c with _ :: _ :: _ :: _ :: _ :: _ :: _ :: _ :: 0 :: 0 :: _ => true | _ => false end.
Definition in_bytes (l : list act) : Prop := Forall (fun a => match a with AIncoming c _ => all_bytes (i_data c) | _ => True end) l.
(** LE Credit Based Connection Request (code 0x14) with identifier [id] on the signaling channel 5: PSM, source channel, MTU 64, MPS 64, 2 credits *)
Definition open_request (id psm cid : Z) : bytes := [14; 0; 5; 0; 20; id; 10; 0] ++ le16 psm ++ le16 cid ++ [64; 0; 64; 0; 2; 0].
(** Between reading c.sigID for incrementing it and the last use of it before sending *)
Definition preparing (s : sst) (t : nat) : Prop := exists th, nth_error (s_thr s) t = Some th /\ match t_ph th with PIncW _ | PTest | PFix | PBuild | PReg | PDefer => True | _ => False end.
(** No two calls prepare their requests at the same time; waiting for answers, writing, and all else may overlap. *)
Definition apart (l : list act) : Prop := forall l1 l2 s t t', l = l1 ++ l2 -> runs l1 s -> preparing s t -> preparing s t' -> t = t'.
Definition actor (a : act) : option nat := match a with AStep t | AWrite t _ | ATimeout t => Some t | _ => None end.
Definition steps_of (l : list act) (t : nat) : nat := length (filter (fun a => match actor a with Some t' => Nat.eqb t' t | None => false end) l).
Definition opened (th : thr) : bool := match t_call th, t_ph th with KOpen _, PDone (Some _) => true | _, _ => false end.
