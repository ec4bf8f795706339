(** Model of the handling of advertising reports (linux/hci/hci.go:609-737) while Scan (linux/hci/gap.go:29-38) replaces the history: the two run in
    different goroutines without synchronisation.  Advertisements are objects: the history, the handler's user and the scan
    response handling share them.  Every read and write of h.adHist, h.adLast and of a slot is one step, in any interleaving;
    a report of a type without history (M_advrep), decoding, and SetAdvHandler are not split.  Simplifications: a slice header is read
    and written at once (Go promises less for unsynchronised accesses); setScanResponse's two assignments to the object
    (adv.go:81-82) are one step; the call of the handler (726-730) is one step. *)
Require Import Verif.Base Verif.M_advrep.

(** Where the event loop is.  [sr] is the advertisement made of a scan response. *)
Inductive lpc :=
| LIdle
| LStore (a : nat)                          (* 648: about to read h.adHist *)
| LStore2 (a : nat) (c : option nat)        (* 648: about to read h.adLast, then to store *)
| LInc (a : nat) | LInc2 (a : nat) (v : Z)  (* 649 *)
| LChk (a : nat) | LZero (a : nat)          (* 650, 651 *)
| LOut (a : nat)                            (* 726-730 *)
| SStart (sr : advert)                      (* 663 *)
| SCmp (sr : advert) (idx : Z)              (* 663: idx != h.adLast; 664 *)
| SWrap (sr : advert) | SWrap2 (sr : advert) (idx : Z)   (* 665, 666 *)
| SNil (sr : advert) (idx : Z)              (* 670 *)
| SAddr (sr : advert) (idx : Z)             (* 675-689 *)
| SSet (sr : advert) (idx : Z)              (* 691 *)
| SRes (sr : advert) (idx : Z)              (* 696, 703 *)
| LNil                                      (* crashed: a nil history entry used, or an index out of range *)
| LDied.                                    (* crashed in the decoder (C04) *)
(** A call of Scan: 0, 1 or 2 of its assignments to the history made. *)
Record rst := mkR { r_heap : list advert; r_rings : list (list (option nat)); r_cur : option nat; r_last : Z; r_loop : lpc; r_scan : list nat; r_out : list nat }.
Definition with_loop (s : rst) (p : lpc) : rst := mkR (r_heap s) (r_rings s) (r_cur s) (r_last s) p (r_scan s) (r_out s).
Definition with_last (s : rst) (v : Z) : rst := mkR (r_heap s) (r_rings s) (r_cur s) v (r_loop s) (r_scan s) (r_out s).
Definition with_heap (s : rst) (h : list advert) : rst := mkR h (r_rings s) (r_cur s) (r_last s) (r_loop s) (r_scan s) (r_out s).
Definition arr (s : rst) (c : option nat) : list (option nat) := match c with Some c => nth c (r_rings s) [] | None => [] end.
(** h.adHist[idx]: None is an index out of range *)
Definition slot (s : rst) (idx : Z) : option (option nat) := if idx <? 0 then None else nth_error (arr s (r_cur s)) (Z.to_nat idx).
Definition hist_size : nat := 128.
Definition entry (s : rst) (id : nat) : advert := nth id (r_heap s) (mkAd [] 0 None [] M_adv.empty_map).

(** hci.go:609-661, 707-719: decoding; a new object for an advertisement *)
Definition begin (s : rst) (e : bytes) : rst :=
  let fresh k := match new_advertisement e 0 with Panic => with_loop s LDied | Ret None => s | Ret (Some a) => k a end in
  match num_reports e with
  | Ret (Some n) =>
      if n =? 1 then
        match event_type e 0 with
        | Ret (Some t) =>
            if (t =? 0) || (t =? 2) then fresh (fun a => with_loop (with_heap s (r_heap s ++ [a])) (LStore (length (r_heap s))))
            else if t =? 4 then fresh (fun a => with_loop s (SStart a))
            else if (t =? 1) || (t =? 3) then fresh (fun a => with_loop (with_heap s (r_heap s ++ [a])) (LOut (length (r_heap s))))
            else s
        | Ret None => s
        | Panic => with_loop s LDied
        end
      else s
  | Ret None => s
  | Panic => with_loop s LDied
  end.
Definition loop_step (s : rst) : option rst :=
  match r_loop s with
  | LIdle | LNil | LDied => None
  | LStore a => Some (with_loop s (LStore2 a (r_cur s)))
  | LStore2 a c =>
      let i := r_last s in
      if (0 <=? i) && (i <? Z.of_nat (length (arr s c)))
      then Some (mkR (r_heap s) (match c with Some c => upd (r_rings s) c (upd (nth c (r_rings s) []) (Z.to_nat i) (Some a)) | None => r_rings s end) (r_cur s) i (LInc a) (r_scan s) (r_out s))
      else Some (with_loop s LNil)
  | LInc a => Some (with_loop s (LInc2 a (r_last s)))
  | LInc2 a v => Some (with_loop (with_last s (v + 1)) (LChk a))
  | LChk a => Some (with_loop s (if r_last s =? Z.of_nat (length (arr s (r_cur s))) then LZero a else LOut a))
  | LZero a => Some (with_loop (with_last s 0) (LOut a))
  | LOut a => Some (mkR (r_heap s) (r_rings s) (r_cur s) (r_last s) LIdle (r_scan s) (r_out s ++ [a]))
  | SStart sr => Some (with_loop s (SCmp sr (r_last s - 1)))
  | SCmp sr idx => Some (with_loop s (if idx =? r_last s then LIdle else if idx =? -1 then SWrap sr else SNil sr idx))
  | SWrap sr => Some (with_loop s (SWrap2 sr (Z.of_nat (length (arr s (r_cur s))) - 1)))
  | SWrap2 sr idx => Some (with_loop s (if idx =? r_last s then LIdle else SNil sr idx))
  | SNil sr idx => Some (with_loop s (match slot s idx with None => LNil | Some None => LIdle | Some (Some _) => SAddr sr idx end))
  | SAddr sr idx =>
      match slot s idx with
      | Some (Some id) =>
          match ad_addr (entry s id) with
          | Panic => Some (with_loop s LDied)
          | Ret None => Some (with_loop s LIdle)
          | Ret (Some ah) =>
              match ad_addr sr with
              | Panic => Some (with_loop s LDied)
              | Ret None => Some (with_loop s LIdle)
              | Ret (Some asr) => Some (with_loop s (if beq_bytes (fst ah) (fst asr) then SSet sr idx else SCmp sr (idx - 1)))
              end
          end
      | _ => Some (with_loop s LNil)
      end
  | SSet sr idx =>
      match slot s idx with
      | Some (Some id) =>
          match set_scan_response (entry s id) sr with
          | Panic => Some (with_loop s LDied)
          | Ret None => Some (with_loop s LIdle)
          | Ret (Some a) => Some (with_loop (with_heap s (upd (r_heap s) id a)) (SRes sr idx))
          end
      | _ => Some (with_loop s LNil)
      end
  | SRes sr idx => Some (with_loop s (match slot s idx with None => LNil | Some None => LIdle | Some (Some id) => LOut id end))
  end.
(** [RReport e]: the loop takes the next report; [RLoop]: its next step; [RScan]: a call of Scan begins; [RScanStep t]: its next assignment. *)
Inductive act := RReport (e : bytes) | RLoop | RScan | RScanStep (t : nat).
Definition exec (s : rst) (a : act) : option rst :=
  match a with
  | RReport e => match r_loop s with LIdle => Some (begin s e) | _ => None end
  | RLoop => loop_step s
  | RScan => Some (mkR (r_heap s) (r_rings s) (r_cur s) (r_last s) (r_loop s) (r_scan s ++ [0%nat]) (r_out s))
  | RScanStep t =>
      match nth_error (r_scan s) t with
      | Some O => Some (mkR (r_heap s) (r_rings s ++ [repeat None hist_size]) (Some (length (r_rings s))) (r_last s) (r_loop s) (upd (r_scan s) t 1%nat) (r_out s))
      | Some (S O) => Some (mkR (r_heap s) (r_rings s) (r_cur s) 0 (r_loop s) (upd (r_scan s) t 2%nat) (r_out s))
      | _ => None
      end
  end.
Fixpoint exec_all (s : rst) (l : list act) : option rst :=
  match l with [] => Some s | a :: r => match exec s a with Some s' => exec_all s' r | None => None end end.
(** The device before the first Scan *)
Definition r0 : rst := mkR [] [] None 0 LIdle [] [].
