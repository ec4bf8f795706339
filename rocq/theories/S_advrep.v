(** LE Advertising Report event layout, Core Spec Vol 4 Part E 7.7.65.2 (fields of all reports grouped by kind). *)
Require Import Verif.Base.

Record report := mkRep { r_type : Z; r_addrtype : Z; r_addr : bytes; r_data : bytes; r_rssi : Z (* raw byte *) }.
Definition report_ok (r : report) : Prop :=
  is_byte (r_type r) /\ is_byte (r_addrtype r) /\ length (r_addr r) = 6%nat /\ (length (r_data r) <= 255)%nat /\ is_byte (r_rssi r).
Definition enc_reports (rs : list report) : bytes :=
  [2; Z.of_nat (length rs)] ++ map r_type rs ++ map r_addrtype rs ++ flat_map r_addr rs
  ++ map (fun r => Z.of_nat (length (r_data r))) rs ++ flat_map r_data rs ++ map r_rssi rs.
(** two's complement of a byte *)
Definition signed8 (x : Z) : Z := if Z.ltb x 128 then x else x - 256.

(** ---- what a scan should report (C08) ----
    The history is the unbounded list of accepted connectable/scannable advertisements, newest first, each with the
    scan response (if any) attached to it so far. [accept] is the payload decoder's verdict on an advertising payload. *)
Notation entry := (report * option report)%type.
Definition entry_data (x : entry) : bytes :=
  r_data (fst x) ++ match snd x with Some s => r_data s | None => [] end.
(** position of the newest of the first k advertisements that came from the address of s *)
Fixpoint newest_from (k : nat) (h : list entry) (s : report) : option nat :=
  match k, h with
  | S k', x :: t => if beq_bytes (r_addr (fst x)) (r_addr s) then Some 0%nat else option_map S (newest_from k' t s)
  | _, _ => None
  end.
Section Spec.
  Variable accept : bytes -> go bool.
  Variable window : nat.
  (** one report: the new history and the entry handed to the user *)
  Definition scan_step (h : list entry) (r : report) : go (list entry * option entry) :=
    let t := r_type r in
    let! ok := accept (r_data r) in
    if negb ok then Ret (h, None)
    else if (t =? 0) || (t =? 2) then Ret ((r, None) :: h, Some (r, None))
    else if (t =? 1) || (t =? 3) then Ret (h, Some (r, None))
    else match newest_from window h r with
         | None => Ret (h, None)
         | Some j => match nth_error h j with
                     | None => Ret (h, None)
                     | Some x => let y := (fst x, Some r) in
                                 let! ok2 := accept (entry_data y) in
                                 if ok2 then Ret (upd h j y, Some y) else Ret (h, None)
                     end
         end.
  Fixpoint scan_run (h : list entry) (rs : list report) : go (list entry * list (option entry)) :=
    match rs with
    | [] => Ret (h, [])
    | r :: t => let! x := scan_step h r in let! y := scan_run (fst x) t in Ret (fst y, snd x :: snd y)
    end.
End Spec.
