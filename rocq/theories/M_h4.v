(** Model of linux/hci/h4/frame.go: reassembly of HCI packets from the UART / socket byte stream. *)
Require Import Verif.Base.

(** frame.go:15-20.  [fr_to] is the deadline (ms), None = the zero time.  The nil/allocated distinction of b is
    dropped: Assemble treats a nil b by resetting to an empty one (frame.go:42-44). *)
Record frame := mkFrame { fr_b : bytes; fr_to : option Z; fr_evt : Z }.
(** frame.go:22-29 newFrame *)
Definition new_frame : frame := mkFrame [] None 0.
(** frame.go:78-81 reset *)
Definition fr_reset (f : frame) : frame := mkFrame [] None (fr_evt f).

(** frame.go:88-103: index of the first start byte and that byte *)
Fixpoint find_start (b : bytes) (i : nat) : option (nat * Z) :=
  match b with
  | [] => None
  | v :: r => if (v =? 4) || (v =? 2) then Some (i, v) else find_start r (S i)
  end.
(** frame.go:83-111 waitStart; [now] is time.Now(), the clock being constant during one call to Assemble. *)
Definition wait_start (f : frame) (now : Z) (b : bytes) : go (option frame) :=
  match find_start b 0 with
  | None => Ret None
  | Some (i, v) => let! r := gfrom b i in Ret (Some (mkFrame (fr_b f ++ r) (Some (now + 500)) v))
  end.
(** frame.go:124-130 eventLength *)
Definition event_length (f : frame) : go (option nat) :=
  if Nat.ltb (length (fr_b f)) 3 then Ret None
  else let! x := gidx (fr_b f) 2 in Ret (Some (Z.to_nat x + 3)%nat).
(** frame.go:132-139 aclLength *)
Definition acl_length (f : frame) : go (option nat) :=
  if Nat.ltb (length (fr_b f)) 5 then Ret None
  else let! x := gidx (fr_b f) 3 in let! y := gidx (fr_b f) 4 in Ret (Some (Z.to_nat (x + 256 * y) + 5)%nat).
(** frame.go:113-122 dataLength *)
Definition data_length (f : frame) : go (option nat) :=
  if fr_evt f =? 2 then acl_length f else if fr_evt f =? 4 then event_length f else Ret None.
(** frame.go:141-151 frame *)
Definition fr_frame (f : frame) : go (option bytes) :=
  let! l := data_length f in
  match l with
  | None => Ret None
  | Some tl => if Nat.ltb (length (fr_b f)) tl then Ret None
               else let! r := gslice (fr_b f) 0 tl in Ret (Some r)
  end.

(** frame.go:31-76 Assemble: the packets sent to the out channel, in order (a blocked send only delays).
    The recursion on the remainder is fuelled by its length; running out is proved impossible. *)
Fixpoint assemble (fuel : nat) (f : frame) (now : Z) (b : bytes) : go (frame * list bytes) :=
  match fuel with
  | O => Panic
  | S fuel' =>
    match b with
    | [] => Ret (f, [])
    | _ =>
      let f1 := match fr_to f with Some t => if t <? now then fr_reset f else f | None => f end in
      let! w := (match fr_b f1 with
                 | [] => wait_start f1 now b
                 | _ => Ret (Some (mkFrame (fr_b f1 ++ b) (fr_to f1) (fr_evt f1)))
                 end) in
      match w with
      | None => Ret (f1, [])
      | Some f2 =>
        let! r := fr_frame f2 in
        match r with
        | None => Ret (f2, [])
        | Some rf =>
          if Nat.ltb (length rf) (length (fr_b f2)) then
            let! rem := gfrom (fr_b f2) (length rf) in
            let! x := assemble fuel' (fr_reset f2) now rem in
            Ret (fst x, rf :: snd x)
          else Ret (fr_reset f2, [rf])
        end
      end
    end
  end.
Definition Assemble (f : frame) (now : Z) (b : bytes) : go (frame * list bytes) := assemble (S (length (fr_b f) + length b)) f now b.

(** h4.go:187-220 rxLoop: each successful read (arrival time, bytes) is passed to Assemble. *)
Fixpoint rx_run (f : frame) (chunks : list (Z * bytes)) : go (frame * list bytes) :=
  match chunks with
  | [] => Ret (f, [])
  | (t, b) :: r =>
      let! x := Assemble f t b in
      let! y := rx_run (fst x) r in
      Ret (fst y, snd x ++ snd y)
  end.
