(** Model of uuid.go, addr.go, sliceops/swap.go.  Strings are lists of byte codes. *)
Require Import Verif.Base.

Definition ch_dash : Z := 45.
Definition ch_colon : Z := 58.

(** strings.Replace(s, c, "", -1) for a one-byte c, as used in uuid.go:24 and addr.go:27. *)
Definition remove_ch (c : Z) (s : bytes) : bytes := filter (fun x => negb (x =? c)) s.

(** encoding/hex fromHexChar. *)
Definition from_hex (c : Z) : option Z :=
  if (48 <=? c) && (c <=? 57) then Some (c - 48)
  else if (97 <=? c) && (c <=? 102) then Some (c - 97 + 10)
  else if (65 <=? c) && (c <=? 70) then Some (c - 65 + 10)
  else None.

(** encoding/hex DecodeString: (decoded bytes before the first error, no error). *)
Fixpoint hex_decode (s : bytes) : bytes * bool :=
  match s with
  | [] => ([], true)
  | c1 :: r1 =>
      match r1 with
      | [] => ([], false)
      | c2 :: r =>
          match from_hex c1, from_hex c2 with
          | Some h, Some l => let (b, ok) := hex_decode r in ((16 * h + l) :: b, ok)
          | _, _ => ([], false)
          end
      end
  end.

(** fmt's %x of a byte slice: lower-case hex, two digits per byte. *)
Definition hex_digit (v : Z) : Z := if v <? 10 then 48 + v else 97 + (v - 10).
Definition hex_encode (b : bytes) : bytes := flat_map (fun x => [hex_digit (x / 16); hex_digit (x mod 16)]) b.

(** uuid.go:15-19 UUID16 *)
Definition uuid16 (i : Z) : bytes := le16 i.

(** uuid.go:45-52 lenErr: true = no error *)
Definition len_ok (n : nat) : bool := Nat.eqb n 2 || Nat.eqb n 16.

(** uuid.go:85-95 Reverse: the loop of indexed stores into a fresh slice *)
Fixpoint reverse_loop (u : bytes) (l i : nat) (fuel : nat) (b : bytes) : go bytes :=
  match fuel with
  | O => Ret b
  | S f =>
      let! x := gidx u i in
      let! b' := gset b (l - i - 1) x in
      reverse_loop u l (S i) f b'
  end.
Definition Reverse (u : bytes) : go bytes :=
  let l := length u in reverse_loop u l 0 l (repeat 0 l).

(** sliceops/swap.go:3-12 SwapBuf: swap loop from the middle down to index 0.
    [i] counts len/2 .. 1, the Go index being i-1. *)
Fixpoint swap_loop (i : nat) (a : bytes) : go bytes :=
  match i with
  | O => Ret a
  | S i' =>
      let opp := (length a - 1 - i')%nat in
      let! x := gidx a i' in
      let! y := gidx a opp in
      let! a1 := gset a i' y in
      let! a2 := gset a1 opp x in
      swap_loop i' a2
  end.
Definition SwapBuf (a : bytes) : go bytes := swap_loop (length a / 2) a.

(** uuid.go:23-33 Parse: [Ret None] is a returned error. *)
Definition uuid_parse (s : bytes) : go (option bytes) :=
  let (b, ok) := hex_decode (remove_ch ch_dash s) in
  if negb ok then Ret None
  else if negb (len_ok (length b)) then Ret None
  else let! r := Reverse b in Ret (Some r).

(** uuid.go:37-43 MustParse *)
Definition must_parse (s : bytes) : go bytes :=
  let! r := uuid_parse s in match r with Some u => Ret u | None => Panic end.

(** uuid.go:61-63 String *)
Definition uuid_string (u : bytes) : go bytes := let! r := Reverse u in Ret (hex_encode r).

(** uuid.go:66-68 Equal (bytes.Equal) *)
Definition uuid_equal (u v : bytes) : bool := beq_bytes u v.

(** uuid.go:71-83 Contains; None models a nil slice. *)
Fixpoint contains_loop (s : list bytes) (u : bytes) : bool :=
  match s with
  | [] => false
  | a :: r => if uuid_equal a u then true else contains_loop r u
  end.
Definition contains (s : option (list bytes)) (u : bytes) : bool :=
  match s with None => false | Some l => contains_loop l u end.

(** strings.ToLower on ASCII bytes (simplification: non-ASCII bytes are left alone; Go maps
    non-ASCII Unicode letters too, so the theorems about addresses require ASCII input). *)
Definition to_lower_ch (c : Z) : Z := if (65 <=? c) && (c <=? 90) then c + 32 else c.
Definition to_lower (s : bytes) : bytes := map to_lower_ch s.

(** addr.go:16-18 NewAddr; addr.go:22-24 String *)
Definition new_addr (s : bytes) : bytes := to_lower s.
Definition addr_string (a : bytes) : bytes := a.
(** addr.go:26-35 Bytes: on a decoding error the bytes decoded so far are returned (and the error logged). *)
Definition addr_bytes (a : bytes) : bytes := fst (hex_decode (remove_ch ch_colon (addr_string a))).
