(** Specification vocabulary for UUID and address text (independent of the model). *)
Require Import Verif.Base.

(** c is a hexadecimal digit (either case) of value v. *)
Definition hex_digit_val (c v : Z) : Prop :=
  (0 <= v <= 9 /\ c = 48 + v) \/ (10 <= v <= 15 /\ (c = 97 + (v - 10) \/ c = 65 + (v - 10))).

(** [hex_text s b]: the text s is the hexadecimal notation (two digits per byte, any case) of b. *)
Inductive hex_text : bytes -> bytes -> Prop :=
| ht_nil : hex_text [] []
| ht_cons : forall c1 c2 h l s b,
    hex_digit_val c1 h -> hex_digit_val c2 l -> hex_text s b ->
    hex_text (c1 :: c2 :: s) ((16 * h + l) :: b).

(** s with every occurrence of c erased: as a relation. *)
Inductive erased (c : Z) : bytes -> bytes -> Prop :=
| er_nil : erased c [] []
| er_drop : forall s t, erased c s t -> erased c (c :: s) t
| er_keep : forall x s t, x <> c -> erased c s t -> erased c (x :: s) (x :: t).

(** Two characters that differ at most in ASCII letter case. *)
Definition same_letter (a b : Z) : Prop :=
  a = b \/ (65 <= a <= 90 /\ b = a + 32) \/ (65 <= b <= 90 /\ a = b + 32).
