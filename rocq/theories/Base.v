(** Common vocabulary: bytes, Go results, little-endian codecs, slices.
    Nothing here models a particular repo function; it is the meaning given to the Go
    primitives used by the model files. *)
Require Export List ZArith Lia Bool.
Require Export ZifyBool ZifyNat ZifyN.
Export ListNotations.
Open Scope Z_scope.

Ltac Zify.zify_post_hook ::= Z.div_mod_to_equations.

(** A Go [byte]. *)
Definition is_byte (b : Z) : Prop := 0 <= b < 256.
Notation bytes := (list Z).
Definition all_bytes (l : bytes) : Prop := Forall is_byte l.

(** Go conversions [byte(x)], [uint16(x)] of a non-negative or negative integer. *)
Definition u8 (x : Z) : Z := x mod 256.
Definition u16 (x : Z) : Z := x mod 65536.

(** Result of running Go code: a value, or a run-time panic. *)
Inductive go (A : Type) : Type :=
| Ret (a : A)
| Panic.
Arguments Ret {A} a.
Arguments Panic {A}.

Definition gbind {A B} (x : go A) (f : A -> go B) : go B :=
  match x with Ret a => f a | Panic => Panic end.
Notation "'let!' x := e 'in' k" := (gbind e (fun x => k))
  (at level 200, x pattern, e at level 100, k at level 200, right associativity).

(** [b[i]] and [b[i:j]], [b[i:]] with Go's bounds checks (capacity = length). *)
Definition gidx {A} (b : list A) (i : nat) : go A :=
  match nth_error b i with Some x => Ret x | None => Panic end.
Definition gslice {A} (b : list A) (i j : nat) : go (list A) :=
  if (Nat.leb i j && Nat.leb j (length b))%bool then Ret (firstn (j - i) (skipn i b)) else Panic.
Definition gfrom {A} (b : list A) (i : nat) : go (list A) :=
  if Nat.leb i (length b) then Ret (skipn i b) else Panic.

(** Little-endian encodings ([encoding/binary.LittleEndian]). *)
Definition le16 (x : Z) : bytes := [u8 x; u8 (x / 256)].
Definition be16 (x : Z) : bytes := [u8 (x / 256); u8 x].
Definition de16 (b0 b1 : Z) : Z := b0 + 256 * b1.
(** [binary.LittleEndian.Uint16(b)]: panics on a slice shorter than 2. *)
Definition gle16 (b : bytes) : go Z :=
  match b with b0 :: b1 :: _ => Ret (de16 b0 b1) | _ => Panic end.

Fixpoint le_bytes (n : nat) (x : Z) : bytes :=
  match n with O => [] | S n' => u8 x :: le_bytes n' (x / 256) end.
Fixpoint le_val (l : bytes) : Z :=
  match l with [] => 0 | b :: r => b + 256 * le_val r end.

Fixpoint beq_bytes (a b : bytes) : bool :=
  match a, b with
  | [], [] => true
  | x :: a', y :: b' => (x =? y) && beq_bytes a' b'
  | _, _ => false
  end.

Lemma beq_bytes_eq : forall a b, beq_bytes a b = true <-> a = b.
Proof.
  induction a as [|x a IH]; destruct b as [|y b]; simpl; split; intro H; try easy.
  - apply andb_true_iff in H. destruct H as [H1 H2].
    apply Z.eqb_eq in H1. apply IH in H2. congruence.
  - inversion H; subst. rewrite Z.eqb_refl. simpl. now apply IH.
Qed.

Lemma beq_bytes_refl : forall a, beq_bytes a a = true.
Proof. intro a. now apply beq_bytes_eq. Qed.

Lemma beq_bytes_neq : forall a b, beq_bytes a b = false <-> a <> b.
Proof.
  intros a b. destruct (beq_bytes a b) eqn:E.
  - apply beq_bytes_eq in E. split; congruence.
  - split; try congruence. intros _ H. apply beq_bytes_eq in H. congruence.
Qed.

Lemma bytes_eq_dec : forall a b : bytes, {a = b} + {a <> b}.
Proof. apply list_eq_dec, Z.eq_dec. Qed.

Lemma u8_byte : forall x, is_byte (u8 x).
Proof. intro x. unfold is_byte, u8. lia. Qed.

Lemma u8_id : forall x, is_byte x -> u8 x = x.
Proof. intros x H. unfold is_byte, u8 in *. now apply Z.mod_small. Qed.

Lemma le16_length : forall x, length (le16 x) = 2%nat.
Proof. reflexivity. Qed.

Lemma le16_bytes : forall x, all_bytes (le16 x).
Proof. intro x. repeat constructor; apply u8_byte. Qed.

Lemma de16_le16 : forall x, 0 <= x < 65536 -> de16 (u8 x) (u8 (x / 256)) = x.
Proof. intros x H. unfold de16, u8. lia. Qed.

Lemma le16_de16 : forall a b, is_byte a -> is_byte b -> le16 (de16 a b) = [a; b].
Proof. intros a b Ha Hb. unfold le16, de16, u8, is_byte in *. f_equal; [|f_equal]; lia. Qed.

Lemma de16_range : forall a b, is_byte a -> is_byte b -> 0 <= de16 a b < 65536.
Proof. intros a b Ha Hb. unfold de16, is_byte in *. lia. Qed.

Lemma le_bytes_length : forall n x, length (le_bytes n x) = n.
Proof. induction n as [|n IH]; intro x; simpl; [reflexivity|now rewrite IH]. Qed.

Lemma le_bytes_bytes : forall n x, all_bytes (le_bytes n x).
Proof. induction n as [|n IH]; intro x; simpl; constructor; [apply u8_byte|apply IH]. Qed.

Lemma le_val_le_bytes : forall n x, 0 <= x < 256 ^ Z.of_nat n -> le_val (le_bytes n x) = x.
Proof.
  induction n as [|n IH]; intros x H.
  - simpl in *. lia.
  - cbn [le_bytes le_val]. rewrite IH.
    + unfold u8. lia.
    + rewrite Nat2Z.inj_succ, Z.pow_succ_r in H by lia.
      split; [apply Z.div_pos; lia|]. apply Z.div_lt_upper_bound; lia.
Qed.

Lemma le_val_range : forall l, all_bytes l -> 0 <= le_val l < 256 ^ Z.of_nat (length l).
Proof.
  induction l as [|b l IH]; intro H; cbn [le_val length].
  - simpl. lia.
  - inversion H as [|? ? Hb Hl]; subst. specialize (IH Hl).
    rewrite Nat2Z.inj_succ, Z.pow_succ_r by lia. unfold is_byte in Hb. lia.
Qed.

Lemma le_bytes_le_val : forall l, all_bytes l -> le_bytes (length l) (le_val l) = l.
Proof.
  induction l as [|b l IH]; intro H; cbn [le_val length le_bytes]; [reflexivity|].
  inversion H as [|? ? Hb Hl]; subst. specialize (IH Hl).
  f_equal.
  - unfold u8, is_byte in *. lia.
  - replace ((b + 256 * le_val l) / 256) with (le_val l) by (unfold is_byte in Hb; lia). exact IH.
Qed.

Lemma firstn_app_exact : forall {A} (a b : list A), firstn (length a) (a ++ b) = a.
Proof. intros A a b. rewrite firstn_app, Nat.sub_diag, firstn_all, firstn_O. apply app_nil_r. Qed.

Lemma skipn_app_exact : forall {A} (a b : list A), skipn (length a) (a ++ b) = b.
Proof. intros A a b. rewrite skipn_app, Nat.sub_diag, skipn_all, skipn_O. reflexivity. Qed.

Lemma gslice_ok : forall {A} (b : list A) i j, (i <= j)%nat -> (j <= length b)%nat ->
  gslice b i j = Ret (firstn (j - i) (skipn i b)).
Proof.
  intros A b i j H1 H2. unfold gslice.
  rewrite (proj2 (Nat.leb_le _ _) H1), (proj2 (Nat.leb_le _ _) H2). reflexivity.
Qed.

Lemma gfrom_ok : forall {A} (b : list A) i, (i <= length b)%nat -> gfrom b i = Ret (skipn i b).
Proof. intros A b i H. unfold gfrom. now rewrite (proj2 (Nat.leb_le _ _) H). Qed.

Lemma gidx_ok : forall {A} (b : list A) i, (i < length b)%nat -> exists x, gidx b i = Ret x.
Proof.
  intros A b i H. unfold gidx. destruct (nth_error b i) eqn:E; [eauto|].
  apply nth_error_None in E. lia.
Qed.

Lemma gidx_panic : forall {A} (b : list A) i, (length b <= i)%nat -> gidx b i = Panic.
Proof. intros A b i H. unfold gidx. now rewrite (proj2 (nth_error_None b i) H). Qed.

Lemma gslice_app : forall {A} (a b c : list A),
  gslice (a ++ b ++ c) (length a) (length a + length b) = Ret b.
Proof.
  intros A a b c. rewrite gslice_ok.
  - rewrite skipn_app_exact. replace (length a + length b - length a)%nat with (length b) by lia.
    now rewrite firstn_app_exact.
  - lia.
  - rewrite !app_length. lia.
Qed.

Lemma Forall_firstn : forall {A} (P : A -> Prop) n l, Forall P l -> Forall P (firstn n l).
Proof.
  intros A P n l H. revert n. induction H as [|x l Hx Hl IH]; intros [|n]; simpl; constructor; auto.
Qed.
Lemma Forall_skipn : forall {A} (P : A -> Prop) n l, Forall P l -> Forall P (skipn n l).
Proof.
  intros A P n l H. revert n. induction H as [|x l Hx Hl IH]; intros [|n]; simpl; auto.
Qed.

(** [b[i] = x] with Go's bounds check. *)
Fixpoint upd {A} (b : list A) (i : nat) (x : A) : list A :=
  match b, i with
  | [], _ => []
  | _ :: r, O => x :: r
  | y :: r, S i' => y :: upd r i' x
  end.
Definition gset {A} (b : list A) (i : nat) (x : A) : go (list A) :=
  if Nat.ltb i (length b) then Ret (upd b i x) else Panic.

Lemma upd_length : forall {A} (b : list A) i x, length (upd b i x) = length b.
Proof. intros A b. induction b as [|y b IH]; intros [|i] x; simpl; auto. Qed.

Lemma upd_app_r : forall {A} (a b : list A) x y, upd (a ++ x :: b) (length a) y = a ++ y :: b.
Proof. intros A a. induction a as [|z a IH]; intros b x y; simpl; [reflexivity|now rewrite IH]. Qed.

Lemma nth_error_upd : forall {A} (b : list A) i j x,
  nth_error (upd b i x) j = if Nat.eqb i j then (if Nat.ltb i (length b) then Some x else None) else nth_error b j.
Proof.
  intros A b. induction b as [|y b IH]; intros i j x.
  - destruct i, j; simpl; try reflexivity. destruct (Nat.eqb i j); reflexivity.
  - destruct i, j; simpl; try reflexivity.
    rewrite IH. destruct (Nat.eqb i j); [|reflexivity].
    change (Nat.ltb (S i) (S (length b))) with (Nat.ltb i (length b)). reflexivity.
Qed.

Lemma firstn_snoc : forall {A} (u : list A) i x, nth_error u i = Some x -> firstn (S i) u = firstn i u ++ [x].
Proof.
  intros A u. induction u as [|y u IH]; intros [|i] x E; try discriminate.
  - simpl in *. congruence.
  - simpl in E. change (firstn (S (S i)) (y :: u)) with (y :: firstn (S i) u).
    rewrite (IH i x E). reflexivity.
Qed.

Lemma gset_ok : forall {A} (b : list A) i x, (i < length b)%nat -> gset b i x = Ret (upd b i x).
Proof. intros A b i x H. unfold gset. now rewrite (proj2 (Nat.ltb_lt _ _) H). Qed.
