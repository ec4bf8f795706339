(** * C182, C183: the texts of error codes *)
Require Import Verif.Base Verif.M_errtext Verif.S_errtext.
Require Import Coq.Strings.Ascii Coq.Strings.String.
Local Open Scope string_scope. Local Open Scope Z_scope.

(** all bytes: a statement checked for each holds for all *)
Lemma bytes_all : forall (P : Z -> bool), forallb P (map Z.of_nat (seq 0 256)) = true -> forall i, 0 <= i < 256 -> P i = true.
Proof.
  intros P H i L. rewrite forallb_forall in H. apply H. apply in_map_iff. exists (Z.to_nat i). split; [lia|]. apply in_seq. lia.
Qed.
Lemma bytes_all2 : forall (P : Z -> Z -> bool), forallb (fun i => forallb (P i) (map Z.of_nat (seq 0 256))) (map Z.of_nat (seq 0 256)) = true ->
  forall i j, 0 <= i < 256 -> 0 <= j < 256 -> P i j = true.
Proof. intros P H i j I J. apply (bytes_all (P i)); [|exact J]. exact (bytes_all (fun i => forallb (P i) _) H i I). Qed.

(** The text of an ATT error code below 0x11 is its name. *)
Theorem C182_att_names : forall i, 0 <= i < 0x11 -> nth_error att_names (Z.to_nat i) = Some (att_error_text i).
Proof.
  intros i H. assert (K : (if i <? 0x11 then match nth_error att_names (Z.to_nat i) with Some s => String.eqb s (att_error_text i) | None => false end else true) = true).
  { apply (bytes_all (fun i => if i <? 0x11 then match nth_error att_names (Z.to_nat i) with Some s => String.eqb s (att_error_text i) | None => false end else true)); [vm_compute; reflexivity|lia]. }
  replace (i <? 0x11) with true in K by lia. destruct (nth_error _ _) as [s|]; [|discriminate K]. apply String.eqb_eq in K. now rewrite K.
Qed.
Print Assumptions C182_att_names.
(** Application codes (0x80 to 0x9F) and reserved ones are shown with their number; codes from 0xE0 on as profile or service error. *)
Theorem C182_att_ranges : forall i, 0 <= i < 256 ->
  (0x80 <= i <= 0x9F -> exists d1 d2, hex_byte i d1 d2 /\ att_error_text i = "application error code (0x" ++ String d1 (String d2 ")")) /\
  (0x12 <= i <= 0x7F \/ 0xA0 <= i <= 0xDF -> exists d1 d2, hex_byte i d1 d2 /\ att_error_text i = "reserved error code (0x" ++ String d1 (String d2 ")")) /\
  (0xE0 <= i -> att_error_text i = "profile or service error").
Proof.
  intros i H.
  assert (D : forall a, 0 <= a < 16 -> exists c, upper_hex a = String c EmptyString /\ nth_error (list_ascii_of_string "0123456789ABCDEF") (Z.to_nat a) = Some c).
  { intros a L. assert (K : exists n, (n < 16)%nat /\ a = Z.of_nat n) by (exists (Z.to_nat a); lia). destruct K as (n & L2 & ->).
    do 16 (destruct n as [|n]; [eexists; split; reflexivity|]). lia. }
  destruct (D (i / 16)) as (c1 & E1 & N1); [split; [apply Z.div_pos; lia|apply Z.div_lt_upper_bound; lia]|].
  destruct (D (i mod 16)) as (c2 & E2 & N2); [apply Z.mod_pos_bound; lia|].
  assert (X : hex_byte i c1 c2).
  { exists (i / 16), (i mod 16). repeat split; try assumption; try (apply Z.div_pos; lia); try (apply Z.div_lt_upper_bound; lia); try (apply Z.mod_pos_bound; lia). apply Z.div_mod. lia. }
  assert (Y : x02 i ++ ")" = String c1 (String c2 ")")) by (unfold x02; rewrite E1, E2; reflexivity).
  unfold att_error_text. rewrite Y. split; [|split].
  - intro L. exists c1, c2. split; [exact X|]. replace (i <? 17) with false by lia. replace ((18 <=? i) && (i <=? 127))%bool with false by lia. replace ((128 <=? i) && (i <=? 159))%bool with true by lia. reflexivity.
  - intros [L|L]; exists c1, c2; (split; [exact X|]).
    + replace (i <? 17) with false by lia. replace ((18 <=? i) && (i <=? 127))%bool with true by lia. reflexivity.
    + replace (i <? 17) with false by lia. replace ((18 <=? i) && (i <=? 127))%bool with false by lia. replace ((128 <=? i) && (i <=? 159))%bool with false by lia.
      replace ((160 <=? i) && (i <=? 223))%bool with true by lia. reflexivity.
  - intro L. replace (i <? 17) with false by lia. replace ((18 <=? i) && (i <=? 127))%bool with false by lia. replace ((128 <=? i) && (i <=? 159))%bool with false by lia.
    replace ((160 <=? i) && (i <=? 223))%bool with false by lia. replace ((224 <=? i) && (i <=? 255))%bool with true by lia. reflexivity.
Qed.
Print Assumptions C182_att_ranges.
(** Different codes below 0xE0 have different texts. *)
Theorem C182_att_distinct : forall i j, 0 <= i < 0xE0 -> 0 <= j < 0xE0 -> att_error_text i = att_error_text j -> i = j.
Proof.
  intros i j I J E. pose (P := fun i j => ((0xE0 <=? i) || (0xE0 <=? j) || (i =? j) || negb (String.eqb (att_error_text i) (att_error_text j)))%bool).
  assert (K : P i j = true) by (apply bytes_all2; [vm_compute; reflexivity|lia|lia]). unfold P in K. rewrite E, String.eqb_refl in K. lia.
Qed.
Print Assumptions C182_att_distinct.
(** The text of a controller error code is its name; a code without a name has the text of Unspecified Error. *)
Theorem C182_hci_names : forall e, 0 <= e < 256 ->
  Some (cmd_error_text e) = match nth_error hci_names (Z.to_nat e) with Some s => Some s | None => nth_error hci_names 0x1F end.
Proof.
  intros e H. pose (P := fun e => match match nth_error hci_names (Z.to_nat e) with Some s => Some s | None => nth_error hci_names 0x1F end with Some s => String.eqb (cmd_error_text e) s | None => false end).
  assert (K : P e = true) by (apply bytes_all; [vm_compute; reflexivity|exact H]). unfold P in K. destruct (match nth_error hci_names (Z.to_nat e) with Some s => Some s | None => _ end); [|discriminate K].
  apply String.eqb_eq in K. now rewrite K.
Qed.
Print Assumptions C182_hci_names.
(** Codes with a name, other than the reserved ones, have different texts. *)
Theorem C182_hci_distinct : forall e f, 0 <= e <= 0x40 -> 0 <= f <= 0x40 -> ~ (hci_reserved e /\ hci_reserved f) -> cmd_error_text e = cmd_error_text f -> e = f.
Proof.
  intros e f I J R E. pose (rs := fun e => ((e =? 0x2B) || (e =? 0x31) || (e =? 0x33))%bool).
  pose (P := fun i j => ((0x40 <? i) || (0x40 <? j) || (i =? j) || (rs i && rs j) || negb (String.eqb (cmd_error_text i) (cmd_error_text j)))%bool).
  assert (K : P e f = true) by (apply bytes_all2; [vm_compute; reflexivity|lia|lia]). unfold P in K. rewrite E, String.eqb_refl in K. unfold hci_reserved in R. unfold rs in K. lia.
Qed.
Print Assumptions C182_hci_distinct.
Example C182_example : att_error_text 0x05 = "insufficient authentication" /\ att_error_text 0x9A = "application error code (0x9A)" /\ cmd_error_text 0x3E = "Connection Failed to be Established" /\ cmd_error_text 0x99 = "Unspecified Error".
Proof. repeat split. Qed.

(** * C183: refuted *)
(** Insufficient Resources (0x11), an error code with a name, has the text "unknown error". *)
Theorem C183_insufficient_resources_refuted : nth_error att_names 0x11 = Some "insufficient resources" /\ att_error_text 0x11 = "unknown error".
Proof. split; reflexivity. Qed.
Print Assumptions C183_insufficient_resources_refuted.
(** The codes from 0xE0 on cannot be told apart. *)
Theorem C183_profile_errors_refuted : forall i j, 0xE0 <= i < 256 -> 0xE0 <= j < 256 -> att_error_text i = att_error_text j.
Proof. intros i j I J. destruct (C182_att_ranges i ltac:(lia)) as (_ & _ & A). destruct (C182_att_ranges j ltac:(lia)) as (_ & _ & B). rewrite A, B by lia. reflexivity. Qed.
Print Assumptions C183_profile_errors_refuted.
