(** Proofs about L2CAP signaling and credit based channels. *)
Require Import Verif.Base Verif.M_attsrv Verif.M_gattcli Verif.M_coc Verif.S_coc Verif.P_gattcli Verif.P_gattcli3.

(** ---- lists and maps ---- *)
Lemma sumZ_app : forall {A} (f : A -> Z) a b, sumZ f (a ++ b) = sumZ f a + sumZ f b.
Proof. intros A f a b. unfold sumZ. induction a as [|x a IH]; cbn [app fold_right]; [lia|]. rewrite IH. lia. Qed.
Lemma sumZ_upd : forall {A} (f : A -> Z) l k x y, nth_error l k = Some x -> sumZ f (upd l k y) = sumZ f l - f x + f y.
Proof.
  intros A f l. induction l as [|z l IH]; intros [|k] x y H; try discriminate; cbn [nth_error upd] in *; unfold sumZ in *; cbn [fold_right].
  - injection H as ->. lia.
  - rewrite (IH _ _ y H). lia.
Qed.
Lemma sumZ_nonneg : forall {A} (f : A -> Z) l, (forall x, In x l -> 0 <= f x) -> 0 <= sumZ f l.
Proof. intros A f l. unfold sumZ. induction l as [|x l IH]; intro H; cbn [fold_right]; [lia|]. assert (H1 := H x (or_introl eq_refl)). assert (H2 : 0 <= fold_right (fun x a => f x + a) 0 l) by (apply IH; intros y Y; apply H; now right). lia. Qed.
Lemma frames_app : forall cid a b, frames_on cid (a ++ b) = frames_on cid a + frames_on cid b.
Proof. intros cid a b. unfold frames_on. rewrite filter_app, app_length. lia. Qed.
Lemma aset_keys : forall {V} (m : list (Z * V)) k v x, In x (map fst (aset m k v)) <-> x = k \/ In x (map fst m).
Proof.
  intros V m k v x. induction m as [|[a w] m IH]; cbn [aset map fst In]; [intuition|]. destruct (k =? a) eqn:E; cbn [map fst In].
  - apply Z.eqb_eq in E. subst a. intuition.
  - rewrite IH. tauto.
Qed.
Lemma aset_nodup : forall {V} (m : list (Z * V)) k v, NoDup (map fst m) -> NoDup (map fst (aset m k v)).
Proof.
  intros V m k v. induction m as [|[a w] m IH]; intro N; cbn [aset map fst] in *; [constructor; [intros []|constructor]|]. apply NoDup_cons_iff in N. destruct N as [N1 N2]. destruct (k =? a) eqn:E; cbn [map fst]; apply NoDup_cons_iff; [auto|].
  split; [|auto]. rewrite aset_keys. intros [->|I]; [rewrite Z.eqb_refl in E; discriminate|auto].
Qed.
Lemma adel_keys : forall {V} (m : list (Z * V)) k x, In x (map fst (adel m k)) -> In x (map fst m).
Proof. intros V m k x. induction m as [|[a w] m IH]; cbn [adel map fst In]; [tauto|]. destruct (k =? a); cbn [map fst In]; tauto. Qed.
Lemma adel_nodup : forall {V} (m : list (Z * V)) k, NoDup (map fst m) -> NoDup (map fst (adel m k)).
Proof.
  intros V m k. induction m as [|[a w] m IH]; intro N; cbn [adel map fst] in *; [constructor|]. apply NoDup_cons_iff in N. destruct N as [N1 N2]. destruct (k =? a); cbn [map fst]; [auto|]. apply NoDup_cons_iff. split; [|auto].
  intro I. apply adel_keys in I. auto.
Qed.
Lemma aget_in : forall {V} (m : list (Z * V)) k v, aget m k = Some v -> In (k, v) m.
Proof. intros V m k v. induction m as [|[a w] m IH]; cbn [aget]; [discriminate|]. destruct (k =? a) eqn:E; intro H; [left; apply Z.eqb_eq in E; congruence|right; auto]. Qed.
Lemma in_aget : forall {V} (m : list (Z * V)) k v, NoDup (map fst m) -> In (k, v) m -> aget m k = Some v.
Proof.
  intros V m k v. induction m as [|[a w] m IH]; intros N I; [destruct I|]. cbn [map fst] in N. apply NoDup_cons_iff in N. destruct N as [N1 N2]. cbn [aget]. destruct I as [I|I].
  - injection I as -> ->. now rewrite Z.eqb_refl.
  - destruct (k =? a) eqn:E; [|auto]. apply Z.eqb_eq in E. subst a. exfalso. apply N1. apply in_map_iff. exists (k, v). auto.
Qed.
Lemma find_local_in : forall m l i, find_local m l = Some i -> exists k, In (k, i) m /\ ci_local i = l.
Proof. induction m as [|[a w] m IH]; intros l i H; cbn [find_local] in H; [discriminate|]. destruct (ci_local w =? l) eqn:E; [injection H as <-; exists a; split; [now left|lia]|]. destruct (IH _ _ H) as (k & I & L). exists k. split; [now right|exact L]. Qed.

(** ---- fields ---- *)
Lemma get_fields_flat : forall l rest, Forall (fun x => 0 <= x < 65536) l -> get_fields (length l) (flat_map le16 l ++ rest) = Some l.
Proof.
  induction l as [|x l IH]; intros rest H; [reflexivity|]. apply Forall_cons_iff in H. destruct H as [H1 H2]. cbn [length get_fields flat_map le16 app]. rewrite IH by assumption. now rewrite de16_le16.
Qed.
Definition sig_typed (m : sigm) : Prop := match sig_fields m with None => True | Some l => Forall (fun x => 0 <= x < 65536) l end.
Lemma sig_round : forall m rest, sig_typed m -> sig_fields m <> None -> sig_unmarshal (sig_code m) (sig_marshal m ++ rest) = Some m.
Proof.
  intros m rest T N. unfold sig_typed in T. unfold sig_marshal.
  destruct m; cbn [sig_fields] in *; try congruence; cbn [sig_code sig_unmarshal];
  (match goal with |- context [flat_map le16 ?l] => let Q := fresh in assert (Q := get_fields_flat l rest T); cbn [length] in Q; rewrite Q; reflexivity end).
Qed.
Lemma get_fields_spec : forall n b l, get_fields n b = Some l -> length l = n /\ exists rest, all_bytes b -> b = flat_map le16 l ++ rest.
Proof.
  induction n as [|n IH]; intros b l H; cbn [get_fields] in H; [injection H as <-; split; [reflexivity|exists b; reflexivity]|].
  destruct b as [|x [|y r]]; try discriminate. destruct (get_fields n r) as [l'|] eqn:E; [|discriminate]. injection H as <-. destruct (IH _ _ E) as [L (rest & R)]. split; [cbn; lia|]. exists rest. intro B.
  apply Forall_cons_iff in B. destruct B as [B1 B]. apply Forall_cons_iff in B. destruct B as [B2 B]. cbn [flat_map]. rewrite le16_de16 by assumption. cbn [app]. now rewrite <- R.
Qed.
Lemma get_fields_range : forall n b l, all_bytes b -> get_fields n b = Some l -> Forall (fun x => 0 <= x < 65536) l.
Proof.
  induction n as [|n IH]; intros b l B H; cbn [get_fields] in H; [injection H as <-; constructor|]. destruct b as [|x [|y r]]; try discriminate. destruct (get_fields n r) as [l'|] eqn:E; [|discriminate]. injection H as <-.
  apply Forall_cons_iff in B. destruct B as [B1 B]. apply Forall_cons_iff in B. destruct B as [B2 B]. constructor; [now apply de16_range|eapply IH; eassumption].
Qed.
Lemma next_sig_range : forall x, 1 <= next_sig x <= 255.
Proof. intro x. unfold next_sig, u8. destruct (_ =? 0) eqn:E; lia. Qed.
Lemma next_sig_neq : forall x, 0 <= x <= 255 -> next_sig x <> x.
Proof. intros x H. unfold next_sig, u8. destruct (_ =? 0) eqn:E; lia. Qed.
