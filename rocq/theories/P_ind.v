Require Import Verif.Base Verif.M_ind.
Definition cnt (p : phase -> bool) (l : list phase) : nat := length (filter p l).
Definition busy (x : phase) : bool := match x with Idle => false | _ => true end.
Definition onair (x : phase) : bool := match x with Sent | Waiting => true | _ => false end.
Lemma cnt_upd : forall p l k x y, nth_error l k = Some x -> (cnt p (upd l k y) + (if p x then 1 else 0) = cnt p l + (if p y then 1 else 0))%nat.
Proof.
  intros p l. induction l as [|z l IH]; intros k x y H; [destruct k; discriminate H|]. unfold cnt in *. destruct k as [|k].
  - injection H as ->. cbn [upd filter]. destruct (p x), (p y); cbn [length]; lia.
  - cbn [upd filter]. specialize (IH k x y H). destruct (p z); cbn [length]; lia.
Qed.
Definition iinv (s : ist) (t : list iev) : Prop := (bufs s + cnt busy (callers s) = 1)%nat /\ outstanding t = Z.of_nat (cnt onair (callers s)).
Lemma cnt_le : forall l, (cnt onair l <= cnt busy l)%nat.
Proof. induction l as [|x l IH]; [reflexivity|]. unfold cnt in *. destruct x; cbn [filter onair busy length]; lia. Qed.
Lemma outstanding_app : forall a b, outstanding (a ++ b) = outstanding a + outstanding b.
Proof. intros a b. unfold outstanding. rewrite map_app. induction (map weight a) as [|x l IH]; cbn in *; [reflexivity|]. rewrite IH. lia. Qed.
Lemma istep_inv : forall s o s' t, iinv s t -> istep s o s' -> iinv s' (t ++ match o with Some e => [e] | None => [] end).
Proof.
  intros s o s' t [B O] H. unfold iinv. rewrite outstanding_app.
  destruct H as [b cs k H|b cs k H|b cs k H|b cs k H|b cs k H|b cs H|b cs k H|b cs k H|b cs]; cbn [bufs callers] in *;
    try (assert (C1 := cnt_upd busy cs k _ Got H); assert (C2 := cnt_upd onair cs k _ Got H);
         assert (C3 := cnt_upd busy cs k _ Sent H); assert (C4 := cnt_upd onair cs k _ Sent H);
         assert (C5 := cnt_upd busy cs k _ Idle H); assert (C6 := cnt_upd onair cs k _ Idle H);
         assert (C7 := cnt_upd busy cs k _ Waiting H); assert (C8 := cnt_upd onair cs k _ Waiting H));
    cbn [busy onair] in *; unfold outstanding at 2; cbn [map weight fold_right]; lia.
Qed.
Lemma iinit_inv : forall n, iinv (iinit n) [].
Proof.
  intro n. unfold iinv, iinit. cbn [bufs callers]. assert (cnt busy (repeat Idle n) = 0 /\ cnt onair (repeat Idle n) = 0)%nat as [A B].
  { induction n as [|n [A B]]; [split; reflexivity|]. split; cbn [repeat]; unfold cnt in *; cbn [filter busy onair]; assumption. }
  rewrite A, B. split; reflexivity.
Qed.
Lemma iruns_inv : forall n t s, iruns (iinit n) t s -> iinv s t.
Proof.
  intros n t s H. remember (iinit n) as s0. induction H as [s|s t s1 o s2 R IH S]; [subst; apply iinit_inv|]. eapply istep_inv; [now apply IH|exact S].
Qed.
Lemma outstanding_le_1 : forall n t s, iruns (iinit n) t s -> 0 <= outstanding t <= 1.
Proof. intros n t s H. apply iruns_inv in H. destruct H as [B O]. assert (L := cnt_le (callers s)). lia. Qed.
