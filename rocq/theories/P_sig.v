(** Proofs about M_sig. *)
Require Import Verif.Base Verif.M_sig Verif.S_sig.
Lemma upd_same : forall {A} (l : list A) i x y, nth_error l i = Some y -> nth_error (upd l i x) i = Some x.
Proof. induction l as [|a l IH]; intros [|i] x y H; cbn in *; try discriminate; eauto. Qed.
Lemma upd_other : forall {A} (l : list A) i j x, i <> j -> nth_error (upd l i x) j = nth_error l j.
Proof. induction l as [|a l IH]; intros [|i] [|j] x N; cbn; try reflexivity; try congruence. apply IH. lia. Qed.
Lemma upd_len : forall {A} (l : list A) i x, length (upd l i x) = length l.
Proof. induction l as [|a l IH]; intros [|i] x; cbn; auto. Qed.
Lemma nth_app1 : forall {A} (l m : list A) i y, nth_error l i = Some y -> nth_error (l ++ m) i = Some y.
Proof. intros A l m i y H. rewrite nth_error_app1; [exact H|]. apply nth_error_Some. congruence. Qed.
Lemma nth_snoc : forall {A} (l : list A) x i y, nth_error (l ++ [x]) i = Some y -> nth_error l i = Some y \/ (i = length l /\ y = x).
Proof.
  intros A l x i y H. destruct (Nat.lt_ge_cases i (length l)) as [L|L]; [left; now rewrite nth_error_app1 in H|].
  right. rewrite nth_error_app2 in H by exact L. destruct (i - length l)%nat as [|d] eqn:E; [|destruct d; discriminate H]. cbn in H. split; [lia|congruence].
Qed.
Lemma nth_len : forall {A} (l : list A) x, nth_error (l ++ [x]) (length l) = Some x.
Proof. intros A l x. rewrite nth_error_app2, Nat.sub_diag by lia. reflexivity. Qed.
Lemma nth_mapi : forall {A B} (f : nat -> A -> B) l i j, nth_error (mapi f i l) j = option_map (f (i + j)%nat) (nth_error l j).
Proof.
  induction l as [|a l IH]; intros i [|j]; cbn [mapi nth_error option_map]; try reflexivity.
  - now rewrite Nat.add_0_r.
  - rewrite IH. now replace (S i + j)%nat with (i + S j)%nat by lia.
Qed.

(** What is left of a call unwinds its traps exactly, whatever the guards find; operations run under at least one trap. *)
Inductive bal : list instr -> nat -> Prop :=
| b_nil : bal [] 0
| b_op : forall r d, bal r (S d) -> bal (IOp :: r) (S d)
| b_trap : forall r d, bal r (S d) -> bal (ITrap :: r) d
| b_untrap : forall r d, bal r d -> bal (IUntrap :: r) (S d)
| b_guard : forall n r d, bal r d -> bal (skipn n r) d -> bal (IGuard n :: r) d
| b_take : forall r, bal r 0 -> bal (ITake :: r) 0
| b_back : forall r, bal r 0 -> bal (IBack :: r) 0.
Lemma prog_bal : forall k, bal (prog k) 0.
Proof. intros []; cbn [prog prog_one app]; repeat (cbn [skipn]; constructor). Qed.

Definition is_trap (i : instr) : bool := match i with ITrap => true | _ => false end.
Definition ntraps (l : list instr) : nat := length (filter is_trap l).
Lemma ntraps_skip : forall n l, (ntraps (skipn n l) <= ntraps l)%nat.
Proof.
  unfold ntraps. induction n as [|n IH]; intros [|a l]; cbn [skipn]; try lia. specialize (IH l). cbn [filter]. destruct (is_trap a); cbn [length]; lia.
Qed.
Definition own (i : nat) (v : trapt) : bool := Nat.eqb (t_call v) i.

Record inv (s : sys) : Prop := mkInv {
  i_bal : forall i c, nth_error (calls s) i = Some c -> bal (c_pc c) (length (c_traps c));
  i_stack : forall i c t, nth_error (calls s) i = Some c -> In (Some t) (c_traps c) ->
      exists v, nth_error (traps s) t = Some v /\ t_reg v = true /\ t_call v = i /\ t_ctx v = c_ctx c;
  i_nodup : forall i c, nth_error (calls s) i = Some c -> NoDup (filter (fun o : option nat => match o with Some _ => true | None => false end) (c_traps c));
  i_reg : forall t v, nth_error (traps s) t = Some v -> t_reg v = true -> exists c, nth_error (calls s) (t_call v) = Some c /\ In (Some t) (c_traps c);
  i_ctx : forall i c, nth_error (calls s) i = Some c -> exists g x, nth_error (ctxs s) (c_given c) = Some g /\ nth_error (ctxs s) (c_ctx c) = Some x /\
      x_handler x = x_handler g /\ (c_ctx c = c_given c \/ x_parent x = Some (c_given c)) /\
      forall o, In o (c_traps c) -> (o <> None <-> x_handler x = true);
  i_own : forall t v, nth_error (traps s) t = Some v -> exists c x, nth_error (calls s) (t_call v) = Some c /\ nth_error (ctxs s) (t_ctx v) = Some x /\ x_handler x = true /\
      (t_ctx v = c_given c \/ x_parent x = Some (c_given c));
  i_wait : forall t v, nth_error (traps s) t = Some v -> (t_called v = true -> t_wait v = false) /\ (t_wait v = false -> t_called v = true \/ is_done s (t_ctx v) = true);
  i_count : forall i c, nth_error (calls s) i = Some c -> (length (filter (own i) (traps s)) + ntraps (c_pc c) <= ntraps (prog (c_kind c)))%nat;
  i_par : forall j x p, nth_error (ctxs s) j = Some x -> x_parent x = Some p -> (p < j)%nat /\ (exists y, nth_error (ctxs s) p = Some y /\ x_parent y = None /\ x_handler y = x_handler x /\ (x_done y = true -> x_done x = true))
}.
Lemma inv0 : inv sys0.
Proof. split; try (intros i; intros; destruct i; discriminate). Qed.

Lemma bal_take : forall r d, bal (ITake :: r) d -> d = 0%nat /\ bal r d.
Proof. intros r d H. inversion H; subst; auto. Qed.
Lemma bal_back : forall r d, bal (IBack :: r) d -> d = 0%nat /\ bal r d.
Proof. intros r d H. inversion H; subst; auto. Qed.
