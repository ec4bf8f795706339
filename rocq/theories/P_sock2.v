(** More invariants of the transport model: release, histories, calls begun after a close, progress. *)
Require Import Verif.Base Verif.M_sock Verif.S_sock Verif.P_sock.
Local Open Scope nat_scope.

Lemma exec_all_ind : forall raw (P : st -> Prop), (forall s a s', P s -> exec raw s a = Some s' -> P s') -> forall l s s', P s -> exec_all raw s l = Some s' -> P s'.
Proof. intros raw P H l. induction l as [|a l IH]; intros s s' I E; cbn [exec_all] in E; [injection E as <-; exact I|]. destruct (exec raw s a) as [s1|] eqn:X; [|discriminate E]. exact (IH _ _ (H _ _ _ I X) E). Qed.
Lemma exec_all_app : forall raw l1 l2 s s', exec_all raw s (l1 ++ l2) = Some s' -> exists m, exec_all raw s l1 = Some m /\ exec_all raw m l2 = Some s'.
Proof. intros raw l1. induction l1 as [|a l1 IH]; intros l2 s s' E; cbn [exec_all app] in *; [eauto|]. destruct (exec raw s a) as [s1|]; [|discriminate E]. exact (IH _ _ _ E). Qed.
Lemma runs_inv : forall raw s0 l s, runs raw s0 l s -> inv s.
Proof. intros raw s0 l s [F E]. exact (exec_all_ind raw inv (inv_exec raw) l s0 s (inv_start _ F) E). Qed.

(** One step as a change of at most one call. *)
Inductive moved (raw : bool) (s : st) : st -> Prop :=
| mv_call : forall o s', calls s' = calls s ++ [mkCall o (first_phase o)] -> done s' = done s -> table s' = table s -> wrote s' = wrote s -> took s' = took s -> moved raw s s'
| mv_step : forall i o p q s', nth_error (calls s) i = Some (mkCall o p) -> calls s' = upd (calls s) i (mkCall o q) -> table s' = table s -> wrote s' = wrote s -> took s' = took s ->
    ((p = ClSelect /\ done s = false /\ q = ClRLock /\ done s' = true) \/
     (done s' = done s /\ (
      p = RdTest /\ q = (if done s then Fin RsEof else RdLock) \/ p = RdLock /\ q = RdPoll \/ p = RdPoll /\ (q = RdUnlock RsEof \/ q = RdUnlock RsNone \/ q = RdSys) \/
      p = RdSys /\ q = RdTest2 RsErr \/ (exists r, p = RdTest2 r /\ q = RdUnlock (if done s then RsEof else r)) \/ (exists r, p = RdUnlock r /\ q = Fin r) \/
      p = WrTest /\ q = (if done s then Fin RsEof else WrLock) \/ p = WrLock /\ q = WrSys \/ p = WrSys /\ q = WrUnlock RsErr \/ (exists r, p = WrUnlock r /\ q = Fin r) \/
      p = ClLock /\ q = ClSelect \/ p = ClSelect /\ done s = true /\ q = ClUnlock RsOk \/ p = ClRLock /\ q = ClSys \/ (exists r, p = ClRUnlock r /\ q = ClUnlock r) \/ (exists r, p = ClUnlock r /\ q = Fin r)))) ->
    moved raw s s'
| mv_read : forall i o f b s', nth_error (calls s) i = Some (mkCall o RdSys) -> target raw s = Some f -> calls s' = upd (calls s) i (mkCall o (RdTest2 (RsData b))) -> done s' = done s -> table s' = table s -> wrote s' = wrote s ->
    took s' = took s ++ [(i, f, b)] -> moved raw s s'
| mv_write : forall i p f s', nth_error (calls s) i = Some (mkCall (OpWrite p) WrSys) -> target raw s = Some f -> calls s' = upd (calls s) i (mkCall (OpWrite p) (WrUnlock RsOk)) -> done s' = done s -> table s' = table s -> took s' = took s ->
    wrote s' = wrote s ++ [(i, f, p)] -> moved raw s s'
| mv_close : forall i o r s', nth_error (calls s) i = Some (mkCall o ClSys) -> (r = RsOk \/ r = RsErr) -> calls s' = upd (calls s) i (mkCall o (ClRUnlock r)) -> done s' = done s -> table s' = set_tab (table s) own_fd None -> took s' = took s ->
    wrote s' = wrote s -> moved raw s s'
| mv_open : forall n s', table s n = None -> table s' = set_tab (table s) n (Some (files s)) -> calls s' = calls s -> done s' = done s -> took s' = took s -> wrote s' = wrote s -> moved raw s s'
| mv_other : forall n o s', table s n = Some (S o) -> table s' = set_tab (table s) n None -> calls s' = calls s -> done s' = done s -> took s' = took s -> wrote s' = wrote s -> moved raw s s'.
Lemma exec_moved : forall raw s a s', exec raw s a = Some s' -> moved raw s s'.
Proof.
  intros raw s a s' E. destruct a as [o|i|i pl|i d|i ok|i ok|n|n]; cbn [exec] in E.
  - injection E as <-. eapply mv_call; reflexivity.
  - destruct (nth_error (calls s) i) as [[o p]|] eqn:K; [|discriminate E]. cbn [k_op k_ph] in E. destruct p; cbn [step] in E; try discriminate E.
    + injection E as <-. eapply (mv_step raw s i o RdTest); try exact K; try reflexivity. right. split; [reflexivity|]. tauto.
    + destruct (rmu s); [discriminate E|]. injection E as <-. eapply (mv_step raw s i o RdLock); try exact K; try reflexivity. right. split; [reflexivity|]. tauto.
    + injection E as <-. eapply (mv_step raw s i o (RdTest2 r)); try exact K; try reflexivity. right. split; [reflexivity|]. do 4 right. left. eauto.
    + injection E as <-. eapply (mv_step raw s i o (RdUnlock r)); try exact K; try reflexivity. right. split; [reflexivity|]. do 5 right. left. eauto.
    + injection E as <-. eapply (mv_step raw s i o WrTest); try exact K; try reflexivity. right. split; [reflexivity|]. tauto.
    + destruct (wmu s); [discriminate E|]. injection E as <-. eapply (mv_step raw s i o WrLock); try exact K; try reflexivity. right. split; [reflexivity|]. tauto.
    + injection E as <-. eapply (mv_step raw s i o (WrUnlock r)); try exact K; try reflexivity. right. split; [reflexivity|]. do 9 right. left. eauto.
    + destruct (cmu s); [discriminate E|]. injection E as <-. eapply (mv_step raw s i o ClLock); try exact K; try reflexivity. right. split; [reflexivity|]. tauto.
    + destruct (done s) eqn:D; injection E as <-; eapply (mv_step raw s i o ClSelect); try exact K; try reflexivity; [right|left]; [split; [reflexivity|]|]; tauto.
    + destruct (rmu s); [discriminate E|]. injection E as <-. eapply (mv_step raw s i o ClRLock); try exact K; try reflexivity. right. split; [reflexivity|]. tauto.
    + injection E as <-. eapply (mv_step raw s i o (ClRUnlock r)); try exact K; try reflexivity. right. split; [reflexivity|]. do 13 right. left. eauto.
    + injection E as <-. eapply (mv_step raw s i o (ClUnlock r)); try exact K; try reflexivity. right. split; [reflexivity|]. do 14 right. eauto.
  - destruct (nth_error (calls s) i) as [[o p]|] eqn:K; [|discriminate E]. destruct p; try discriminate E.
    destruct (target raw s), pl; try discriminate E; injection E as <-; eapply (mv_step raw s i o RdPoll); try exact K; try reflexivity; right; (split; [reflexivity|]); tauto.
  - destruct (nth_error (calls s) i) as [[o p]|] eqn:K; [|discriminate E]. destruct p; try discriminate E.
    destruct (target raw s) eqn:T, d; try discriminate E; injection E as <-; [eapply mv_read; try exact K; try exact T; reflexivity| |]; eapply (mv_step raw s i o RdSys); try exact K; try reflexivity; right; (split; [reflexivity|]); tauto.
  - destruct (nth_error (calls s) i) as [[o p]|] eqn:K; [|discriminate E]. destruct o; try discriminate E. destruct p; try discriminate E.
    destruct (target raw s) eqn:T, ok; try discriminate E; injection E as <-; [eapply mv_write; try exact K; try exact T; reflexivity| |]; eapply (mv_step raw s i _ WrSys); try exact K; try reflexivity; right; (split; [reflexivity|]); tauto.
  - destruct (nth_error (calls s) i) as [[o p]|] eqn:K; [|discriminate E]. destruct p; try discriminate E. injection E as <-. eapply (mv_close raw s i o (if ok then RsOk else RsErr)); try exact K; try reflexivity. destruct ok; tauto.
  - destruct (table s n) eqn:T; [discriminate E|]. injection E as <-. eapply mv_open; try exact T; reflexivity.
  - destruct (table s n) as [[|o]|] eqn:T; try discriminate E. injection E as <-. eapply mv_other; try exact T; reflexivity.
Qed.

(** ---- release ---- *)
Definition after_close (c : call) : Prop := k_op c = OpClose /\ (exists r, k_ph c = ClRUnlock r \/ k_ph c = ClUnlock r \/ k_ph c = Fin r).
Definition rel_inv (s : st) : Prop := forall i c, nth_error (calls s) i = Some c -> after_close c -> released s.
Lemma released_tab : forall s n v, released s -> v <> Some 0 -> forall m, set_tab (table s) n v m <> Some 0.
Proof. intros s n v R V m. unfold set_tab. destruct (Nat.eqb m n); [exact V|exact (R m)]. Qed.
Lemma rel_exec : forall raw s a s', inv s /\ rel_inv s -> exec raw s a = Some s' -> inv s' /\ rel_inv s'.
Proof.
  intros raw s a s' [I R] E. split; [exact (inv_exec _ _ _ _ I E)|]. unfold rel_inv, released in *. destruct (exec_moved _ _ _ _ E) as [o s' C D T W K|i o p q s' J C T W K M|i o f b s' J TG C D T W K|i p f s' J TG C D T W K|i o r s' J RR C D T W K|n s' TN T C D W K|n o s' TN T C D W K].
  - rewrite T, C. intros j c H A. destruct (snoc_inv _ _ _ _ H) as [H'|[_ ->]]; [exact (R _ _ H' A)|]. destruct A as (A1 & r & A2). cbn [k_op k_ph] in *. subst o. cbn [first_phase] in A2. intuition discriminate.
  - rewrite T, C. intros j c H A. destruct (upd_inv _ _ _ _ _ _ J H) as [[-> ->]|[_ H']]; [|exact (R _ _ H' A)]. destruct A as (A1 & r & A2). cbn [k_op k_ph] in *. subst o.
    pose proof (v_typed _ I _ _ J) as TY. unfold typed in TY. cbn [k_op k_ph] in TY.
    assert (PRE : (exists r', p = ClRUnlock r' \/ p = ClUnlock r' \/ p = Fin r') -> forall n, table s n <> Some 0). { intros (r' & Q). apply (R _ _ J). split; [reflexivity|]. eauto. }
    destruct M as [(-> & _ & -> & _)|(_ & M)]; [intuition discriminate|].
    destruct M as [[-> M]|[[-> M]|[[-> M]|[[-> M]|[(r' & -> & M)|[(r' & -> & M)|[[-> M]|[[-> M]|[[-> M]|[(r' & -> & M)|[[-> M]|[(-> & D & M)|[[-> M]|[(r' & -> & M)|(r' & -> & M)]]]]]]]]]]]]]]; try contradiction; try (apply PRE; eauto; fail); try (subst q; intuition discriminate).
    destruct (v_released _ I D) as [(k & c & KC & CL)|X]; [|exact X]. exfalso.
    assert (C1 : cmu s = Some i) by (apply (v_cmu _ I); eexists; split; [exact J|reflexivity]).
    assert (C2 : cmu s = Some k) by (apply (v_cmu _ I); eexists; split; [exact KC|destruct (k_ph c); try discriminate CL; reflexivity]).
    assert (k = i) by congruence. subst k. rewrite J in KC. injection KC as <-. discriminate CL.
  - rewrite T, C. intros j c H A. destruct (upd_inv _ _ _ _ _ _ J H) as [[-> ->]|[_ H']]; [|exact (R _ _ H' A)]. destruct A as (A1 & r & A2). cbn [k_ph] in A2. intuition discriminate.
  - rewrite T, C. intros j c H A. destruct (upd_inv _ _ _ _ _ _ J H) as [[-> ->]|[_ H']]; [|exact (R _ _ H' A)]. destruct A as (A1 & r & A2). cbn [k_ph] in A2. intuition discriminate.
  - rewrite T. intros j c H A m X. unfold set_tab in X. destruct (Nat.eqb m own_fd) eqn:Q; [discriminate X|]. destruct (v_files _ I) as [_ F2]. destruct (F2 _ _ X) as [_ Y]. rewrite (Y eq_refl) in Q. discriminate Q.
  - rewrite T, C. intros j c H A. apply (released_tab s n); [exact (R _ _ H A)|]. destruct (v_files _ I). intro X. injection X. lia.
  - rewrite T, C. intros j c H A. apply (released_tab s n); [exact (R _ _ H A)|discriminate].
Qed.
Lemma runs_rel : forall raw s0 l s, runs raw s0 l s -> rel_inv s.
Proof.
  intros raw s0 l s [F E]. apply (exec_all_ind raw (fun s => inv s /\ rel_inv s) (rel_exec raw) l s0 s); [|exact E]. split; [exact (inv_start _ F)|].
  destruct F as (other & k & _ & _ & _ & ->). intros i c H. destruct i; discriminate H.
Qed.

(** ---- what the calls wrote and took ---- *)
Lemma bytes_of_app : forall i l1 l2, bytes_of i (l1 ++ l2) = bytes_of i l1 ++ bytes_of i l2.
Proof. intros i l1 l2. unfold bytes_of. now rewrite filter_app, map_app. Qed.
Lemma bytes_of_own : forall i f b, bytes_of i [(i, f, b)] = [(f, b)].
Proof. intros i f b. unfold bytes_of. cbn [filter fst snd]. rewrite Nat.eqb_refl. reflexivity. Qed.
Lemma bytes_of_other : forall i j f b, j <> i -> bytes_of j [(i, f, b)] = [].
Proof. intros i j f b N. unfold bytes_of. cbn [filter fst snd]. destruct (Nat.eqb i j) eqn:E; [apply Nat.eqb_eq in E; congruence|reflexivity]. Qed.
Definition wrote_as (c : call) (l : list (nat * bytes)) : Prop :=
  match k_op c, k_ph c with OpWrite p, (WrUnlock RsOk | Fin RsOk) => exists f, l = [(f, p)] | _, _ => l = [] end.
Definition took_as (c : call) (l : list (nat * bytes)) : Prop :=
  match k_op c, k_ph c with
  | OpRead, RdTest2 (RsData b) => exists f, l = [(f, b)]
  | OpRead, (RdUnlock (RsData b) | Fin (RsData b)) => l = [(0, b)]
  | OpRead, (RdUnlock RsEof | Fin RsEof) => l = [] \/ exists f b, l = [(f, b)]
  | _, _ => l = []
  end.
Definition all0 (l : list (nat * nat * bytes)) : Prop := forall x, In x l -> snd (fst x) = 0.
Record hinv (raw : bool) (s : st) : Prop := mkH {
  y_inv : inv s;
  y_w : forall i c, nth_error (calls s) i = Some c -> wrote_as c (bytes_of i (wrote s));
  y_t : forall i c, nth_error (calls s) i = Some c -> took_as c (bytes_of i (took s));
  y_out : forall i, length (calls s) <= i -> bytes_of i (wrote s) = [] /\ bytes_of i (took s) = [];
  y_own : done s = false \/ raw = false -> all0 (wrote s) /\ all0 (took s)
}.
Lemma target_own : forall raw s f, inv s -> target raw s = Some f -> done s = false \/ raw = false -> f = 0.
Proof.
  intros raw s f I T [D|R]; unfold target in T.
  - rewrite (v_open _ I D) in T. destruct (raw || Nat.eqb 0 0); [congruence|discriminate].
  - subst raw. destruct (table s own_fd) as [o|]; [|discriminate]. destruct (Nat.eqb o 0) eqn:Q; [|discriminate]. apply Nat.eqb_eq in Q. subst o. cbn in T. congruence.
Qed.
Lemma in_bytes_of : forall i l f b, In (f, b) (bytes_of i l) -> In (i, f, b) l.
Proof. intros i l f b H. unfold bytes_of in H. apply in_map_iff in H. destruct H as ([[j g] d] & E & H). cbn [fst snd] in E. injection E as -> ->. apply filter_In in H. cbn [fst] in H. destruct H as [H Q]. apply Nat.eqb_eq in Q. now subst j. Qed.
Lemma hinv_exec : forall raw s a s', hinv raw s -> exec raw s a = Some s' -> hinv raw s'.
Proof.
  intros raw s a s' Y E. assert (I := y_inv _ _ Y). assert (L : forall x, length (upd (calls s) x (mkCall OpRead RdTest)) = length (calls s)) by (intro x; generalize (calls s) x; clear; induction l; intros [|x]; cbn [upd length]; congruence || (f_equal; apply IHl)).
  assert (LU : forall x c, length (upd (calls s) x c) = length (calls s)) by (intros x c; generalize (calls s) x; clear; induction l; intros [|x]; cbn [upd length]; congruence || (f_equal; apply IHl)). clear L.
  destruct (exec_moved _ _ _ _ E) as [o s' C D T W K|i o p q s' J C T W K M|i o f b s' J TG C D T W K|i p f s' J TG C D T K W|i o r s' J RR C D T K W|n s' TN T C D K W|n o s' TN T C D K W]; (split; [exact (inv_exec _ _ _ _ I E)|..]); rewrite ?W, ?K, ?D, ?C.
  - intros j c H. destruct (snoc_inv _ _ _ _ H) as [H'|[-> ->]]; [exact (y_w _ _ Y _ _ H')|]. destruct (y_out _ _ Y (length (calls s)) (le_n _)) as [-> _]. destruct o; reflexivity.
  - intros j c H. destruct (snoc_inv _ _ _ _ H) as [H'|[-> ->]]; [exact (y_t _ _ Y _ _ H')|]. destruct (y_out _ _ Y (length (calls s)) (le_n _)) as [_ ->]. destruct o; reflexivity.
  - intros j H. rewrite app_length in H. apply (y_out _ _ Y). lia.
  - exact (y_own _ _ Y).
  - intros j c H. destruct (upd_inv _ _ _ _ _ _ J H) as [[-> ->]|[_ H']]; [|exact (y_w _ _ Y _ _ H')]. assert (Z := y_w _ _ Y _ _ J). assert (TY := v_typed _ I _ _ J). unfold wrote_as, typed in *. cbn [k_op k_ph] in *.
    destruct o; try exact Z. destruct M as [(-> & _ & -> & _)|(_ & M)]; [contradiction|].
    destruct M as [[-> M]|[[-> M]|[[-> M]|[[-> M]|[(r' & -> & M)|[(r' & -> & M)|[[-> M]|[[-> M]|[[-> M]|[(r' & -> & M)|[[-> M]|[(-> & _ & M)|[[-> M]|[(r' & -> & M)|(r' & -> & M)]]]]]]]]]]]]]]; try contradiction; subst q; try exact Z.
    destruct (done s); exact Z.
  - intros j c H. destruct (upd_inv _ _ _ _ _ _ J H) as [[-> ->]|[_ H']]; [|exact (y_t _ _ Y _ _ H')]. assert (Z := y_t _ _ Y _ _ J). assert (TY := v_typed _ I _ _ J). unfold took_as, typed in *. cbn [k_op k_ph] in *.
    destruct o; try exact Z. destruct M as [(-> & _ & -> & _)|(_ & M)]; [contradiction|].
    destruct M as [[-> M]|[[-> M]|[[-> M]|[[-> M]|[(r' & -> & M)|[(r' & -> & M)|[[-> M]|[[-> M]|[[-> M]|[(r' & -> & M)|[[-> M]|[(-> & _ & M)|[[-> M]|[(r' & -> & M)|(r' & -> & M)]]]]]]]]]]]]]]; try contradiction; try subst q; try exact Z.
    + destruct (done s); [now left|exact Z].
    + destruct M as [->|[->| ->]]; try exact Z. now left.
    + destruct (done s) eqn:DN; [|destruct r'; try contradiction; try exact Z].
      * destruct r'; try contradiction; [right; destruct Z as (f & Z); eauto|now left].
      * destruct Z as (f & Z). rewrite Z. destruct (y_own _ _ Y (or_introl DN)) as [_ A]. assert (X : In (i, f, b) (took s)) by (apply in_bytes_of; rewrite Z; now left). specialize (A _ X). cbn [fst snd] in A. now subst f.
  - intros j H. rewrite LU in H. exact (y_out _ _ Y _ H).
  - intros X. apply (y_own _ _ Y). destruct X as [X|X]; [|now right]. left. destruct M as [(_ & _ & _ & D)|(D & _)]; congruence.
  - intros j c H. destruct (upd_inv _ _ _ _ _ _ J H) as [[-> ->]|[_ H']]; [|exact (y_w _ _ Y _ _ H')]. assert (Z := y_w _ _ Y _ _ J). assert (TY := v_typed _ I _ _ J). destruct o; try contradiction. exact Z.
  - intros j c H. rewrite bytes_of_app. destruct (upd_inv _ _ _ _ _ _ J H) as [[-> ->]|[N H']].
    + assert (Z := y_t _ _ Y _ _ J). assert (TY := v_typed _ I _ _ J). destruct o; try contradiction. unfold took_as in *. cbn [k_op k_ph] in *. rewrite Z, bytes_of_own. cbn [app]. eauto.
    + rewrite bytes_of_other by exact N. rewrite app_nil_r. exact (y_t _ _ Y _ _ H').
  - intros j H. rewrite LU in H. destruct (y_out _ _ Y _ H) as [Y1 Y2]. split; [exact Y1|]. rewrite bytes_of_app, Y2. rewrite bytes_of_other; [reflexivity|]. intros ->. apply nth_error_None in H. congruence.
  - intros X. destruct (y_own _ _ Y X) as [Y1 Y2]. split; [exact Y1|]. intros x G. apply in_app_or in G. destruct G as [G|[<-|[]]]; [exact (Y2 _ G)|]. cbn [fst snd]. exact (target_own _ _ _ I TG X).
  - intros j c H. rewrite bytes_of_app. destruct (upd_inv _ _ _ _ _ _ J H) as [[-> ->]|[N H']].
    + assert (Z := y_w _ _ Y _ _ J). unfold wrote_as in *. cbn [k_op k_ph] in *. rewrite Z, bytes_of_own. cbn [app]. eauto.
    + rewrite bytes_of_other by exact N. rewrite app_nil_r. exact (y_w _ _ Y _ _ H').
  - intros j c H. destruct (upd_inv _ _ _ _ _ _ J H) as [[-> ->]|[_ H']]; [|exact (y_t _ _ Y _ _ H')]. exact (y_t _ _ Y _ _ J).
  - intros j H. rewrite LU in H. destruct (y_out _ _ Y _ H) as [Y1 Y2]. split; [|exact Y2]. rewrite bytes_of_app, Y1. rewrite bytes_of_other; [reflexivity|]. intros ->. apply nth_error_None in H. congruence.
  - intros X. destruct (y_own _ _ Y X) as [Y1 Y2]. split; [|exact Y2]. intros x G. apply in_app_or in G. destruct G as [G|[<-|[]]]; [exact (Y1 _ G)|]. cbn [fst snd]. exact (target_own _ _ _ I TG X).
  - intros j c H. destruct (upd_inv _ _ _ _ _ _ J H) as [[-> ->]|[_ H']]; [|exact (y_w _ _ Y _ _ H')]. assert (Z := y_w _ _ Y _ _ J). assert (TY := v_typed _ I _ _ J). destruct o; try contradiction. exact Z.
  - intros j c H. destruct (upd_inv _ _ _ _ _ _ J H) as [[-> ->]|[_ H']]; [|exact (y_t _ _ Y _ _ H')]. assert (Z := y_t _ _ Y _ _ J). assert (TY := v_typed _ I _ _ J). destruct o; try contradiction. exact Z.
  - intros j H. rewrite LU in H. exact (y_out _ _ Y _ H).
  - exact (y_own _ _ Y).
  - exact (y_w _ _ Y).
  - exact (y_t _ _ Y).
  - exact (y_out _ _ Y).
  - exact (y_own _ _ Y).
  - exact (y_w _ _ Y).
  - exact (y_t _ _ Y).
  - exact (y_out _ _ Y).
  - exact (y_own _ _ Y).
Qed.
Lemma runs_hinv : forall raw s0 l s, runs raw s0 l s -> hinv raw s.
Proof.
  intros raw s0 l s [F E]. apply (exec_all_ind raw (hinv raw) (hinv_exec raw) l s0 s); [|exact E]. pose proof (inv_start _ F) as I. destruct F as (other & k & _ & _ & _ & ->). split; [exact I|..]; unfold start; cbn [calls wrote took done].
  - intros i c H. destruct i; discriminate H.
  - intros i c H. destruct i; discriminate H.
  - intros i _. split; reflexivity.
  - intros _. split; intros x [].
Qed.

(** ---- calls begun after a close ---- *)
Definition late (c : call) : Prop :=
  match k_op c with OpRead => k_ph c = RdTest \/ k_ph c = Fin RsEof | OpWrite _ => k_ph c = WrTest \/ k_ph c = Fin RsEof | OpClose => k_ph c = ClLock \/ k_ph c = ClSelect \/ k_ph c = ClUnlock RsOk \/ k_ph c = Fin RsOk end.
Definition late_inv (n : nat) (s : st) : Prop := done s = true /\ n <= length (calls s) /\ forall i c, n <= i -> nth_error (calls s) i = Some c -> late c /\ bytes_of i (wrote s) = [] /\ bytes_of i (took s) = [].
Lemma late_exec : forall raw n s a s', hinv raw s /\ late_inv n s -> exec raw s a = Some s' -> hinv raw s' /\ late_inv n s'.
Proof.
  intros raw n s a s' [Y (D0 & LN & LT)] E. split; [exact (hinv_exec _ _ _ _ Y E)|]. assert (LU : forall x c, length (upd (calls s) x c) = length (calls s)) by (intros x c; generalize (calls s) x; clear; induction l; intros [|x]; cbn [upd length]; congruence || (f_equal; apply IHl)).
  destruct (exec_moved _ _ _ _ E) as [o s' C D T W K|i o p q s' J C T W K M|i o f b s' J TG C D T W K|i p f s' J TG C D T K W|i o r s' J RR C D T K W|m s' TN T C D K W|m o s' TN T C D K W]; unfold late_inv; rewrite ?W, ?K, ?C.
  - split; [congruence|]. split; [rewrite app_length; lia|]. intros j c B H. destruct (snoc_inv _ _ _ _ H) as [H'|[-> ->]]; [exact (LT _ _ B H')|]. destruct (y_out _ _ Y (length (calls s)) (le_n _)) as [-> ->]. split; [|split; reflexivity]. destruct o; cbn; tauto.
  - split; [destruct M as [(_ & _ & _ & D)|(D & _)]; congruence|]. split; [rewrite LU; exact LN|]. intros j c B H. destruct (upd_inv _ _ _ _ _ _ J H) as [[-> ->]|[_ H']]; [|exact (LT _ _ B H')]. destruct (LT _ _ B J) as (P & Q & R). split; [|split; assumption].
    unfold late in *. cbn [k_op k_ph] in *. destruct M as [(_ & X & _)|(_ & M)]; [congruence|]. rewrite D0 in M. 
    destruct M as [[-> M]|[[-> M]|[[-> M]|[[-> M]|[(r' & -> & M)|[(r' & -> & M)|[[-> M]|[[-> M]|[[-> M]|[(r' & -> & M)|[[-> M]|[(-> & _ & M)|[[-> M]|[(r' & -> & M)|(r' & -> & M)]]]]]]]]]]]]]]; destruct o; try subst q; intuition congruence.
  - split; [congruence|]. split; [rewrite LU; exact LN|]. intros j c B H. destruct (upd_inv _ _ _ _ _ _ J H) as [[-> ->]|[N H']].
    + destruct (LT _ _ B J) as (P & _). unfold late in P. cbn [k_op k_ph] in P. destruct o; intuition discriminate.
    + destruct (LT _ _ B H') as (P & Q & R). rewrite bytes_of_app, bytes_of_other, app_nil_r by exact N. auto.
  - split; [congruence|]. split; [rewrite LU; exact LN|]. intros j c B H. destruct (upd_inv _ _ _ _ _ _ J H) as [[-> ->]|[N H']].
    + destruct (LT _ _ B J) as (P & _). unfold late in P. cbn [k_op k_ph] in P. intuition discriminate.
    + destruct (LT _ _ B H') as (P & Q & R). rewrite bytes_of_app, bytes_of_other, app_nil_r by exact N. auto.
  - split; [congruence|]. split; [rewrite LU; exact LN|]. intros j c B H. destruct (upd_inv _ _ _ _ _ _ J H) as [[-> ->]|[N H']]; [|exact (LT _ _ B H')].
    destruct (LT _ _ B J) as (P & _). unfold late in P. cbn [k_op k_ph] in P. destruct o; intuition discriminate.
  - split; [congruence|]. split; assumption.
  - split; [congruence|]. split; assumption.
Qed.
Lemma late_run : forall raw s1 l2 s2, hinv raw s1 -> done s1 = true -> exec_all raw s1 l2 = Some s2 -> late_inv (length (calls s1)) s2.
Proof.
  intros raw s1 l2 s2 Y D E. apply (exec_all_ind raw (fun s => hinv raw s /\ late_inv (length (calls s1)) s) (late_exec raw _) l2 s1 s2); [|exact E]. split; [exact Y|]. split; [exact D|]. split; [lia|].
  intros i c B H. exfalso. apply nth_error_None in B. congruence.
Qed.

(** ---- progress ---- *)
Lemma goes : forall raw s i c, inv s -> nth_error (calls s) i = Some c -> match k_ph c with Fin _ => False | RdLock | ClRLock => rmu s = None | WrLock => wmu s = None | ClLock => cmu s = None | _ => True end -> can_go raw s i.
Proof.
  intros raw s i [o p] I K H. assert (TY := v_typed _ I _ _ K). cbn [k_ph] in H. unfold can_go.
  assert (ST : (exists s', step s i o p = Some s') -> exists a s', of_call i a = true /\ exec raw s a = Some s') by (intros (s' & X); exists (AStep i), s'; split; [apply Nat.eqb_refl|]; cbn [exec]; rewrite K; exact X).
  destruct p; try contradiction; try (apply ST; cbn [step]; rewrite ?H; eauto; fail).
  - exists (APoll i PoErr). cbn [exec of_call]. rewrite K. destruct (target raw s); eexists; (split; [apply Nat.eqb_refl|reflexivity]).
  - exists (ARead i None). cbn [exec of_call]. rewrite K. destruct (target raw s); eexists; (split; [apply Nat.eqb_refl|reflexivity]).
  - destruct o; try contradiction. exists (AWrite i false). cbn [exec of_call]. rewrite K. destruct (target raw s); eexists; (split; [apply Nat.eqb_refl|reflexivity]).
  - apply ST. cbn [step]. destruct (done s); eauto.
  - exists (ACloseFd i true). cbn [exec of_call]. rewrite K. eexists; (split; [apply Nat.eqb_refl|reflexivity]).
Qed.
Lemma holder_r : forall raw s j, inv s -> rmu s = Some j -> can_go raw s j.
Proof. intros raw s j I H. apply (v_rmu _ I) in H. destruct H as (c & K & H). apply (goes raw s j c I K). destruct (k_ph c); try discriminate H; exact Logic.I. Qed.
Lemma holder_w : forall raw s j, inv s -> wmu s = Some j -> can_go raw s j.
Proof. intros raw s j I H. apply (v_wmu _ I) in H. destruct H as (c & K & H). apply (goes raw s j c I K). destruct (k_ph c); try discriminate H; exact Logic.I. Qed.
Lemma progress : forall raw s i c, inv s -> nth_error (calls s) i = Some c -> (forall r, k_ph c <> Fin r) -> can_go raw s i \/ exists j, waits_for s i j /\ (can_go raw s j \/ exists k, waits_for s j k /\ can_go raw s k).
Proof.
  intros raw s i c I K N.
  assert (SR : hold_r (k_ph c) = false -> rmu s <> Some i) by (intros H X; apply (v_rmu _ I) in X; destruct X as (d & X & Y); rewrite K in X; injection X as <-; congruence).
  assert (SW : hold_w (k_ph c) = false -> wmu s <> Some i) by (intros H X; apply (v_wmu _ I) in X; destruct X as (d & X & Y); rewrite K in X; injection X as <-; congruence).
  assert (SC : hold_c (k_ph c) = false -> cmu s <> Some i) by (intros H X; apply (v_cmu _ I) in X; destruct X as (d & X & Y); rewrite K in X; injection X as <-; congruence).
  destruct (k_ph c) eqn:P; try (left; apply (goes raw s i c I K); rewrite P; exact Logic.I).
  - destruct (rmu s) as [j|] eqn:R; [|left; apply (goes raw s i c I K); rewrite P; exact R]. right. exists j. split; [|left; exact (holder_r _ _ _ I R)]. exists c. split; [exact K|]. split; [intros ->; now apply SR|]. rewrite P. tauto.
  - destruct (wmu s) as [j|] eqn:R; [|left; apply (goes raw s i c I K); rewrite P; exact R]. right. exists j. split; [|left; exact (holder_w _ _ _ I R)]. exists c. split; [exact K|]. split; [intros ->; now apply SW|]. rewrite P. tauto.
  - destruct (cmu s) as [j|] eqn:R; [|left; apply (goes raw s i c I K); rewrite P; exact R]. right. exists j. split; [exists c; split; [exact K|]; split; [intros ->; now apply SC|rewrite P; tauto]|].
    apply (v_cmu _ I) in R. destruct R as (d & KD & H). destruct (k_ph d) eqn:PD; try discriminate H; try (left; apply (goes raw s j d I KD); rewrite PD; exact Logic.I).
    destruct (rmu s) as [k|] eqn:RR; [|left; apply (goes raw s j d I KD); rewrite PD; exact RR]. right. exists k. split; [|exact (holder_r _ _ _ I RR)]. exists d. split; [exact KD|]. split; [|rewrite PD; tauto].
    intros ->. apply (v_rmu _ I) in RR. destruct RR as (e & X & Y). rewrite KD in X. injection X as <-. rewrite PD in Y. discriminate Y.
  - destruct (rmu s) as [j|] eqn:R; [|left; apply (goes raw s i c I K); rewrite P; exact R]. right. exists j. split; [|left; exact (holder_r _ _ _ I R)]. exists c. split; [exact K|]. split; [intros ->; now apply SR|]. rewrite P. tauto.
  - exfalso. exact (N _ eq_refl).
Qed.

(** ---- steps of one call ---- *)
Definition rank (p : phase) : nat := match p with Fin _ => 0 | RdUnlock _ | WrUnlock _ | ClUnlock _ => 1 | RdTest2 _ | ClRUnlock _ | WrSys => 2 | RdSys | WrLock | ClSys => 3 | RdPoll | WrTest | ClRLock => 4 | RdLock | ClSelect => 5 | RdTest | ClLock => 6 end.
Definition rank_of (s : st) (i : nat) : nat := match nth_error (calls s) i with Some c => rank (k_ph c) | None => 6 end.
Lemma rank_other : forall s i j c, i <> j -> forall s', calls s' = upd (calls s) i c -> rank_of s' j = rank_of s j.
Proof. intros s i j c N s' E. unfold rank_of. now rewrite E, upd_ne by congruence. Qed.
Lemma rank_exec : forall raw s a s' j, exec raw s a = Some s' -> (if of_call j a then 1 else 0) + rank_of s' j <= rank_of s j.
Proof.
  intros raw s a s' j E. destruct a as [o|i|i pl|i d|i ok|i ok|n|n]; cbn [exec of_call] in *.
  - injection E as <-. unfold rank_of. cbn [calls]. destruct (nth_error (calls s ++ _) j) as [c|] eqn:X.
    + destruct (snoc_inv _ _ _ _ X) as [H|[-> ->]]; [rewrite H; lia|]. assert (Y : nth_error (calls s) (length (calls s)) = None) by (apply nth_error_None; lia). rewrite Y. destruct o; cbn; lia.
    + apply nth_error_None in X. rewrite app_length in X. assert (Y : nth_error (calls s) j = None) by (apply nth_error_None; lia). rewrite Y. lia.
  - destruct (nth_error (calls s) i) as [[o p]|] eqn:K; [|discriminate E]. cbn [k_op k_ph] in E. destruct (Nat.eqb i j) eqn:Q.
    + apply Nat.eqb_eq in Q. subst j. unfold rank_of. rewrite K. cbn [k_ph].
      destruct p; cbn [step] in E; try discriminate E; try destruct (rmu s); try destruct (wmu s); try destruct (cmu s); try discriminate E; try destruct (done s); injection E as <-; unfold set_rmu, set_wmu, set_cmu, set_ph; cbn [calls]; rewrite (upd_eq _ _ _ _ K); cbn [k_ph rank]; lia.
    + apply Nat.eqb_neq in Q. assert (X : exists c, calls s' = upd (calls s) i c).
      { destruct p; cbn [step] in E; try discriminate E; try destruct (rmu s); try destruct (wmu s); try destruct (cmu s); try discriminate E; try destruct (done s); injection E as <-; unfold set_rmu, set_wmu, set_cmu, set_ph; cbn [calls]; eauto. }
      destruct X as (c & X). rewrite (rank_other s i j c Q s' X). lia.
  - destruct (nth_error (calls s) i) as [[o p]|] eqn:K; [|discriminate E]. destruct p; try discriminate E. destruct (Nat.eqb i j) eqn:Q.
    + apply Nat.eqb_eq in Q. subst j. unfold rank_of. rewrite K. cbn [k_ph]. destruct (target raw s), pl; try discriminate E; injection E as <-; unfold set_ph; cbn [calls]; rewrite (upd_eq _ _ _ _ K); cbn [k_ph rank]; lia.
    + apply Nat.eqb_neq in Q. assert (X : exists c, calls s' = upd (calls s) i c) by (destruct (target raw s), pl; try discriminate E; injection E as <-; unfold set_ph; cbn [calls]; eauto). destruct X as (c & X). rewrite (rank_other s i j c Q s' X). lia.
  - destruct (nth_error (calls s) i) as [[o p]|] eqn:K; [|discriminate E]. destruct p; try discriminate E. destruct (Nat.eqb i j) eqn:Q.
    + apply Nat.eqb_eq in Q. subst j. unfold rank_of. rewrite K. cbn [k_ph]. destruct (target raw s), d; try discriminate E; injection E as <-; unfold set_ph; cbn [calls]; rewrite (upd_eq _ _ _ _ K); cbn [k_ph rank]; lia.
    + apply Nat.eqb_neq in Q. assert (X : exists c, calls s' = upd (calls s) i c) by (destruct (target raw s), d; try discriminate E; injection E as <-; unfold set_ph; cbn [calls]; eauto). destruct X as (c & X). rewrite (rank_other s i j c Q s' X). lia.
  - destruct (nth_error (calls s) i) as [[o p]|] eqn:K; [|discriminate E]. destruct o; try discriminate E. destruct p; try discriminate E. destruct (Nat.eqb i j) eqn:Q.
    + apply Nat.eqb_eq in Q. subst j. unfold rank_of. rewrite K. cbn [k_ph]. destruct (target raw s), ok; try discriminate E; injection E as <-; unfold set_ph; cbn [calls]; rewrite (upd_eq _ _ _ _ K); cbn [k_ph rank]; lia.
    + apply Nat.eqb_neq in Q. assert (X : exists c, calls s' = upd (calls s) i c) by (destruct (target raw s), ok; try discriminate E; injection E as <-; unfold set_ph; cbn [calls]; eauto). destruct X as (c & X). rewrite (rank_other s i j c Q s' X). lia.
  - destruct (nth_error (calls s) i) as [[o p]|] eqn:K; [|discriminate E]. destruct p; try discriminate E. destruct (Nat.eqb i j) eqn:Q.
    + apply Nat.eqb_eq in Q. subst j. unfold rank_of. rewrite K. cbn [k_ph]. injection E as <-; cbn [calls]; rewrite (upd_eq _ _ _ _ K); cbn [k_ph rank]; lia.
    + apply Nat.eqb_neq in Q. assert (X : exists c, calls s' = upd (calls s) i c) by (injection E as <-; cbn [calls]; eauto). destruct X as (c & X). rewrite (rank_other s i j c Q s' X). lia.
  - destruct (table s n); [discriminate E|]. injection E as <-. unfold rank_of. cbn [calls]. lia.
  - destruct (table s n) as [[|o]|]; try discriminate E. injection E as <-. unfold rank_of. cbn [calls]. lia.
Qed.
Lemma rank_all : forall raw l s s' j, exec_all raw s l = Some s' -> length (filter (of_call j) l) + rank_of s' j <= rank_of s j.
Proof.
  intros raw l. induction l as [|a l IH]; intros s s' j E; cbn [exec_all filter] in *; [injection E as <-; cbn [length]; lia|]. destruct (exec raw s a) as [m|] eqn:X; [|discriminate E].
  specialize (IH _ _ j E). pose proof (rank_exec _ _ _ _ j X). destruct (of_call j a); cbn [length]; lia.
Qed.
