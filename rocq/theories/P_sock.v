(** Invariants of the transport model. *)
Require Import Verif.Base Verif.M_sock Verif.S_sock.
Local Open Scope nat_scope.

Lemma upd_eq : forall {A} (l : list A) i x y, nth_error l i = Some y -> nth_error (upd l i x) i = Some x.
Proof. induction l as [|a l IH]; intros [|i] x y H; try discriminate; cbn [upd nth_error]; [reflexivity|]. cbn [nth_error] in H. exact (IH _ _ _ H). Qed.
Lemma upd_ne : forall {A} (l : list A) i j x, i <> j -> nth_error (upd l i x) j = nth_error l j.
Proof. induction l as [|a l IH]; intros [|i] [|j] x H; cbn [upd nth_error]; try reflexivity; try contradiction. apply IH. congruence. Qed.
Lemma upd_inv : forall {A} (l : list A) i j x y z, nth_error l i = Some y -> nth_error (upd l i x) j = Some z -> (j = i /\ z = x) \/ (j <> i /\ nth_error l j = Some z).
Proof. intros A l i j x y z H J. destruct (Nat.eq_dec j i) as [->|N]; [left|right]; [rewrite (upd_eq _ _ _ _ H) in J; split; congruence|rewrite upd_ne in J by congruence; auto]. Qed.
Lemma snoc_inv : forall {A} (l : list A) x j z, nth_error (l ++ [x]) j = Some z -> nth_error l j = Some z \/ (j = length l /\ z = x).
Proof.
  intros A l x j z H. destruct (Nat.lt_ge_cases j (length l)) as [L|L]; [rewrite nth_error_app1 in H by exact L; now left|]. rewrite nth_error_app2 in H by exact L.
  right. destruct (j - length l) as [|k] eqn:E; [injection H as <-; split; [lia|reflexivity]|destruct k; discriminate H].
Qed.

Definition hold_r (p : phase) : bool := match p with RdPoll | RdSys | RdTest2 _ | RdUnlock _ | ClSys | ClRUnlock _ => true | _ => false end.
Definition hold_w (p : phase) : bool := match p with WrSys | WrUnlock _ => true | _ => false end.
Definition hold_c (p : phase) : bool := match p with ClSelect | ClRLock | ClSys | ClRUnlock _ | ClUnlock _ => true | _ => false end.
(** a call that is about to close the file *)
Definition closer (p : phase) : bool := match p with ClRLock | ClSys => true | _ => false end.
Definition typed (c : call) : Prop :=
  match k_op c, k_ph c with
  | OpRead, (RdTest | RdLock | RdPoll | RdSys | RdTest2 (RsData _ | RsErr) | RdUnlock (RsData _ | RsErr | RsEof | RsNone) | Fin (RsData _ | RsErr | RsEof | RsNone)) => True
  | OpWrite _, (WrTest | WrLock | WrSys | WrUnlock (RsOk | RsErr) | Fin (RsOk | RsErr | RsEof)) => True
  | OpClose, (ClLock | ClSelect | ClRLock | ClSys | ClRUnlock (RsOk | RsErr) | ClUnlock (RsOk | RsErr) | Fin (RsOk | RsErr)) => True
  | _, _ => False
  end.
Record inv (s : st) : Prop := mkInv {
  v_typed : forall i c, nth_error (calls s) i = Some c -> typed c;
  v_rmu : forall i, rmu s = Some i <-> exists c, nth_error (calls s) i = Some c /\ hold_r (k_ph c) = true;
  v_wmu : forall i, wmu s = Some i <-> exists c, nth_error (calls s) i = Some c /\ hold_w (k_ph c) = true;
  v_cmu : forall i, cmu s = Some i <-> exists c, nth_error (calls s) i = Some c /\ hold_c (k_ph c) = true;
  v_files : 0 < files s /\ forall n o, table s n = Some o -> o < files s /\ (o = 0 -> n = own_fd);
  v_open : done s = false -> table s own_fd = Some 0;
  v_not_done : done s = false -> forall i c, nth_error (calls s) i = Some c -> k_op c = OpClose -> k_ph c = ClLock \/ k_ph c = ClSelect;
  v_closer : forall i c, nth_error (calls s) i = Some c -> closer (k_ph c) = true -> done s = true /\ table s own_fd = Some 0;
  v_released : done s = true -> (exists i c, nth_error (calls s) i = Some c /\ closer (k_ph c) = true) \/ released s
}.
Lemma inv_start : forall s, fresh s -> inv s.
Proof.
  intros s (other & k & P & O & F & ->). unfold start. split; cbn [calls rmu wmu cmu files table done].
  - intros i c H. destruct i; discriminate H.
  - intros i. split; [discriminate|]. intros (c & H & _). destruct i; discriminate H.
  - intros i. split; [discriminate|]. intros (c & H & _). destruct i; discriminate H.
  - intros i. split; [discriminate|]. intros (c & H & _). destruct i; discriminate H.
  - split; [exact P|]. intros n o H. unfold set_tab in H. destruct (Nat.eqb n own_fd) eqn:E; [apply Nat.eqb_eq in E; injection H as <-; auto|]. destruct (F _ _ H). split; [assumption|lia].
  - intros _. reflexivity.
  - intros _ i c H. destruct i; discriminate H.
  - intros i c H. destruct i; discriminate H.
  - discriminate.
Qed.

(** A mutex after call i went from phase p to q. *)
Lemma mutex_move : forall (h : phase -> bool) l i o p q (m m' : option nat),
  (forall j, m = Some j <-> exists c, nth_error l j = Some c /\ h (k_ph c) = true) -> nth_error l i = Some (mkCall o p) ->
  (h p = h q /\ m' = m) \/ (h p = false /\ h q = true /\ m = None /\ m' = Some i) \/ (h p = true /\ h q = false /\ m' = None) ->
  forall j, m' = Some j <-> exists c, nth_error (upd l i (mkCall o q)) j = Some c /\ h (k_ph c) = true.
Proof.
  intros h l i o p q m m' M K D j. assert (U := upd_eq l i (mkCall o q) _ K). destruct (Nat.eq_dec j i) as [->|N].
  - rewrite U. destruct D as [[D ->]|[(D1 & D2 & -> & ->)|(D1 & D2 & ->)]].
    + rewrite M. split; intros (c & C & H); eexists; (split; [eassumption || reflexivity|]).
      * rewrite K in C. injection C as <-. cbn [k_ph] in *. congruence.
      * injection C as <-. cbn [k_ph] in *. congruence.
    + split; [intros _; eexists; split; [reflexivity|exact D2]|reflexivity].
    + split; [discriminate|]. intros (c & C & H). injection C as <-. cbn [k_ph] in H. congruence.
  - rewrite upd_ne by congruence. destruct D as [[D ->]|[(D1 & D2 & -> & ->)|(D1 & D2 & ->)]].
    + apply M.
    + split; [congruence|]. intro X. apply M in X. discriminate X.
    + split; [discriminate|]. intro X. apply M in X. exfalso. apply N. assert (Y : m = Some i) by (apply M; eexists; split; [exact K|exact D1]). congruence.
Qed.
Lemma mutex_snoc : forall (h : phase -> bool) l x (m : option nat),
  (forall j, m = Some j <-> exists c, nth_error l j = Some c /\ h (k_ph c) = true) -> h (k_ph x) = false ->
  forall j, m = Some j <-> exists c, nth_error (l ++ [x]) j = Some c /\ h (k_ph c) = true.
Proof.
  intros h l x m M F j. rewrite M. split.
  - intros (c & C & H). exists c. split; [|exact H]. rewrite nth_error_app1; [exact C|]. apply nth_error_Some. congruence.
  - intros (c & C & H). destruct (snoc_inv _ _ _ _ C) as [C'|[_ ->]]; [eauto|congruence].
Qed.
Definition mrel (h : phase -> bool) (i : nat) (p q : phase) (m m' : option nat) : Prop :=
  (h p = h q /\ m' = m) \/ (h p = false /\ h q = true /\ m = None /\ m' = Some i) \/ (h p = true /\ h q = false /\ m' = None).
Lemma inv_move : forall s i o p q r w c wr tk, inv s -> nth_error (calls s) i = Some (mkCall o p) -> typed (mkCall o q) ->
  mrel hold_r i p q (rmu s) r -> mrel hold_w i p q (wmu s) w -> mrel hold_c i p q (cmu s) c -> closer q = closer p ->
  (done s = false -> o = OpClose -> q = ClLock \/ q = ClSelect) ->
  inv (mkSt (table s) (files s) (done s) r w c (upd (calls s) i (mkCall o q)) wr tk).
Proof.
  intros s i o p q r w c wr tk I K T MR MW MC CL ND. split; cbn [calls rmu wmu cmu files table done].
  - intros j d J. destruct (upd_inv _ _ _ _ _ _ K J) as [[-> ->]|[_ J']]; [exact T|exact (v_typed _ I _ _ J')].
  - exact (mutex_move hold_r _ _ _ _ _ _ _ (v_rmu _ I) K MR).
  - exact (mutex_move hold_w _ _ _ _ _ _ _ (v_wmu _ I) K MW).
  - exact (mutex_move hold_c _ _ _ _ _ _ _ (v_cmu _ I) K MC).
  - exact (v_files _ I).
  - exact (v_open _ I).
  - intros D j d J. destruct (upd_inv _ _ _ _ _ _ K J) as [[-> ->]|[_ J']]; [cbn [k_op k_ph]; exact (ND D)|exact (v_not_done _ I D _ _ J')].
  - intros j d J H. destruct (upd_inv _ _ _ _ _ _ K J) as [[-> ->]|[_ J']]; [cbn [k_ph] in H; rewrite CL in H; exact (v_closer _ I _ _ K H)|exact (v_closer _ I _ _ J' H)].
  - intros D. destruct (v_released _ I D) as [(j & d & J & H)|R]; [|right; exact R]. left. destruct (Nat.eq_dec j i) as [->|N].
    + exists i, (mkCall o q). split; [exact (upd_eq _ _ _ _ K)|]. cbn [k_ph]. rewrite K in J. injection J as <-. cbn [k_ph] in H. congruence.
    + exists j, d. split; [rewrite upd_ne by congruence; exact J|exact H].
Qed.
Ltac mv := unfold mrel; first [left; split; reflexivity | right; left; repeat split; assumption || reflexivity | right; right; repeat split; reflexivity].
Lemma inv_exec : forall raw s a s', inv s -> exec raw s a = Some s' -> inv s'.
Proof.
  intros raw s a s' I E. destruct a as [o|i|i pl|i d|i ok|i ok|n|n]; cbn [exec] in E.
  - injection E as <-. split; cbn [calls rmu wmu cmu files table done].
    + intros j d J. destruct (snoc_inv _ _ _ _ J) as [J'|[_ ->]]; [exact (v_typed _ I _ _ J')|destruct o; exact Logic.I].
    + apply mutex_snoc; [exact (v_rmu _ I)|destruct o; reflexivity].
    + apply mutex_snoc; [exact (v_wmu _ I)|destruct o; reflexivity].
    + apply mutex_snoc; [exact (v_cmu _ I)|destruct o; reflexivity].
    + exact (v_files _ I).
    + exact (v_open _ I).
    + intros D j d J. destruct (snoc_inv _ _ _ _ J) as [J'|[_ ->]]; [exact (v_not_done _ I D _ _ J')|]. cbn [k_op k_ph]. intros ->. now left.
    + intros j d J H. destruct (snoc_inv _ _ _ _ J) as [J'|[_ ->]]; [exact (v_closer _ I _ _ J' H)|]. destruct o; discriminate H.
    + intros D. destruct (v_released _ I D) as [(j & d & J & H)|R]; [|right; exact R]. left. exists j, d. split; [|exact H]. rewrite nth_error_app1; [exact J|]. apply nth_error_Some. congruence.
  - destruct (nth_error (calls s) i) as [[o p]|] eqn:K; [|discriminate E]. cbn [k_op k_ph] in E. assert (T := v_typed _ I _ _ K). unfold typed in T. cbn [k_op k_ph] in T.
    assert (ND := v_not_done _ I). destruct p; cbn [step] in E; try discriminate E.
    + injection E as <-. destruct o; try contradiction. destruct (done s); apply (inv_move s i OpRead RdTest); try mv; try exact I; try exact K; try exact Logic.I; try reflexivity; discriminate.
    + destruct (rmu s) eqn:R; [discriminate E|]. injection E as <-. destruct o; try contradiction. unfold set_rmu, set_ph; cbn [table files done rmu wmu cmu calls wrote took]. apply (inv_move s i OpRead RdLock); try mv; try exact I; try exact K; try exact Logic.I; try reflexivity; discriminate.
    + injection E as <-. destruct o; try contradiction. unfold set_rmu, set_ph; cbn [table files done rmu wmu cmu calls wrote took]. apply (inv_move s i OpRead (RdTest2 r)); try mv; try exact I; try exact K; try reflexivity; try discriminate. destruct (done s); [exact Logic.I|]. destruct r; try contradiction; exact Logic.I.
    + injection E as <-. destruct o; try contradiction. unfold set_rmu, set_ph; cbn [table files done rmu wmu cmu calls wrote took]. apply (inv_move s i OpRead (RdUnlock r)); try mv; try exact I; try exact K; try reflexivity; try discriminate. destruct r; try contradiction; exact Logic.I.
    + injection E as <-. destruct o; try contradiction. destruct (done s); apply (inv_move s i (OpWrite p) WrTest); try mv; try exact I; try exact K; try exact Logic.I; try reflexivity; discriminate.
    + destruct (wmu s) eqn:R; [discriminate E|]. injection E as <-. destruct o; try contradiction. unfold set_wmu, set_ph; cbn [table files done rmu wmu cmu calls wrote took]. apply (inv_move s i (OpWrite p) WrLock); try mv; try exact I; try exact K; try exact Logic.I; try reflexivity; discriminate.
    + injection E as <-. destruct o; try contradiction. unfold set_wmu, set_ph; cbn [table files done rmu wmu cmu calls wrote took]. apply (inv_move s i (OpWrite p) (WrUnlock r)); try mv; try exact I; try exact K; try reflexivity; try discriminate. destruct r; try contradiction; exact Logic.I.
    + destruct (cmu s) eqn:R; [discriminate E|]. injection E as <-. destruct o; try contradiction. unfold set_cmu, set_ph; cbn [table files done rmu wmu cmu calls wrote took]. apply (inv_move s i OpClose ClLock); try mv; try exact I; try exact K; try exact Logic.I; try reflexivity; auto.
    + destruct o; try contradiction. destruct (done s) eqn:D.
      * injection E as <-. unfold set_ph; cbn [table files done rmu wmu cmu calls wrote took]. apply (inv_move s i OpClose ClSelect); try mv; try exact I; try exact K; try exact Logic.I; try reflexivity; congruence.
      * injection E as <-. split; cbn [calls rmu wmu cmu files table done].
        -- intros j d J. destruct (upd_inv _ _ _ _ _ _ K J) as [[-> ->]|[_ J']]; [exact Logic.I|exact (v_typed _ I _ _ J')].
        -- apply (mutex_move hold_r _ _ _ ClSelect _ (rmu s) _ (v_rmu _ I) K). left. split; reflexivity.
        -- apply (mutex_move hold_w _ _ _ ClSelect _ (wmu s) _ (v_wmu _ I) K). left. split; reflexivity.
        -- apply (mutex_move hold_c _ _ _ ClSelect _ (cmu s) _ (v_cmu _ I) K). left. split; reflexivity.
        -- exact (v_files _ I).
        -- discriminate.
        -- discriminate.
        -- intros j d J H. split; [reflexivity|exact (v_open _ I D)].
        -- intros _. left. exists i, (mkCall OpClose ClRLock). split; [exact (upd_eq _ _ _ _ K)|reflexivity].
    + destruct (rmu s) eqn:R; [discriminate E|]. injection E as <-. destruct o; try contradiction. unfold set_rmu, set_ph; cbn [table files done rmu wmu cmu calls wrote took]. apply (inv_move s i OpClose ClRLock); try mv; try exact I; try exact K; try exact Logic.I; try reflexivity.
      intros D _. destruct (ND D _ _ K eq_refl) as [H|H]; discriminate H.
    + injection E as <-. destruct o; try contradiction. unfold set_rmu, set_ph; cbn [table files done rmu wmu cmu calls wrote took]. apply (inv_move s i OpClose (ClRUnlock r)); try mv; try exact I; try exact K; try reflexivity; [destruct r; try contradiction; exact Logic.I|].
      intros D _. destruct (ND D _ _ K eq_refl) as [H|H]; discriminate H.
    + injection E as <-. destruct o; try contradiction. unfold set_cmu, set_ph; cbn [table files done rmu wmu cmu calls wrote took]. apply (inv_move s i OpClose (ClUnlock r)); try mv; try exact I; try exact K; try reflexivity; [destruct r; try contradiction; exact Logic.I|].
      intros D _. destruct (ND D _ _ K eq_refl) as [H|H]; discriminate H.
  - destruct (nth_error (calls s) i) as [[o p]|] eqn:K; [|discriminate E]. destruct p; try discriminate E. assert (T := v_typed _ I _ _ K). destruct o; try contradiction.
    destruct (target raw s), pl; try discriminate E; injection E as <-; unfold set_ph; cbn [table files done rmu wmu cmu calls wrote took]; apply (inv_move s i OpRead RdPoll); try mv; try exact I; try exact K; try exact Logic.I; try reflexivity; discriminate.
  - destruct (nth_error (calls s) i) as [[o p]|] eqn:K; [|discriminate E]. destruct p; try discriminate E. assert (T := v_typed _ I _ _ K). destruct o; try contradiction.
    destruct (target raw s), d; try discriminate E; injection E as <-; unfold set_ph; cbn [table files done rmu wmu cmu calls wrote took]; apply (inv_move s i OpRead RdSys); try mv; try exact I; try exact K; try exact Logic.I; try reflexivity; discriminate.
  - destruct (nth_error (calls s) i) as [[o p]|] eqn:K; [|discriminate E]. destruct o; try discriminate E. destruct p; try discriminate E.
    destruct (target raw s), ok; try discriminate E; injection E as <-; unfold set_ph; cbn [table files done rmu wmu cmu calls wrote took]; apply (inv_move s i (OpWrite p0) WrSys); try mv; try exact I; try exact K; try exact Logic.I; try reflexivity; discriminate.
  - destruct (nth_error (calls s) i) as [[o p]|] eqn:K; [|discriminate E]. destruct p; try discriminate E. assert (T := v_typed _ I _ _ K). destruct o; try contradiction. injection E as <-.
    destruct (v_closer _ I _ _ K eq_refl) as [D TB]. split; cbn [calls rmu wmu cmu files table done].
    + intros j d J. destruct (upd_inv _ _ _ _ _ _ K J) as [[-> ->]|[_ J']]; [destruct ok; exact Logic.I|exact (v_typed _ I _ _ J')].
    + apply (mutex_move hold_r _ _ _ ClSys _ (rmu s) _ (v_rmu _ I) K). left. split; reflexivity.
    + apply (mutex_move hold_w _ _ _ ClSys _ (wmu s) _ (v_wmu _ I) K). left. split; reflexivity.
    + apply (mutex_move hold_c _ _ _ ClSys _ (cmu s) _ (v_cmu _ I) K). left. split; reflexivity.
    + destruct (v_files _ I) as [F1 F2]. split; [exact F1|]. intros n o H. unfold set_tab in H. destruct (Nat.eqb n own_fd); [discriminate H|exact (F2 _ _ H)].
    + congruence.
    + congruence.
    + intros j d J H. destruct (upd_inv _ _ _ _ _ _ K J) as [[-> ->]|[N J']]; [discriminate H|]. exfalso. apply N.
      assert (C1 : cmu s = Some i) by (apply (v_cmu _ I); eexists; split; [exact K|reflexivity]).
      assert (C2 : cmu s = Some j) by (apply (v_cmu _ I); eexists; split; [exact J'|destruct (k_ph d); try discriminate H; reflexivity]). congruence.
    + intros _. right. intros n H. cbn [table] in H. unfold set_tab in H. destruct (Nat.eqb n own_fd) eqn:Q; [discriminate H|]. destruct (v_files _ I) as [_ F2]. destruct (F2 _ _ H) as [_ X]. rewrite (X eq_refl) in Q. discriminate Q.
  - destruct (table s n) eqn:TN; [discriminate E|]. injection E as <-. destruct (v_files _ I) as [F1 F2]. split; cbn [calls rmu wmu cmu files table done]; try apply I.
    + split; [lia|]. intros m o H. unfold set_tab in H. destruct (Nat.eqb m n) eqn:Q; [injection H as <-; split; lia|]. destruct (F2 _ _ H). split; [lia|assumption].
    + intros D. unfold set_tab. destruct (Nat.eqb own_fd n) eqn:Q; [apply Nat.eqb_eq in Q; subst n; rewrite (v_open _ I D) in TN; discriminate TN|exact (v_open _ I D)].
    + intros j d J H. destruct (v_closer _ I _ _ J H) as [D TB]. split; [exact D|]. unfold set_tab. destruct (Nat.eqb own_fd n) eqn:Q; [apply Nat.eqb_eq in Q; congruence|exact TB].
    + intros D. destruct (v_released _ I D) as [X|R]; [left; exact X|right]. intros m H. cbn [table] in H. unfold set_tab in H. destruct (Nat.eqb m n); [injection H; lia|exact (R _ H)].
  - destruct (table s n) as [[|o]|] eqn:TN; try discriminate E. injection E as <-. destruct (v_files _ I) as [F1 F2]. split; cbn [calls rmu wmu cmu files table done]; try apply I.
    + split; [exact F1|]. intros m p H. unfold set_tab in H. destruct (Nat.eqb m n); [discriminate H|exact (F2 _ _ H)].
    + intros D. unfold set_tab. destruct (Nat.eqb own_fd n) eqn:Q; [apply Nat.eqb_eq in Q; subst n; rewrite (v_open _ I D) in TN; discriminate TN|exact (v_open _ I D)].
    + intros j d J H. destruct (v_closer _ I _ _ J H) as [D TB]. split; [exact D|]. unfold set_tab. destruct (Nat.eqb own_fd n) eqn:Q; [apply Nat.eqb_eq in Q; congruence|exact TB].
    + intros D. destruct (v_released _ I D) as [X|R]; [left; exact X|right]. intros m H. cbn [table] in H. unfold set_tab in H. destruct (Nat.eqb m n); [discriminate H|exact (R _ H)].
Qed.
