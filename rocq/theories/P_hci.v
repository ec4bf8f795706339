(** Proofs about the connection table of the HCI host (M_hci.v): the invariant. *)
Require Import Verif.Base Verif.M_uuid Verif.M_advrep Verif.M_hci Verif.S_hci.

Record inv (s : host) : Prop := mkInv {
  i_tab : forall h c, tab s h = Some c -> exists k, nth_error (objs s) c = Some k /\ k_handle k = h /\ k_inclosed k = false /\ k_done k = false;
  i_lock : mlock s = true <-> exists c p, loop s = LAcl c p;
  i_acl : forall c p, loop s = LAcl c p -> exists h, tab s h = Some c;
  i_mclosed : mclosed s = true -> loop s = LCleanup \/ loop s = LEnd;
  i_master : (length (master s) <= 1)%nat;
  i_cap : forall c k, nth_error (objs s) c = Some k -> (length (k_in k) <= in_cap)%nat;
  i_ids : forall c, In c (master s) -> exists k, nth_error (objs s) c = Some k;
  i_lp : forall c, loop s = LMaster c \/ loop s = LSlave c -> exists k, nth_error (objs s) c = Some k;
  i_cl : forall i c, nth_error (closers s) i = Some (ClStart c) \/ nth_error (closers s) i = Some (ClSend c) \/ nth_error (closers s) i = Some (ClClean c) -> exists k, nth_error (objs s) c = Some k
}.

Lemma sett_same : forall f k v, sett f k v k = v.
Proof. intros f k v. unfold sett. now rewrite Z.eqb_refl. Qed.
Lemma sett_other : forall f k v x, x <> k -> sett f k v x = f x.
Proof. intros f k v x H. unfold sett. destruct (Z.eqb_spec x k); [contradiction|reflexivity]. Qed.

Lemma nth_upd_same : forall {A} (l : list A) i x y, nth_error l i = Some y -> nth_error (upd l i x) i = Some x.
Proof.
  intros A l i x y H. rewrite nth_error_upd, Nat.eqb_refl.
  assert (L : (i < length l)%nat) by (apply nth_error_Some; congruence). now rewrite (proj2 (Nat.ltb_lt _ _) L).
Qed.
Lemma nth_upd_other : forall {A} (l : list A) i j x, i <> j -> nth_error (upd l i x) j = nth_error l j.
Proof. intros A l i j x H. rewrite nth_error_upd. destruct (Nat.eqb_spec i j); [contradiction|reflexivity]. Qed.
Lemma nth_upd_some : forall {A} (l : list A) i j x y, nth_error (upd l i x) j = Some y ->
  (i = j /\ y = x) \/ (i <> j /\ nth_error l j = Some y).
Proof.
  intros A l i j x y H. rewrite nth_error_upd in H. destruct (Nat.eqb_spec i j) as [->|N]; [|now right].
  left. destruct (Nat.ltb j (length l)); [|discriminate]. split; [reflexivity|congruence].
Qed.
Lemma nth_upd_ex : forall {A} (l : list A) i j x, (exists y, nth_error l j = Some y) -> exists y, nth_error (upd l i x) j = Some y.
Proof.
  intros A l i j x [y H]. destruct (Nat.eq_dec i j) as [->|N]; [exists x; eapply nth_upd_same; eauto|].
  exists y. now rewrite nth_upd_other.
Qed.
Lemma nth_snoc : forall {A} (l : list A) x i y, nth_error (l ++ [x]) i = Some y -> nth_error l i = Some y \/ (i = length l /\ y = x).
Proof.
  intros A l x i y H. destruct (Nat.ltb_spec i (length l)).
  - rewrite nth_error_app1 in H by lia. now left.
  - rewrite nth_error_app2 in H by lia. destruct (i - length l)%nat as [|n] eqn:E; cbn in H; [|now destruct n].
    right. split; [lia|congruence].
Qed.
Lemma nth_app_ex : forall {A} (l m : list A) i y, nth_error l i = Some y -> nth_error (l ++ m) i = Some y.
Proof. intros A l m i y H. rewrite nth_error_app1; [exact H|]. apply nth_error_Some. congruence. Qed.

(** cleanup *)
Lemma cleanup_cases : forall s h, inv s ->
  (tab s h = None /\ cleanup s h = Ret s) \/
  (exists c k d, tab s h = Some c /\ nth_error (objs s) c = Some k /\ k_handle k = h /\ k_inclosed k = false /\ k_done k = false /\
     d = (isopen s || negb (k_role k =? 1))%bool /\
     cleanup s h = Ret (set_conn (set_tab s (sett (tab s) h None)) c (mkConn (k_handle k) (k_role k) (k_addr k) (k_in k) true d (k_rx k)))).
Proof.
  intros s h I. destruct (tab s h) as [c|] eqn:T; [right|left; unfold cleanup; now rewrite T].
  destruct (i_tab _ I _ _ T) as (k & K & H1 & H2 & H3). exists c, k, (isopen s || negb (k_role k =? 1))%bool.
  repeat split; auto. unfold cleanup. rewrite T, K, H2, H3. cbn [isopen set_tab].
  destruct (isopen s), (k_role k =? 1); reflexivity.
Qed.

Lemma cleanup_inv : forall s h s', inv s -> (forall c p, loop s <> LAcl c p) -> cleanup s h = Ret s' -> inv s'.
Proof.
  intros s h s' I NL E. destruct (cleanup_cases s h I) as [[_ E1]|(c & k & d & T & K & H1 & H2 & H3 & Hd & E1)]; rewrite E1 in E; injection E as <-; [exact I|].
  constructor; cbn [objs tab mlock master mclosed isopen haserr loop closers dials accepted set_conn set_objs set_tab].
  - intros h' c' T'. destruct (Z.eq_dec h' h) as [->|N]; [rewrite sett_same in T'; discriminate|]. rewrite sett_other in T' by exact N.
    destruct (i_tab _ I _ _ T') as (k' & K' & X1 & X2 & X3). exists k'. rewrite nth_upd_other; [auto|]. intros ->. congruence.
  - apply (i_lock _ I).
  - intros c' p X. exfalso. eapply NL; eauto.
  - apply (i_mclosed _ I).
  - apply (i_master _ I).
  - intros c' k' X. apply nth_upd_some in X. destruct X as [[-> ->]|[_ X]]; [cbn; now apply (i_cap _ I c' k)|now apply (i_cap _ I c')].
  - intros c' X. apply nth_upd_ex. now apply (i_ids _ I).
  - intros c' X. apply nth_upd_ex. now apply (i_lp _ I).
  - intros i c' X. apply nth_upd_ex. now apply (i_cl _ I i).
Qed.

(** changing one connection object without touching handle, closed flags *)
Lemma conn_inv : forall s c k k', inv s -> nth_error (objs s) c = Some k -> k_handle k' = k_handle k ->
  k_inclosed k' = k_inclosed k -> k_done k' = k_done k -> (length (k_in k') <= in_cap)%nat -> inv (set_conn s c k').
Proof.
  intros s c k k' I K A1 A2 A3 A4.
  constructor; cbn [objs tab mlock master mclosed isopen haserr loop closers dials accepted set_conn set_objs].
  - intros h x T. destruct (i_tab _ I _ _ T) as (y & Y & B1 & B2 & B3). destruct (Nat.eq_dec c x) as [->|N].
    + exists k'. rewrite K in Y. injection Y as <-. rewrite (nth_upd_same _ _ _ _ K). repeat split; congruence.
    + exists y. rewrite nth_upd_other by exact N. auto.
  - apply (i_lock _ I).
  - apply (i_acl _ I).
  - apply (i_mclosed _ I).
  - apply (i_master _ I).
  - intros x y X. apply nth_upd_some in X. destruct X as [[_ ->]|[_ X]]; [exact A4|now apply (i_cap _ I x)].
  - intros x X. apply nth_upd_ex. now apply (i_ids _ I).
  - intros x X. apply nth_upd_ex. now apply (i_lp _ I).
  - intros i x X. apply nth_upd_ex. now apply (i_cl _ I i).
Qed.

Lemma closers_upd_inv : forall s i v c, inv s -> (exists k, nth_error (objs s) c = Some k) ->
  (v = ClSend c \/ v = ClClean c \/ v = ClRet c) -> inv (set_closers s (upd (closers s) i v)).
Proof.
  intros s i v c I C V. constructor; cbn [objs tab mlock master mclosed isopen haserr loop closers dials accepted set_closers].
  all: try solve [apply I].
  intros j x X. destruct X as [X|[X|X]]; apply nth_upd_some in X; destruct X as [[_ X]|[_ X]];
    try solve [apply (i_cl _ I j x); auto]; destruct V as [->|[->| ->]]; try discriminate; injection X as <-; exact C.
Qed.
Lemma closers_snoc_inv : forall s c, inv s -> (exists k, nth_error (objs s) c = Some k) -> inv (set_closers s (closers s ++ [ClStart c])).
Proof.
  intros s c I C. constructor; cbn [objs tab mlock master mclosed isopen haserr loop closers dials accepted set_closers].
  all: try solve [apply I].
  intros j x X. destruct X as [X|[X|X]]; apply nth_snoc in X; destruct X as [X|[_ X]]; try discriminate;
    try solve [apply (i_cl _ I j x); auto]. injection X as ->. exact C.
Qed.
Lemma dials_inv : forall s d, inv s -> inv (set_dials s d).
Proof. intros s d I. constructor; cbn [objs tab mlock master mclosed isopen haserr loop closers dials accepted set_dials]; apply I. Qed.

Ltac fields := cbn [objs tab mlock master mclosed isopen haserr loop closers dials accepted set_conn set_objs set_tab set_mlock set_master set_loop set_closers set_dials set_accepted add_conn].

Theorem exec_inv : forall smp s a s', inv s -> exec smp s a = Ret (Some s') -> inv s'.
Proof.
  intros smp s a s' I E. destruct a; cbn [exec] in E.
  - (* APkt *)
    destruct (loop s) eqn:L; try discriminate E.
    assert (NL : forall c p, loop s <> LAcl c p) by (intros; congruence).
    destruct (dec_pkt b) as [k|]; [|discriminate E]. cbn [gbind] in E.
    destruct k as [h p|h role pt addr|h reason|h rest|h st|code p|p|p|]; try (injection E as <-; exact I).
    + destruct (tab s h) as [c|] eqn:T; injection E as <-; [|exact I].
      constructor; fields; try solve [apply I].
      * split; [intros _; eauto|auto].
      * intros c' p' X. injection X as -> ->. eauto.
      * intros X. apply (i_mclosed _ I) in X. destruct X; congruence.
      * intros c' [X|X]; discriminate.
    + injection E as <-. set (c := length (objs s)).
      constructor; fields; try solve [apply I].
      * intros h' c' T'. destruct (Z.eq_dec h' h) as [->|N].
        -- rewrite sett_same in T'. injection T' as <-. exists (mkConn h role addr [] false false RxRun).
           rewrite nth_error_app2 by lia. rewrite Nat.sub_diag. cbn. auto.
        -- rewrite sett_other in T' by exact N. destruct (i_tab _ I _ _ T') as (k & K & X). exists k. split; [now apply nth_app_ex|exact X].
      * split; [intros X; apply (i_lock _ I) in X; destruct X as (? & ? & X); congruence|].
        intros (? & ? & X). destruct (role =? 0); discriminate.
      * intros c' p' X. destruct (role =? 0); discriminate.
      * intros X. apply (i_mclosed _ I) in X. destruct X; congruence.
      * intros c' k X. apply nth_snoc in X. destruct X as [X|[_ ->]]; [now apply (i_cap _ I c')|cbn; unfold in_cap; lia].
      * intros c' X. destruct (i_ids _ I _ X) as [k K]. exists k. now apply nth_app_ex.
      * intros c' X. assert (c' = c) as -> by (destruct (role =? 0), X as [X|X]; congruence).
        eexists. rewrite nth_error_app2 by (unfold c; lia). unfold c. rewrite Nat.sub_diag. reflexivity.
      * intros i c' X. destruct (i_cl _ I _ _ X) as [k K]. exists k. now apply nth_app_ex.
    + destruct (reason =? 22); [injection E as <-; exact I|].
      destruct (cleanup s h) as [s1|] eqn:C; [|discriminate E]. injection E as <-. eapply cleanup_inv; eauto.
    + destruct (tab s h); [|injection E as <-; exact I]. destruct rest as [x|]; [|discriminate E]. cbn [gbind] in E.
      destruct (negb (fst x =? 0) && negb smp); [discriminate E|]. injection E as <-. exact I.
    + destruct (tab s h); [|injection E as <-; exact I]. destruct (negb (st =? 0) && negb smp); [discriminate E|]. injection E as <-. exact I.
  - (* AAclPut *)
    destruct (loop s) as [|c p|c|c| |] eqn:L; try discriminate E.
    destruct (nth_error (objs s) c) as [k|] eqn:K; [|discriminate E].
    destruct (k_inclosed k) eqn:IC; [discriminate E|].
    destruct (Nat.ltb (length (k_in k)) in_cap) eqn:LT; [|discriminate E]. injection E as <-. apply Nat.ltb_lt in LT.
    assert (I1 : inv (set_conn s c (set_in k (k_in k ++ [p])))).
    { eapply conn_inv; eauto. cbn. rewrite app_length. cbn. lia. }
    constructor; fields; try solve [apply I1].
    + split; [discriminate|intros (? & ? & X); discriminate].
    + intros; discriminate.
    + intros X. apply (i_mclosed _ I) in X. destruct X; congruence.
    + intros c' [X|X]; discriminate.
  - (* AMasterPut *)
    destruct (loop s) as [|c p|c|c| |] eqn:L; try discriminate E.
    destruct (mclosed s) eqn:MC; [discriminate E|]. destruct (master s) eqn:M; [|discriminate E]. injection E as <-.
    constructor; fields; try solve [apply I].
    + split; [intros X; apply (i_lock _ I) in X; destruct X as (? & ? & X); congruence|intros (? & ? & X); discriminate].
    + intros; discriminate.
    + congruence.
    + cbn. lia.
    + intros c' [<-|[]]. apply (i_lp _ I). auto.
    + intros c' [X|X]; discriminate.
  - (* AMasterLate *)
    destruct (loop s) as [|c p|c|c| |] eqn:L; try discriminate E. injection E as <-.
    assert (I1 := closers_snoc_inv s c I (i_lp _ I c (or_introl L))).
    constructor; fields; try solve [apply I1].
    + split; [intros X; apply (i_lock _ I) in X; destruct X as (? & ? & X); congruence|intros (? & ? & X); discriminate].
    + intros; discriminate.
    + intros X. apply (i_mclosed _ I) in X. destruct X; congruence.
    + intros c' [X|X]; discriminate.
  - (* AAccept *)
    destruct (loop s) as [|c p|c|c| |] eqn:L; try discriminate E. injection E as <-.
    constructor; fields; try solve [apply I].
    + split; [intros X; apply (i_lock _ I) in X; destruct X as (? & ? & X); congruence|intros (? & ? & X); discriminate].
    + intros; discriminate.
    + intros X. apply (i_mclosed _ I) in X. destruct X; congruence.
    + intros c' [X|X]; discriminate.
  - (* ARxTake *)
    destruct (nth_error (objs s) c) as [k|] eqn:K; [|discriminate E].
    destruct (k_rx k) eqn:R; try discriminate E. destruct (k_in k) as [|p q] eqn:Q; [discriminate E|]. injection E as <-.
    eapply conn_inv; eauto. cbn. assert (X := i_cap _ I _ _ K). rewrite Q in X. cbn in X. lia.
  - destruct (nth_error (objs s) c) as [k|] eqn:K; [|discriminate E].
    destruct (k_rx k) eqn:R; try discriminate E. injection E as <-.
    eapply conn_inv; eauto. cbn. now apply (i_cap _ I c).
  - (* ARxClean *)
    destruct (nth_error (objs s) c) as [k|] eqn:K; [|discriminate E].
    destruct (k_rx k) eqn:R; try discriminate E. destruct (mlock s) eqn:ML; [discriminate E|].
    assert (I1 : inv (set_conn s c (set_rx k RxEnd))) by (eapply conn_inv; eauto; cbn; now apply (i_cap _ I c)).
    destruct (cleanup (set_conn s c (set_rx k RxEnd)) (k_handle k)) as [s1|] eqn:C; [|discriminate E]. injection E as <-.
    eapply cleanup_inv; eauto. intros c' p X. assert (Y : mlock s = true) by (apply (i_lock _ I); cbn in X; eauto). congruence.
  - destruct (nth_error (objs s) c) as [k|] eqn:K; [|discriminate E].
    destruct (k_rx k) eqn:R; try discriminate E. destruct ((k_inclosed k && Nat.eqb (length (k_in k)) 0) || negb (isopen s))%bool; [|discriminate E].
    injection E as <-. eapply conn_inv; eauto. cbn. now apply (i_cap _ I c).
  - (* AClose *)
    destruct (Nat.ltb c (length (objs s))) eqn:LT; [|discriminate E]. injection E as <-. apply closers_snoc_inv; [exact I|].
    apply Nat.ltb_lt in LT. destruct (nth_error (objs s) c) eqn:K; [eauto|]. apply nth_error_None in K. lia.
  - destruct (nth_error (closers s) i) as [[c|c|c|c]|] eqn:N; try discriminate E.
    destruct (nth_error (objs s) c) as [k|] eqn:K; [|discriminate E]. injection E as <-.
    apply closers_upd_inv with c; eauto. destruct (k_done k); auto.
  - destruct (nth_error (closers s) i) as [[c|c|c|c]|] eqn:N; try discriminate E. injection E as <-.
    apply closers_upd_inv with c; auto. apply (i_cl _ I i). auto.
  - destruct (nth_error (closers s) i) as [[c|c|c|c]|] eqn:N; try discriminate E.
    destruct (nth_error (objs s) c) as [k|] eqn:K; [|discriminate E]. destruct (mlock s) eqn:ML; [discriminate E|].
    assert (I1 : inv (set_closers s (upd (closers s) i (ClRet c)))) by (apply closers_upd_inv with c; eauto).
    destruct (cleanup (set_closers s (upd (closers s) i (ClRet c))) (k_handle k)) as [s1|] eqn:C; [|discriminate E]. injection E as <-.
    eapply cleanup_inv; eauto. intros c' p X. assert (Y : mlock s = true) by (apply (i_lock _ I); cbn in X; eauto). congruence.
  - destruct (haserr s || negb (isopen s))%bool; [discriminate E|]. injection E as <-. now apply dials_inv.
  - assert (X : exists d c r, master s = c :: r /\ s' = set_dials (set_master s r) d).
    { destruct (nth_error (dials s) i) as [[a|a|a|a c|a|a]|]; try discriminate E; destruct (master s) as [|c' r] eqn:M; try discriminate E;
        injection E as <-; eauto. }
    destruct X as (d & c & r & M & ->). apply dials_inv. constructor; fields; try solve [apply I].
    + assert (X := i_master _ I). rewrite M in X. cbn in X. lia.
    + intros x X. apply (i_ids _ I). rewrite M. now right.
  - destruct (nth_error (dials s) i) as [[a|a|a|a c|a|a]|]; try discriminate E; destruct (mclosed s && Nat.eqb (length (master s)) 0)%bool; try discriminate E. injection E as <-. now apply dials_inv.
  - destruct (nth_error (dials s) i) as [[a|a|a|a c|a|a]|]; try discriminate E. injection E as <-. now apply dials_inv.
  - destruct (nth_error (dials s) i) as [[a|a|a|a c|a|a]|]; try discriminate E. destruct (isopen s); [discriminate E|]. injection E as <-. now apply dials_inv.
  - destruct (nth_error (dials s) i) as [[a|a|a|a c|a|a]|]; try discriminate E. injection E as <-. now apply dials_inv.
  - destruct (nth_error (dials s) i) as [[a|a|a|a c|a|a]|]; try discriminate E. injection E as <-. now apply dials_inv.
  - destruct (nth_error (dials s) i) as [[a|a|a|a c|a|a]|]; try discriminate E. injection E as <-. now apply dials_inv.
  - destruct (nth_error (dials s) i) as [[a|a|a|a c|a|a]|]; try discriminate E. injection E as <-. now apply dials_inv.
  - injection E as <-. constructor; fields; apply I.
  - injection E as <-. constructor; fields; apply I.
  - destruct (loop s) as [|c p|c|c| |] eqn:L; try discriminate E. injection E as <-.
    constructor; fields; try solve [apply I].
    + split; [intros X; apply (i_lock _ I) in X; destruct X as (? & ? & X); congruence|intros (? & ? & X); discriminate].
    + intros; discriminate.
    + auto.
    + intros c' [X|X]; discriminate.
  - destruct (loop s) as [|c p|c|c| |] eqn:L; try discriminate E. destruct (mlock s) eqn:ML; [discriminate E|].
    destruct (cleanup s h) as [s1|] eqn:C; [|discriminate E]. injection E as <-. eapply cleanup_inv; eauto. intros; congruence.
  - destruct (loop s) as [|c p|c|c| |] eqn:L; try discriminate E. destruct (forallb _ _); [|discriminate E]. injection E as <-.
    constructor; fields; try solve [apply I].
    + split; [intros X; apply (i_lock _ I) in X; destruct X as (? & ? & X); congruence|intros (? & ? & X); discriminate].
    + intros; discriminate.
    + auto.
    + intros c' [X|X]; discriminate.
Qed.

Lemma inv0 : inv host0.
Proof.
  constructor; cbn; try discriminate; try tauto.
  - split; [discriminate|intros (? & ? & X); discriminate].
  - lia.
  - intros c k X. now destruct c.
  - intros c [X|X]; discriminate.
  - intros i c X. destruct i; cbn in X; destruct X as [X|[X|X]]; discriminate.
Qed.

Lemma exec_all_app : forall smp l1 l2 s, exec_all smp s (l1 ++ l2) =
  match exec_all smp s l1 with Ret (Some s') => exec_all smp s' l2 | r => r end.
Proof.
  intros smp l1. induction l1 as [|a l1 IH]; intros l2 s; cbn [app exec_all]; [reflexivity|].
  destruct (exec smp s a) as [[s'|]|]; cbn [gbind]; [apply IH|reflexivity|reflexivity].
Qed.
Lemma exec_all_inv : forall smp l s s', inv s -> exec_all smp s l = Ret (Some s') -> inv s'.
Proof.
  intros smp l. induction l as [|a l IH]; intros s s' I E; cbn in E; [injection E as <-; exact I|].
  destruct (exec smp s a) as [[s1|]|] eqn:X; cbn [gbind] in E; try discriminate. apply (IH s1); [|exact E]. eapply exec_inv; eauto.
Qed.
Theorem runs_inv : forall smp l s, runs smp l s -> inv s.
Proof. intros smp l s R. eapply exec_all_inv; [apply inv0|exact R]. Qed.
