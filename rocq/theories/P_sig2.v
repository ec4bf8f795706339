(** Proofs about M_sig: the invariant holds in every execution. *)
Require Import Verif.Base Verif.M_sig Verif.S_sig Verif.P_sig.
Definition some_b (o : option nat) : bool := match o with Some _ => true | None => false end.

Lemma calls_upd : forall s i c c' j d, nth_error (calls s) i = Some c -> nth_error (upd (calls s) i c') j = Some d ->
  (j = i /\ d = c') \/ (j <> i /\ nth_error (calls s) j = Some d).
Proof.
  intros s i c c' j d K H. destruct (Nat.eq_dec j i) as [->|N]; [left; rewrite (upd_same _ _ _ _ K) in H; split; congruence|].
  right. rewrite upd_other in H by congruence. auto.
Qed.

(** a call moves on without touching its traps *)
Lemma move_inv : forall s i c c', inv s -> nth_error (calls s) i = Some c -> c_kind c' = c_kind c -> c_given c' = c_given c -> c_traps c' = c_traps c ->
  (c_ctx c' = c_ctx c \/ (c_ctx c' = c_given c /\ c_traps c = [])) -> bal (c_pc c') (length (c_traps c)) -> (ntraps (c_pc c') <= ntraps (c_pc c))%nat ->
  inv (set_call s i c').
Proof.
  intros s i c c' I K E1 E2 E3 E4 B N. split; cbn [set_call dev ctxs calls traps alive].
  - intros j d H. destruct (calls_upd _ _ _ _ _ _ K H) as [[-> ->]|[Nj H']]; [now rewrite E3|exact (i_bal _ I _ _ H')].
  - intros j d t H T. destruct (calls_upd _ _ _ _ _ _ K H) as [[-> ->]|[Nj H']]; [|exact (i_stack _ I _ _ _ H' T)].
    rewrite E3 in T. destruct (i_stack _ I _ _ _ K T) as (v & V1 & V2 & V3 & V4). exists v. repeat (split; [assumption|]).
    destruct E4 as [->|[_ E]]; [exact V4|]. rewrite E in T. destruct T.
  - intros j d H. destruct (calls_upd _ _ _ _ _ _ K H) as [[-> ->]|[Nj H']]; [rewrite E3; exact (i_nodup _ I _ _ K)|exact (i_nodup _ I _ _ H')].
  - intros t v V R. destruct (i_reg _ I _ _ V R) as (d & D & T). destruct (Nat.eq_dec (t_call v) i) as [E|N'].
    + rewrite E in *. assert (d = c) as -> by congruence. exists c'. split; [exact (upd_same _ _ _ _ K)|now rewrite E3].
    + exists d. split; [rewrite upd_other by congruence; exact D|exact T].
  - intros j d H. destruct (calls_upd _ _ _ _ _ _ K H) as [[-> ->]|[Nj H']]; [|exact (i_ctx _ I _ _ H')].
    destruct (i_ctx _ I _ _ K) as (g & x & G & X & HH & P & O). rewrite E2, E3. destruct E4 as [->|[-> E]].
    + exists g, x. auto.
    + exists g, g. repeat (split; [assumption || reflexivity|]). split; [now left|]. rewrite E. intros o [].
  - intros t v V. destruct (i_own _ I _ _ V) as (d & x & D & X & HH & P). destruct (Nat.eq_dec (t_call v) i) as [E|N'].
    + rewrite E in *. assert (d = c) as -> by congruence. exists c', x. split; [exact (upd_same _ _ _ _ K)|]. rewrite E2. auto.
    + exists d, x. split; [rewrite upd_other by congruence; exact D|auto].
  - intros t v V. exact (i_wait _ I _ _ V).
  - intros j d H. destruct (calls_upd _ _ _ _ _ _ K H) as [[-> ->]|[Nj H']]; [|exact (i_count _ I _ _ H')].
    rewrite E1. assert (Q := i_count _ I _ _ K). lia.
  - exact (i_par _ I).
Qed.

(** the flags of traps change, their owners and registrations do not *)
Lemma traps_inv : forall s ts, inv s -> length ts = length (traps s) ->
  (forall t v', nth_error ts t = Some v' -> exists v, nth_error (traps s) t = Some v /\ t_call v' = t_call v /\ t_ctx v' = t_ctx v /\ t_reg v' = t_reg v /\
     (t_called v' = true -> t_wait v' = false) /\ (t_wait v' = false -> t_called v' = true \/ is_done s (t_ctx v) = true)) ->
  map t_call ts = map t_call (traps s) ->
  inv (mkSys (dev s) (ctxs s) (calls s) ts (alive s)).
Proof.
  intros s ts I L H M. split; cbn [dev ctxs calls traps alive].
  - exact (i_bal _ I).
  - intros i c t K T. destruct (i_stack _ I _ _ _ K T) as (v & V1 & V2 & V3 & V4).
    destruct (nth_error ts t) as [v'|] eqn:E.
    + destruct (H t v' E) as (v2 & W1 & W2 & W3 & W4 & _). assert (v2 = v) as -> by congruence. exists v'. split; [reflexivity|]. split; [congruence|]. split; congruence.
    + apply nth_error_None in E. assert ((t < length (traps s))%nat) by (apply nth_error_Some; congruence). lia.
  - exact (i_nodup _ I).
  - intros t v' V R. destruct (H t v' V) as (v & W1 & W2 & W3 & W4 & _). rewrite W2. apply (i_reg _ I t v W1). congruence.
  - exact (i_ctx _ I).
  - intros t v' V. destruct (H t v' V) as (v & W1 & W2 & W3 & W4 & _). rewrite W2, W3. exact (i_own _ I t v W1).
  - intros t v' V. destruct (H t v' V) as (v & W1 & W2 & W3 & W4 & W5 & W6). split; [exact W5|]. rewrite W3. exact W6.
  - intros i c K. assert (Q := i_count _ I _ _ K).
    assert (E : forall a b, map t_call a = map t_call b -> length (filter (own i) a) = length (filter (own i) b)).
    { clear. induction a as [|x a IH]; intros [|y b] E; cbn [map] in E; try discriminate E; [reflexivity|].
      cbn [filter]. assert (E1 : own i x = own i y) by (unfold own; congruence). rewrite E1. specialize (IH b ltac:(congruence)).
      destruct (own i y); cbn [length]; lia. }
    rewrite (E _ _ M). exact Q.
  - exact (i_par _ I).
Qed.
Lemma set_trap_inv : forall s t v v', inv s -> nth_error (traps s) t = Some v -> t_call v' = t_call v -> t_ctx v' = t_ctx v -> t_reg v' = t_reg v ->
  (t_called v' = true -> t_wait v' = false) -> (t_wait v' = false -> t_called v' = true \/ is_done s (t_ctx v) = true) -> inv (set_trap s t v').
Proof.
  intros s t v v' I V E1 E2 E3 E4 E5. unfold set_trap. apply (traps_inv s _ I (upd_len _ _ _)).
  - intros u w W. destruct (Nat.eq_dec u t) as [->|N].
    + rewrite (upd_same _ _ _ _ V) in W. assert (w = v') as -> by congruence. exists v. auto 10.
    + rewrite upd_other in W by congruence. exists w. split; [exact W|]. repeat (split; [reflexivity|]). exact (i_wait _ I _ _ W).
  - clear - V E1. revert t V. induction (traps s) as [|x l IH]; intros [|t] V; cbn in *; try discriminate V; [|now rewrite (IH t V)].
    assert (x = v) as -> by congruence. now rewrite E1.
Qed.

(** contexts end or are added *)
Lemma ctx_inv : forall s xs, inv s -> (forall j x, nth_error (ctxs s) j = Some x -> exists x', nth_error xs j = Some x' /\ x_handler x' = x_handler x /\ x_parent x' = x_parent x /\
    (x_done x = true -> x_done x' = true)) ->
  (forall j x p, nth_error xs j = Some x -> x_parent x = Some p -> (p < j)%nat /\ (exists y, nth_error xs p = Some y /\ x_parent y = None /\ x_handler y = x_handler x /\ (x_done y = true -> x_done x = true))) ->
  inv (mkSys (dev s) xs (calls s) (traps s) (alive s)).
Proof.
  intros s xs I H P. split; cbn [dev ctxs calls traps alive].
  - exact (i_bal _ I).
  - exact (i_stack _ I).
  - exact (i_nodup _ I).
  - exact (i_reg _ I).
  - intros i c K. destruct (i_ctx _ I _ _ K) as (g & x & G & X & HH & PP & O). destruct (H _ _ G) as (g' & G1 & G2 & G3 & _). destruct (H _ _ X) as (x' & X1 & X2 & X3 & _).
    exists g', x'. split; [exact G1|]. split; [exact X1|]. split; [congruence|]. split; [rewrite X3; exact PP|]. rewrite X2. exact O.
  - intros t v V. destruct (i_own _ I _ _ V) as (c & x & C & X & HH & PP). destruct (H _ _ X) as (x' & X1 & X2 & X3 & _). exists c, x'. repeat (split; [assumption || congruence|]). rewrite X3. exact PP.
  - intros t v V. destruct (i_wait _ I _ _ V) as [W1 W2]. split; [exact W1|]. intros W. destruct (W2 W) as [D|D]; [now left|]. right.
    unfold is_done in *. cbn [ctxs]. destruct (nth_error (ctxs s) (t_ctx v)) as [x|] eqn:X; [|discriminate D]. destruct (H _ _ X) as (x' & -> & _ & _ & Y). auto.
  - exact (i_count _ I).
  - exact P.
Qed.
(** a new call *)
Lemma call_inv : forall s c, inv s -> bal (c_pc c) 0 -> c_traps c = [] -> (ntraps (c_pc c) <= ntraps (prog (c_kind c)))%nat ->
  (exists g x, nth_error (ctxs s) (c_given c) = Some g /\ nth_error (ctxs s) (c_ctx c) = Some x /\ x_handler x = x_handler g /\ (c_ctx c = c_given c \/ x_parent x = Some (c_given c))) ->
  inv (mkSys (dev s) (ctxs s) (calls s ++ [c]) (traps s) (alive s)).
Proof.
  intros s c I B T N X. split; cbn [dev ctxs calls traps alive].
  - intros i d D. apply nth_snoc in D as [D|[-> ->]]; [exact (i_bal _ I _ _ D)|now rewrite T].
  - intros i d t D U. apply nth_snoc in D as [D|[-> ->]]; [exact (i_stack _ I _ _ _ D U)|]. rewrite T in U. destruct U.
  - intros i d D. apply nth_snoc in D as [D|[-> ->]]; [exact (i_nodup _ I _ _ D)|]. rewrite T. constructor.
  - intros t v V R. destruct (i_reg _ I _ _ V R) as (d & D & U). exists d. split; [now apply nth_app1|exact U].
  - intros i d D. apply nth_snoc in D as [D|[-> ->]]; [exact (i_ctx _ I _ _ D)|]. destruct X as (g & x & G & X & HH & P). exists g, x. repeat (split; [assumption|]). rewrite T. intros o [].
  - intros t v V. destruct (i_own _ I _ _ V) as (d & x & D & R). exists d, x. split; [now apply nth_app1|exact R].
  - exact (i_wait _ I).
  - intros i d D. apply nth_snoc in D as [D|[-> ->]]; [exact (i_count _ I _ _ D)|].
    assert (Z : filter (own (length (calls s))) (traps s) = []).
    { destruct (filter (own (length (calls s))) (traps s)) as [|v r] eqn:E; [reflexivity|]. exfalso.
      assert (In v (filter (own (length (calls s))) (traps s))) as H by (rewrite E; now left). apply filter_In in H as [H O].
      apply In_nth_error in H as [t V]. destruct (i_own _ I _ _ V) as (d & x & D & _). unfold own in O. apply Nat.eqb_eq in O. rewrite O in D.
      assert ((length (calls s) < length (calls s))%nat) by (apply nth_error_Some; congruence). lia. }
    rewrite Z. exact N.
  - exact (i_par _ I).
Qed.
(** trap registers a channel *)
Lemma trap_inv : forall s i c r, inv s -> nth_error (calls s) i = Some c -> c_pc c = ITrap :: r -> inv (do_trap s i c r).
Proof.
  intros s i c r I K P. assert (B := i_bal _ I _ _ K). rewrite P in B. inversion B as [| |? ? B'| | | |]; subst.
  destruct (i_ctx _ I _ _ K) as (g & x & G & X & HH & PP & O). unfold do_trap. rewrite X. destruct (x_handler x) eqn:HX.
  - assert (Old : forall t, In (Some t) (c_traps c) -> (t < length (traps s))%nat).
    { intros t T. destruct (i_stack _ I _ _ _ K T) as (v & V & _). apply nth_error_Some. congruence. }
    split; cbn [dev ctxs calls traps alive].
    + intros j d H. destruct (calls_upd _ _ _ _ _ _ K H) as [[-> ->]|[Nj H']]; [exact B'|exact (i_bal _ I _ _ H')].
    + intros j d t H T. destruct (calls_upd _ _ _ _ _ _ K H) as [[-> ->]|[Nj H']]; cbn [c_traps c_ctx] in *.
      * destruct T as [T|T].
        -- assert (t = length (traps s)) as -> by congruence. exists (mkTrap i (c_ctx c) true false true false). split; [apply nth_len|]. auto.
        -- destruct (i_stack _ I _ _ _ K T) as (v & V & R). exists v. split; [now apply nth_app1|exact R].
      * destruct (i_stack _ I _ _ _ H' T) as (v & V & R). exists v. split; [now apply nth_app1|exact R].
    + intros j d H. destruct (calls_upd _ _ _ _ _ _ K H) as [[-> ->]|[Nj H']]; [|exact (i_nodup _ I _ _ H')]. cbn [c_traps filter]. constructor; [|exact (i_nodup _ I _ _ K)].
      intros F. apply filter_In in F as [F _]. specialize (Old _ F). lia.
    + intros t v V R. apply nth_snoc in V as [V|[-> ->]].
      * destruct (i_reg _ I _ _ V R) as (d & D & T). destruct (Nat.eq_dec (t_call v) i) as [E|N].
        -- rewrite E in *. assert (d = c) as -> by congruence. eexists. split; [exact (upd_same _ _ _ _ K)|]. cbn [c_traps]. now right.
        -- exists d. split; [rewrite upd_other by congruence; exact D|exact T].
      * cbn [t_call]. eexists. split; [exact (upd_same _ _ _ _ K)|]. cbn [c_traps]. now left.
    + intros j d H. destruct (calls_upd _ _ _ _ _ _ K H) as [[-> ->]|[Nj H']]; [|exact (i_ctx _ I _ _ H')]. cbn [c_given c_ctx c_traps]. exists g, x. split; [exact G|]. split; [exact X|]. split; [congruence|]. split; [exact PP|].
      intros o [<-|T]; [split; [intros _; exact HX|discriminate]|rewrite HX; now apply O].
    + intros t v V. apply nth_snoc in V as [V|[-> ->]].
      * destruct (i_own _ I _ _ V) as (d & y & D & Y & R1 & R2). destruct (Nat.eq_dec (t_call v) i) as [E|N].
        -- rewrite E in *. assert (d = c) as -> by congruence. eexists. exists y. split; [exact (upd_same _ _ _ _ K)|]. auto.
        -- exists d, y. split; [rewrite upd_other by congruence; exact D|auto].
      * cbn [t_call t_ctx]. eexists. exists x. split; [exact (upd_same _ _ _ _ K)|]. auto.
    + intros t v V. apply nth_snoc in V as [V|[-> ->]]; [exact (i_wait _ I _ _ V)|]. cbn. split; discriminate.
    + intros j d H. rewrite filter_app, app_length. cbn [filter]. unfold own at 2. cbn [t_call]. destruct (calls_upd _ _ _ _ _ _ K H) as [[-> ->]|[Nj H']].
      * cbn [c_pc c_kind]. rewrite Nat.eqb_refl. cbn [length]. assert (Q := i_count _ I _ _ K). rewrite P in Q. unfold ntraps in Q at 1. cbn [filter is_trap length] in Q. unfold ntraps at 1. lia.
      * destruct (Nat.eqb_spec i j); [congruence|]. cbn [length]. assert (Q := i_count _ I _ _ H'). lia.
    + exact (i_par _ I).
  - split; cbn [set_call dev ctxs calls traps alive].
    + intros j d H. destruct (calls_upd _ _ _ _ _ _ K H) as [[-> ->]|[Nj H']]; [exact B'|exact (i_bal _ I _ _ H')].
    + intros j d t H T. destruct (calls_upd _ _ _ _ _ _ K H) as [[-> ->]|[Nj H']]; [|exact (i_stack _ I _ _ _ H' T)]. cbn [c_traps c_ctx] in *.
      destruct T as [T|T]; [discriminate T|]. exact (i_stack _ I _ _ _ K T).
    + intros j d H. destruct (calls_upd _ _ _ _ _ _ K H) as [[-> ->]|[Nj H']]; [exact (i_nodup _ I _ _ K)|exact (i_nodup _ I _ _ H')].
    + intros t v V R. destruct (i_reg _ I _ _ V R) as (d & D & T). destruct (Nat.eq_dec (t_call v) i) as [E|N].
      * rewrite E in *. assert (d = c) as -> by congruence. eexists. split; [exact (upd_same _ _ _ _ K)|]. cbn [c_traps]. now right.
      * exists d. split; [rewrite upd_other by congruence; exact D|exact T].
    + intros j d H. destruct (calls_upd _ _ _ _ _ _ K H) as [[-> ->]|[Nj H']]; [|exact (i_ctx _ I _ _ H')]. cbn [c_given c_ctx c_traps]. exists g, x. split; [exact G|]. split; [exact X|]. split; [congruence|]. split; [exact PP|].
      intros o [<-|T]; [split; [congruence|rewrite HX; discriminate]|rewrite HX; now apply O].
    + intros t v V. destruct (i_own _ I _ _ V) as (d & y & D & Y & R1 & R2). destruct (Nat.eq_dec (t_call v) i) as [E|N].
      * rewrite E in *. assert (d = c) as -> by congruence. eexists. exists y. split; [exact (upd_same _ _ _ _ K)|]. auto.
      * exists d, y. split; [rewrite upd_other by congruence; exact D|auto].
    + exact (i_wait _ I).
    + intros j d H. destruct (calls_upd _ _ _ _ _ _ K H) as [[-> ->]|[Nj H']]; [|exact (i_count _ I _ _ H')].
      cbn [c_pc c_kind]. assert (Q := i_count _ I _ _ K). rewrite P in Q. unfold ntraps in Q at 1. cbn [filter is_trap length] in Q. unfold ntraps at 1. lia.
    + exact (i_par _ I).
Qed.
(** untrap *)
Lemma untrap_inv : forall s i c r o os, inv s -> nth_error (calls s) i = Some c -> c_pc c = IUntrap :: r -> c_traps c = o :: os ->
  inv (do_untrap (set_call s i (mkCall (c_kind c) (c_given c) (c_ctx c) r os)) o).
Proof.
  intros s i c r o os I K P S. assert (B := i_bal _ I _ _ K). rewrite P, S in B. inversion B as [| | |? ? B'| | |]; subst.
  destruct (i_ctx _ I _ _ K) as (g & x & G & X & HH & PP & O). assert (ND := i_nodup _ I _ _ K). rewrite S in ND.
  set (c' := mkCall (c_kind c) (c_given c) (c_ctx c) r os).
  assert (NT : (ntraps r <= ntraps (c_pc c))%nat) by (rewrite P; unfold ntraps; cbn [filter is_trap]; lia).
  destruct o as [t0|].
  - destruct (i_stack _ I i c t0 K ltac:(rewrite S; now left)) as (v0 & V1 & V2 & V3 & V4). cbn [do_untrap]. unfold set_call at 1. cbn [traps]. rewrite V1. unfold set_trap, set_call. cbn [dev ctxs calls traps alive].
    cbn [filter] in ND. inversion ND as [|? ? NI ND']; subst.
    assert (Nin : ~ In (Some t0) os) by (intros F; apply NI; apply filter_In; auto).
    split; cbn [dev ctxs calls traps alive].
    + intros j d H. destruct (calls_upd _ _ _ _ _ _ K H) as [[-> ->]|[Nj H']]; [exact B'|exact (i_bal _ I _ _ H')].
    + intros j d t H T.
      assert (Q : exists v, nth_error (traps s) t = Some v /\ t_reg v = true /\ t_call v = j /\ t_ctx v = c_ctx d /\ t <> t0).
      { destruct (calls_upd _ _ _ _ _ _ K H) as [[-> ->]|[Nj H']].
        - cbn [c' c_traps] in T. destruct (i_stack _ I (t_call v0) c t K ltac:(rewrite S; now right)) as (v & W1 & W2 & W3 & W4). exists v. repeat (split; [assumption|]). intros ->. contradiction.
        - destruct (i_stack _ I _ _ _ H' T) as (v & W1 & W2 & W3 & W4). exists v. repeat (split; [assumption|]). intros ->. congruence. }
      destruct Q as (v & W1 & W2 & W3 & W4 & W5). exists v. split; [rewrite upd_other by congruence; exact W1|auto].
    + intros j d H. destruct (calls_upd _ _ _ _ _ _ K H) as [[-> ->]|[Nj H']]; [exact ND'|exact (i_nodup _ I _ _ H')].
    + intros t v V R. destruct (Nat.eq_dec t t0) as [->|N].
      { rewrite (upd_same _ _ _ _ V1) in V. assert (v = mkTrap (t_call v0) (t_ctx v0) false (t_pend v0) (t_wait v0) (t_called v0)) as -> by congruence. discriminate R. }
      rewrite upd_other in V by congruence. destruct (i_reg _ I _ _ V R) as (d & D & T). destruct (Nat.eq_dec (t_call v) (t_call v0)) as [E|N'].
      * rewrite E in *. assert (d = c) as -> by congruence. exists c'. split; [exact (upd_same _ _ _ _ K)|]. rewrite S in T. destruct T as [T|T]; [congruence|exact T].
      * exists d. split; [rewrite upd_other by congruence; exact D|exact T].
    + intros j d H. destruct (calls_upd _ _ _ _ _ _ K H) as [[-> ->]|[Nj H']]; [|exact (i_ctx _ I _ _ H')]. exists g, x. repeat (split; [assumption|]). intros o T. apply O. rewrite S. now right.
    + intros t v V.
      assert (Q : exists v', nth_error (traps s) t = Some v' /\ t_call v = t_call v' /\ t_ctx v = t_ctx v').
      { destruct (Nat.eq_dec t t0) as [->|N]; [rewrite (upd_same _ _ _ _ V1) in V; exists v0; assert (v = mkTrap (t_call v0) (t_ctx v0) false (t_pend v0) (t_wait v0) (t_called v0)) as -> by congruence; auto|].
        rewrite upd_other in V by congruence. exists v. auto. }
      destruct Q as (v' & V' & -> & ->). destruct (i_own _ I _ _ V') as (d & y & D & Y & R1 & R2). destruct (Nat.eq_dec (t_call v') (t_call v0)) as [E|N].
      * rewrite E in *. assert (d = c) as -> by congruence. exists c', y. split; [exact (upd_same _ _ _ _ K)|]. auto.
      * exists d, y. split; [rewrite upd_other by congruence; exact D|auto].
    + intros t v V. destruct (Nat.eq_dec t t0) as [->|N].
      * rewrite (upd_same _ _ _ _ V1) in V. assert (v = mkTrap (t_call v0) (t_ctx v0) false (t_pend v0) (t_wait v0) (t_called v0)) as -> by congruence. exact (i_wait _ I _ _ V1).
      * rewrite upd_other in V by congruence. exact (i_wait _ I _ _ V).
    + intros j d H.
      assert (E : length (filter (own j) (upd (traps s) t0 (mkTrap (t_call v0) (t_ctx v0) false (t_pend v0) (t_wait v0) (t_called v0)))) = length (filter (own j) (traps s))).
      { clear - V1. revert t0 V1. induction (traps s) as [|y l IH]; intros [|t] V; cbn [nth_error upd] in *; try discriminate V.
        - assert (y = v0) as -> by congruence. cbn [filter]. unfold own. cbn [t_call]. destruct (Nat.eqb _ _); reflexivity.
        - cbn [filter]. specialize (IH t V). destruct (own j y); cbn [length]; lia. }
      rewrite E. destruct (calls_upd _ _ _ _ _ _ K H) as [[-> ->]|[Nj H']]; [|exact (i_count _ I _ _ H')]. assert (Q := i_count _ I _ _ K). cbn [c' c_pc c_kind]. lia.
    + exact (i_par _ I).
  - cbn [do_untrap]. split; cbn [set_call dev ctxs calls traps alive].
    + intros j d H. destruct (calls_upd _ _ _ _ _ _ K H) as [[-> ->]|[Nj H']]; [exact B'|exact (i_bal _ I _ _ H')].
    + intros j d t H T. destruct (calls_upd _ _ _ _ _ _ K H) as [[-> ->]|[Nj H']]; [|exact (i_stack _ I _ _ _ H' T)]. apply (i_stack _ I i c t K). rewrite S. now right.
    + intros j d H. destruct (calls_upd _ _ _ _ _ _ K H) as [[-> ->]|[Nj H']]; [exact ND|exact (i_nodup _ I _ _ H')].
    + intros t v V R. destruct (i_reg _ I _ _ V R) as (d & D & T). destruct (Nat.eq_dec (t_call v) i) as [E|N'].
      * rewrite E in *. assert (d = c) as -> by congruence. exists c'. split; [exact (upd_same _ _ _ _ K)|]. rewrite S in T. destruct T as [T|T]; [discriminate T|exact T].
      * exists d. split; [rewrite upd_other by congruence; exact D|exact T].
    + intros j d H. destruct (calls_upd _ _ _ _ _ _ K H) as [[-> ->]|[Nj H']]; [|exact (i_ctx _ I _ _ H')]. exists g, x. repeat (split; [assumption|]). intros o T. apply O. rewrite S. now right.
    + intros t v V. destruct (i_own _ I _ _ V) as (d & y & D & Y & R1 & R2). destruct (Nat.eq_dec (t_call v) i) as [E|N].
      * rewrite E in *. assert (d = c) as -> by congruence. exists c', y. split; [exact (upd_same _ _ _ _ K)|]. auto.
      * exists d, y. split; [rewrite upd_other by congruence; exact D|auto].
    + exact (i_wait _ I).
    + intros j d H. destruct (calls_upd _ _ _ _ _ _ K H) as [[-> ->]|[Nj H']]; [|exact (i_count _ I _ _ H')]. assert (Q := i_count _ I _ _ K). cbn [c' c_pc c_kind]. lia.
    + exact (i_par _ I).
Qed.
