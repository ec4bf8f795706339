Require Import Verif.Base Verif.M_bufs.
Require Import Permutation.

Definition held (s : st) : list nat := flat_map sent (conns s).

Lemma flat_upd : forall (l : list cst) c x y, nth_error l c = Some x ->
  exists a b, l = a ++ x :: b /\ upd l c y = a ++ y :: b /\ length a = c.
Proof.
  intros l c x y H. apply nth_error_split in H. destruct H as (a & b & -> & <-).
  exists a, b. split; [reflexivity|]. split; [apply upd_app_r|reflexivity].
Qed.

(** conservation *)
Definition conserved (cnt : nat) (s : st) : Prop := Permutation (free s ++ held s) (seq 0 cnt).
Lemma perm_swap_mid : forall {A} (f a x b : list A) , Permutation (f ++ a ++ x ++ b) ((f ++ x) ++ a ++ b).
Proof.
  intros A f a x b. rewrite <- app_assoc. apply Permutation_app_head. rewrite !app_assoc. apply Permutation_app_tail. apply Permutation_app_comm.
Qed.
Lemma conserved_step : forall cnt s s', conserved cnt s -> step s s' -> conserved cnt s'.
Proof.
  intros cnt s s' H HS. unfold conserved, held in *. destruct HS; cbn [free conns set_thread set_plock set_mlock set_conn set_free] in *; auto.
  - rewrite flat_map_app. cbn. now rewrite app_nil_r.
  - destruct (flat_upd (conns s) c x (mkC (sent x ++ [b]) (cdone x) (inmap x) (ctrl x)) H1) as (l & r & E1 & E2 & _).
    rewrite E2, flat_map_app. cbn [flat_map sent]. rewrite E1, H2, flat_map_app in H. cbn [flat_map] in H.
    eapply Permutation_trans; [|exact H]. cbn [app].
    eapply Permutation_trans; [apply perm_swap_mid|]. symmetry.
    change (b :: f ++ flat_map sent l ++ sent x ++ flat_map sent r) with ((b :: f) ++ flat_map sent l ++ sent x ++ flat_map sent r).
    eapply Permutation_trans; [apply perm_swap_mid|].
    apply Permutation_app_tail. cbn [app]. rewrite app_assoc. apply Permutation_cons_append.
  - destruct (flat_upd (conns s) c x (mkC (sent x) (cdone x) (inmap x) (S (ctrl x))) H1) as (l & r & E1 & E2 & _).
    rewrite E2, flat_map_app. cbn [flat_map sent]. rewrite E1, flat_map_app in H. exact H.
  - destruct (flat_upd (conns s) c x (mkC (sent x) true false (ctrl x)) H2) as (l & r & E1 & E2 & _).
    rewrite E2, flat_map_app. cbn [flat_map sent]. rewrite E1, flat_map_app in H. exact H.
  - destruct (flat_upd (conns s) c x (mkC [] (cdone x) (inmap x) (ctrl x)) H1) as (l & r & E1 & E2 & _).
    rewrite E2, flat_map_app. cbn [flat_map sent app]. rewrite E1, flat_map_app in H. cbn [flat_map] in H.
    eapply Permutation_trans; [|exact H]. symmetry. apply perm_swap_mid.
  - cbn [put fst snd].
    destruct (flat_upd (conns s) c x (mkC (skipn k (sent x)) (cdone x) (inmap x) (ctrl x - k)) H2) as (l & r & E1 & E2 & _).
    rewrite E2, flat_map_app. cbn [flat_map sent]. rewrite E1, flat_map_app in H. cbn [flat_map] in H.
    eapply Permutation_trans; [|exact H].
    rewrite <- (firstn_skipn k (sent x)) at 3. rewrite <- (app_assoc (firstn k (sent x))).
    symmetry. apply perm_swap_mid.
Qed.
Lemma conserved_reach : forall cnt n s, steps (init cnt n) s -> conserved cnt s.
Proof.
  intros cnt n s H. remember (init cnt n) as s0 eqn:E. induction H as [|s1 s2 s3 H IH HS]; subst.
  - unfold conserved, held, init. cbn. now rewrite app_nil_r.
  - eapply conserved_step; eauto.
Qed.

(** ---- locks and the cleaned-up connection ---- *)
Definition holds_pool (p : pc) : bool := match p with WCheck _ _ | WLoop _ _ | WWrite _ _ | CPut _ => true | _ => false end.
Definition cleaning (c : nat) (p : pc) : bool := match p with CLock d | CPut d => Nat.eqb c d | _ => false end.
Definition sending (c : nat) (p : pc) : bool := match p with WLoop d _ | WWrite d _ => Nat.eqb c d | _ => false end.
Definition lock_ok (s : st) : Prop :=
  forall i p, nth_error (threads s) i = Some p -> holds_pool p = true -> plock s = Some i.
Definition mlock_ok (s : st) : Prop :=
  forall i p c, nth_error (threads s) i = Some p -> cleaning c p = true -> mlock s = Some i.
(** a connection out of the map is closed; and once nobody is cleaning it up any more, it holds no buffer and nobody sends on it *)
Definition clean_ok (s : st) : Prop :=
  forall c x, nth_error (conns s) c = Some x -> (cdone x = true <-> inmap x = false) /\
    (inmap x = false -> (forall i p, nth_error (threads s) i = Some p -> cleaning c p = false) ->
       sent x = [] /\ forall i p, nth_error (threads s) i = Some p -> sending c p = false).
Definition writer_ok (s : st) : Prop :=
  forall i p c, nth_error (threads s) i = Some p -> (match p with WLock d _ | WCheck d _ | WLoop d _ | WWrite d _ | CLock d | CPut d => d = c | TIdle => False end) -> (c < length (conns s))%nat.
Definition closing_ok (s : st) : Prop :=
  forall i p c x, nth_error (threads s) i = Some p -> cleaning c p = true -> nth_error (conns s) c = Some x -> inmap x = false.

Lemma upd_cases : forall {A} (l : list A) i x j y, nth_error (upd l i x) j = Some y ->
  (i = j /\ y = x /\ (i < length l)%nat) \/ (i <> j /\ nth_error l j = Some y).
Proof.
  intros A l i x j y H. rewrite nth_error_upd in H. destruct (Nat.eqb i j) eqn:E.
  - apply Nat.eqb_eq in E. subst. destruct (Nat.ltb j (length l)) eqn:L; [|discriminate]. injection H as <-. left. repeat split. lia.
  - right. apply Nat.eqb_neq in E. auto.
Qed.
Ltac sel := cbn [free conns threads plock mlock set_thread set_plock set_mlock set_conn set_free put fst snd] in *.
Ltac thr H := apply upd_cases in H; destruct H as [(? & ? & ?)|(? & H)]; subst.

Lemma lock_ok_step : forall s s', lock_ok s -> step s s' -> lock_ok s'.
Proof.
  intros s s' H HS. unfold lock_ok in *. destruct HS; intros j p Hj Hp; sel; try (eapply H; eassumption);
  try (thr Hj; try discriminate; try reflexivity; try (eapply H; eassumption)).
  all: try (specialize (H j p Hj Hp); congruence).
  all: try (assert (A := H i _ H0 eq_refl); assert (B := H j p Hj Hp); congruence).
  all: try (assert (A := H _ _ H0 eq_refl); exact A).
Qed.
Lemma mlock_ok_step : forall s s', mlock_ok s -> step s s' -> mlock_ok s'.
Proof.
  intros s s' H HS. unfold mlock_ok in *. destruct HS; intros j p d Hj Hp; sel; try (eapply H; eassumption);
  try (thr Hj; try discriminate; try reflexivity; try (eapply H; eassumption)).
  all: try (specialize (H j p d Hj Hp); congruence).
  all: cbn [cleaning] in *.
  all: try (eapply (H _ _ d); [eassumption|cbn [cleaning]; assumption]).
  all: try (assert (A := H i (CPut c) c H0 (Nat.eqb_refl c)); assert (B := H j p d Hj Hp); congruence).
Qed.
Lemma writer_ok_step : forall s s', writer_ok s -> step s s' -> writer_ok s'.
Proof.
  intros s s' H HS. unfold writer_ok in *. destruct HS; intros j p d Hj Hp; sel; rewrite ?app_length, ?upd_length; cbn [length];
  try (specialize (H j p d Hj Hp); lia);
  try (thr Hj; [|specialize (H j p d Hj Hp); lia]).
  all: try contradiction; try (subst; assumption).
  all: try (eapply H; [eassumption|cbn; (assumption || reflexivity)]).
  all: match goal with HH: nth_error (conns _) ?d = Some _ |- (?d < _)%nat => apply nth_error_Some; rewrite HH; discriminate | _ => eapply H; [eassumption|reflexivity] end.
Qed.
Lemma closing_ok_step : forall s s', mlock_ok s -> writer_ok s -> closing_ok s -> step s s' -> closing_ok s'.
Proof.
  intros s s' HM HW H HS. unfold closing_ok in *. destruct HS; intros j p d y Hj Hp Hy; sel.
  - rewrite nth_error_app1 in Hy; [eapply H; eassumption|]. eapply HW; [exact Hj|]. destruct p; cbn in Hp; try discriminate; apply Nat.eqb_eq in Hp; auto.
  - thr Hj; [discriminate|eapply H; eassumption].
  - thr Hj; [discriminate|eapply H; eassumption].
  - thr Hj; [discriminate|eapply H; eassumption].
  - thr Hj; [discriminate|eapply H; eassumption].
  - thr Hj; [discriminate|]. thr Hy; [cbn; eapply H; eassumption|eapply H; eassumption].
  - thr Hj; [discriminate|eapply H; eassumption].
  - thr Hj; [discriminate|eapply H; eassumption].
  - thr Hj; [discriminate|]. thr Hy; [cbn; eapply H; eassumption|eapply H; eassumption].
  - thr Hj; [discriminate|eapply H; eassumption].
  - thr Hy; [reflexivity|]. thr Hj; [cbn in Hp; apply Nat.eqb_eq in Hp; congruence|eapply H; eassumption].
  - thr Hj; [eapply (H j (CLock c)); [eassumption|exact Hp|exact Hy]|eapply H; eassumption].
  - thr Hj; [discriminate|]. thr Hy; [cbn; eapply H; eassumption|eapply H; eassumption].
  - thr Hy; [cbn; eapply H; eassumption|eapply H; eassumption].
Qed.

Lemma clean_ok_step : forall s s', lock_ok s -> mlock_ok s -> writer_ok s -> closing_ok s -> clean_ok s -> step s s' -> clean_ok s'.
Proof.
  intros s s' HL HM HW HC H HS. unfold clean_ok in *.
  (* a step that changes only one thread from a pc that is not "cleaning" to a pc that neither sends nor matters *)
  assert (THR : forall i p q, nth_error (threads s) i = Some p -> (forall c, cleaning c q = cleaning c p) -> (forall c, sending c q = true -> sending c p = true) ->
     forall c x, nth_error (conns s) c = Some x -> inmap x = false ->
       (forall j r, nth_error (upd (threads s) i q) j = Some r -> cleaning c r = false) ->
       sent x = [] /\ forall j r, nth_error (upd (threads s) i q) j = Some r -> sending c r = false).
  { intros i p q Hi Hcl Hse c x Hx Hm Hnc. destruct (H c x Hx) as [_ H2].
    destruct (H2 Hm) as [A B].
    - intros j r Hj. destruct (Nat.eq_dec i j) as [<-|Hne].
      + assert (r = p) by congruence. subst r. rewrite <- Hcl. apply (Hnc i q). rewrite nth_error_upd, Nat.eqb_refl.
        replace (Nat.ltb i (length (threads s))) with true; [reflexivity|]. symmetry. apply Nat.ltb_lt, nth_error_Some. congruence.
      + apply (Hnc j r). rewrite nth_error_upd. apply Nat.eqb_neq in Hne. now rewrite Hne.
    - split; [exact A|]. intros j r Hj. thr Hj; [|eapply B; eassumption].
      destruct (sending c q) eqn:E; [|reflexivity]. specialize (Hse c E). rewrite (B _ _ Hi) in Hse. discriminate. }
  destruct HS; intros d y Hy; sel.
  - destruct (Nat.ltb d (length (conns s))) eqn:E.
    + rewrite nth_error_app1 in Hy by lia. exact (H d y Hy).
    + rewrite nth_error_app2 in Hy by lia. destruct (d - length (conns s))%nat as [|k]; [|destruct k; discriminate].
      cbn in Hy. injection Hy as <-. cbn. split; [split; discriminate|discriminate].
  - split; [apply (H d y Hy)|]. apply (THR i TIdle (WLock c n) H0); auto.
  - split; [apply (H d y Hy)|]. apply (THR i (WLock c n) (WCheck c n) H0); auto.
  - split; [apply (H d y Hy)|]. apply (THR i (WCheck c n) TIdle H0); auto; cbn; discriminate.
  - (* check_open: sending starts, but only on an open connection *)
    split; [apply (H d y Hy)|]. intros Hm Hnc.
    destruct (H d y Hy) as [H3 H4]. destruct H4 as [A B]; auto.
    + intros j r Hj. destruct (Nat.eq_dec i j) as [<-|Hne].
      * assert (r = WCheck c n) by congruence. subst r. reflexivity.
      * apply (Hnc j r). rewrite nth_error_upd. apply Nat.eqb_neq in Hne. now rewrite Hne.
    + split; [exact A|]. intros j r Hj. thr Hj; [|eapply B; eassumption]. cbn.
      destruct (Nat.eqb d c) eqn:E; [|reflexivity]. apply Nat.eqb_eq in E. subst d.
      assert (y = x) by congruence. subst y. apply H3 in Hm. congruence.
  - (* get *)
    thr Hy.
    + cbn [sent cdone inmap]. destruct (H d x H1) as [H3 H4]. split; [exact H3|]. intros Hm Hnc. exfalso.
      destruct H4 as [A B]; auto.
      * intros j r Hj. destruct (Nat.eq_dec i j) as [<-|Hne].
        -- assert (r = WLoop d (S n)) by congruence. subst r. reflexivity.
        -- apply (Hnc j r). rewrite nth_error_upd. apply Nat.eqb_neq in Hne. now rewrite Hne.
      * specialize (B i _ H0). cbn in B. rewrite Nat.eqb_refl in B. discriminate.
    + split; [apply (H d y Hy)|]. apply (THR i (WLoop c (S n)) (WWrite c n) H0); auto.
  - split; [apply (H d y Hy)|]. apply (THR i (WLoop c 0) TIdle H0); auto; cbn; discriminate.
  - split; [apply (H d y Hy)|]. apply (THR i (WWrite c n) TIdle H0); auto; cbn; discriminate.
  - thr Hy.
    + cbn [sent cdone inmap]. destruct (H d x H1) as [H3 H4]. split; [exact H3|].
      apply (THR i (WWrite d n) (WLoop d n) H0); auto.
    + split; [apply (H d y Hy)|]. apply (THR i (WWrite c n) (WLoop c n) H0); auto.
  - split; [apply (H d y Hy)|]. apply (THR i (WWrite c n) TIdle H0); auto; cbn; discriminate.
  - (* clean *)
    assert (LT : (i < length (threads s))%nat) by (apply nth_error_Some; congruence).
    thr Hy.
    + cbn. split; [split; auto|]. intros _ Hnc. exfalso.
      specialize (Hnc i (CLock d)). rewrite nth_error_upd, Nat.eqb_refl in Hnc.
      replace (Nat.ltb i (length (threads s))) with true in Hnc by (symmetry; now apply Nat.ltb_lt).
      specialize (Hnc eq_refl). cbn in Hnc. rewrite Nat.eqb_refl in Hnc. discriminate.
    + split; [apply (H d y Hy)|]. intros Hm Hnc. destruct (H d y Hy) as [_ H5]. destruct H5 as [A B]; auto.
      * intros j r Hj. destruct (Nat.eq_dec i j) as [<-|Hne].
        -- assert (r = TIdle) by congruence. subst r. reflexivity.
        -- apply (Hnc j r). rewrite nth_error_upd. apply Nat.eqb_neq in Hne. now rewrite Hne.
      * split; [exact A|]. intros j r Hj. thr Hj; [reflexivity|eapply B; eassumption].
  - split; [apply (H d y Hy)|]. apply (THR i (CLock c) (CPut c) H0); auto.
  - (* clean_put *)
    assert (LT : (i < length (threads s))%nat) by (apply nth_error_Some; congruence).
    thr Hy.
    + cbn [sent cdone inmap]. split; [apply (H d x H1)|]. intros Hm _. split; [reflexivity|].
      intros j r Hj. thr Hj; [reflexivity|].
      destruct (sending d r) eqn:E; [|reflexivity]. exfalso.
      assert (HP : holds_pool r = true) by (destruct r; try discriminate; reflexivity).
      assert (A := HL j r Hj HP). assert (B := HL i _ H0 eq_refl). congruence.
    + split; [apply (H d y Hy)|]. intros Hm Hnc. destruct (H d y Hy) as [_ H5]. destruct H5 as [A B]; auto.
      * intros j r Hj. destruct (Nat.eq_dec i j) as [<-|Hne].
        -- assert (r = CPut c) by congruence. subst r. cbn. apply Nat.eqb_neq. congruence.
        -- apply (Hnc j r). rewrite nth_error_upd. apply Nat.eqb_neq in Hne. now rewrite Hne.
      * split; [exact A|]. intros j r Hj. thr Hj; [reflexivity|eapply B; eassumption].
  - thr Hy; [|exact (H d y Hy)].
    cbn [sent cdone inmap]. split; [apply (H d x H2)|]. intros Hm. congruence.
Qed.

Definition inv (s : st) : Prop := lock_ok s /\ mlock_ok s /\ writer_ok s /\ closing_ok s /\ clean_ok s.
Lemma inv_init : forall cnt n, inv (init cnt n).
Proof.
  intros cnt n. assert (HT : forall i p, nth_error (repeat TIdle n) i = Some p -> p = TIdle).
  { intros i p H. apply nth_error_In in H. apply repeat_spec in H. exact H. }
  unfold inv, lock_ok, mlock_ok, writer_ok, closing_ok, clean_ok, init. cbn [threads conns plock mlock].
  repeat split; intros; try (apply HT in H; subst); try discriminate; try contradiction; try (destruct c; discriminate).
Qed.
Lemma inv_reach : forall cnt n s, steps (init cnt n) s -> inv s.
Proof.
  intros cnt n s H. remember (init cnt n) as s0 eqn:E. induction H as [|s1 s2 s3 H IH HS]; subst; [apply inv_init|].
  destruct (IH eq_refl) as (A & B & C & D & F). unfold inv. repeat split.
  - eapply lock_ok_step; eauto. - eapply mlock_ok_step; eauto. - eapply writer_ok_step; eauto. - eapply closing_ok_step; eauto.
  - destruct (clean_ok_step s2 s3 A B C D F HS c x H0) as [[G _] _]. exact G.
  - destruct (clean_ok_step s2 s3 A B C D F HS c x H0) as [[_ G] _]. exact G.
  - destruct (clean_ok_step s2 s3 A B C D F HS c x H0) as [_ G]. now apply G.
  - destruct (clean_ok_step s2 s3 A B C D F HS c x H0) as [_ G]. now apply G.
Qed.


(** ---- an honest controller: no event releases more buffers of a live connection than the controller holds of its packets ---- *)
Definition honest (s s' : st) : Prop := forall c x x', nth_error (conns s) c = Some x -> nth_error (conns s') c = Some x' ->
  inmap x = true -> inmap x' = true -> (length (sent x) - length (sent x') <= ctrl x)%nat.
Inductive hsteps : st -> st -> Prop :=
| hsteps_refl : forall s, hsteps s s
| hsteps_one : forall s1 s2 s3, hsteps s1 s2 -> step s2 s3 -> honest s2 s3 -> hsteps s1 s3.
Lemma hsteps_steps : forall s s', hsteps s s' -> steps s s'.
Proof. intros s s' H. induction H; [constructor|econstructor; eauto]. Qed.

Definition backed (s : st) : Prop := forall c x, nth_error (conns s) c = Some x -> inmap x = true ->
  (ctrl x <= length (sent x))%nat /\
  forall i n, nth_error (threads s) i = Some (WWrite c n) -> (S (ctrl x) <= length (sent x))%nat.
Lemma backed_step : forall s s', lock_ok s -> writer_ok s -> closing_ok s -> backed s -> honest s s' -> step s s' -> backed s'.
Proof.
  intros s s' HL HW HC H HH HS. unfold backed in *. destruct HS; intros d y Hy Hm; sel.
  - destruct (Nat.ltb d (length (conns s))) eqn:E.
    + rewrite nth_error_app1 in Hy by lia. exact (H d y Hy Hm).
    + rewrite nth_error_app2 in Hy by lia. destruct (d - length (conns s))%nat as [|k]; [|destruct k; discriminate].
      cbn in Hy. injection Hy as <-. cbn. split; [lia|]. intros j m Hj.
      assert (A := HW j _ d Hj eq_refl). lia.
  - destruct (H d y Hy Hm) as [A B]. split; [exact A|]. intros j m Hj. thr Hj; [discriminate|eauto].
  - destruct (H d y Hy Hm) as [A B]. split; [exact A|]. intros j m Hj. thr Hj; [discriminate|eauto].
  - destruct (H d y Hy Hm) as [A B]. split; [exact A|]. intros j m Hj. thr Hj; [discriminate|eauto].
  - destruct (H d y Hy Hm) as [A B]. split; [exact A|]. intros j m Hj. thr Hj; [discriminate|eauto].
  - thr Hy.
    + cbn [sent ctrl inmap] in *. destruct (H d x H1 Hm) as [A B]. rewrite app_length. cbn. split; [lia|]. intros. lia.
    + destruct (H d y Hy Hm) as [A B]. split; [exact A|]. intros j m Hj. thr Hj; [congruence|eauto].
  - destruct (H d y Hy Hm) as [A B]. split; [exact A|]. intros j m Hj. thr Hj; [discriminate|eauto].
  - destruct (H d y Hy Hm) as [A B]. split; [exact A|]. intros j m Hj. thr Hj; [discriminate|eauto].
  - thr Hy.
    + cbn [sent ctrl inmap] in *. destruct (H d x H1 Hm) as [A B]. split; [eapply B; eassumption|].
      intros j m Hj. thr Hj; [discriminate|]. exfalso.
      assert (C := HL j _ Hj eq_refl). assert (D := HL i _ H0 eq_refl). congruence.
    + destruct (H d y Hy Hm) as [A B]. split; [exact A|]. intros j m Hj. thr Hj; [discriminate|eauto].
  - destruct (H d y Hy Hm) as [A B]. split; [exact A|]. intros j m Hj. thr Hj; [discriminate|eauto].
  - thr Hy; [discriminate|]. destruct (H d y Hy Hm) as [A B]. split; [exact A|]. intros j m Hj. thr Hj; [discriminate|eauto].
  - destruct (H d y Hy Hm) as [A B]. split; [exact A|]. intros j m Hj. thr Hj; [discriminate|eauto].
  - thr Hy.
    + exfalso. cbn [inmap] in Hm. assert (C := HC i _ d x H0 (Nat.eqb_refl d) H1). congruence.
    + destruct (H d y Hy Hm) as [A B]. split; [exact A|]. intros j m Hj. thr Hj; [discriminate|eauto].
  - thr Hy; [|exact (H d y Hy Hm)].
    assert (T := HH d x (mkC (skipn k (sent x)) (cdone x) (inmap x) (ctrl x - k)) H2).
    sel. rewrite nth_error_upd, Nat.eqb_refl in T. replace (Nat.ltb d (length (conns s))) with true in T by lia.
    specialize (T eq_refl Hm Hm). cbn [sent ctrl] in *. rewrite skipn_length in *.
    destruct (H d x H2 Hm) as [A B]. split; [lia|]. intros j m Hj. specialize (B j m Hj). lia.
Qed.
Lemma backed_reach : forall cnt n s, hsteps (init cnt n) s -> backed s.
Proof.
  intros cnt n s H. remember (init cnt n) as s0 eqn:E. induction H as [|s1 s2 s3 H IH HS HH]; subst.
  - intros c x Hx. destruct c; discriminate.
  - assert (I := inv_reach cnt n s2 (hsteps_steps _ _ H)). destruct I as (A & _ & C & D & _).
    eapply backed_step; eauto.
Qed.

(** ---- the deadlock ---- *)
Definition stuck (c : nat) (s : st) : Prop :=
  free s = [] /\ plock s = Some O /\ mlock s = Some (S O) /\ (exists n, nth_error (threads s) 0 = Some (WLoop c (S n))) /\ nth_error (threads s) 1 = Some (CLock c).
Lemma stuck_step : forall c s s', inv s -> stuck c s -> step s s' -> stuck c s'.
Proof.
  intros c s s' (HL & HM & _) (S1 & S2 & S3 & (n & S4) & S5) HS.
  destruct HS; try congruence; unfold stuck; sel.
  all: try (assert (i <> 0%nat) by (intros ->; congruence)).
  all: try (assert (i <> 1%nat) by (intros ->; congruence)).
  all: rewrite ?nth_error_upd.
  all: repeat match goal with
       | HN : ?i <> 0%nat |- context[Nat.eqb ?i 0] => rewrite (proj2 (Nat.eqb_neq i 0) HN)
       | HN : ?i <> 1%nat |- context[Nat.eqb ?i 1] => rewrite (proj2 (Nat.eqb_neq i 1) HN)
       end.
  all: try (repeat split; eauto; fail).
  all: exfalso; match goal with HI : nth_error (threads _) ?i = Some _ |- _ =>
         assert (B := HL i _ HI eq_refl); congruence end.
Qed.
