(** Traces of the HCI command path. *)
Require Import Verif.Base Verif.M_hcicmd Verif.S_hcicmd Verif.P_hcicmd.

Definition actor (a : act) : option nat :=
  match a with
  | ASpawn t _ | ALock t | AGetBuf t | ANoBuf t | AReg t | AWrite t _ | AShut t | ATimeout t | ASeeDone t | ADeliver t | ADelete t | AUnlock t => Some t
  | _ => None
  end.
Definition moves (a : act) (p p' : phase) : Prop :=
  match a with
  | ALock _ => p = PStart /\ p' = PLocked
  | AGetBuf _ => p = PLocked /\ p' = PBuf
  | ANoBuf _ => p = PLocked /\ p' = PRet CErr
  | AReg _ => p = PBuf /\ p' = PReg
  | AWrite _ _ => p = PReg /\ p' = PWait
  | AShut _ => p = PReg /\ p' = PRet CErr
  | ATimeout _ => p = PWait /\ p' = PEnd CErr
  | ASeeDone _ => p = PWait /\ (p' = PEnd CErr \/ p' = PEnd CNil)
  | ADeliver _ => p = PWait /\ exists b, p' = PEnd (COk b)
  | ADelete _ => exists r, p = PEnd r /\ p' = PDel r
  | AUnlock _ => exists r, p = PDel r /\ p' = PRet r
  | _ => False
  end.

Lemma exec_frame : forall s a s' t, exec s a = Some s' -> actor a <> Some t -> thr s' t = thr s t.
Proof.
  intros s a s' t H N. destruct a; cbn [actor] in N; exec_inv H; subst s'; cbn [thr]; try reflexivity; rewrite setn_neq; congruence.
Qed.

Lemma exec_own : forall s a s' t, exec s a = Some s' -> actor a = Some t ->
  (exists op, a = ASpawn t op /\ thr s t = None /\ (thr s' t = Some (mkT op PStart) \/ thr s' t = Some (mkT op (PRet CErr)))) \/
  (exists op p p', thr s t = Some (mkT op p) /\ thr s' t = Some (mkT op p') /\ moves a p p' /\ forall op', a <> ASpawn t op').
Proof.
  intros s a s' t H N. destruct a; cbn [actor] in N; try discriminate; injection N as ->; exec_inv H; subst s'; cbn [thr];
    try (left; eexists; split; [reflexivity|]; split; [reflexivity|]; rewrite setn_eq; auto; fail);
    right; (eexists; eexists; eexists; split; [eassumption || reflexivity|]; rewrite setn_eq; split; [reflexivity|]; split; [|intros; discriminate]); cbn; eauto.
Qed.

(** ** Induction over traces *)
Lemma runs_ind : forall (P : list act -> hst -> Prop), P [] hinit ->
  (forall l s a s', runs l s -> P l s -> exec s a = Some s' -> P (l ++ [a]) s') -> forall l s, runs l s -> P l s.
Proof.
  intros P H0 HS. induction l as [|a l IH] using rev_ind; intros s H.
  - injection H as <-. exact H0.
  - apply runs_snoc in H. destruct H as (s0 & H & E). exact (HS _ _ _ _ H (IH _ H) E).
Qed.
Lemma in_snoc : forall {A} (x a : A) l, In x (l ++ [a]) <-> In x l \/ x = a.
Proof. intros. rewrite in_app_iff. cbn. intuition. Qed.
Lemma op_of_app : forall l1 l2 t, op_of (l1 ++ l2) t = match op_of l1 t with Some o => Some o | None => op_of l2 t end.
Proof.
  induction l1 as [|a l1 IH]; intros l2 t; [reflexivity|]. destruct a; cbn; auto. destruct (Nat.eqb _ _); auto.
Qed.

(** The opcode of a call. *)
Lemma runs_op : forall l s, runs l s -> forall t, op_of l t = match thr s t with Some th => Some (t_op th) | None => None end.
Proof.
  apply (runs_ind (fun l s => forall t, op_of l t = match thr s t with Some th => Some (t_op th) | None => None end)); [reflexivity|].
  intros l s a s' _ IH E t. rewrite op_of_app, IH.
  destruct (option_map (Nat.eqb t) (actor a)) as [[|]|] eqn:Ea.
  - destruct (actor a) as [t'|] eqn:Ea'; [|discriminate]. injection Ea as Ea. apply Nat.eqb_eq in Ea. subst t'.
    destruct (exec_own _ _ _ _ E Ea') as [(op & -> & Hn & [Hs| Hs])|(op & p & p' & H1 & H2 & _)].
    + rewrite Hn, Hs. cbn. now rewrite Nat.eqb_refl.
    + rewrite Hn, Hs. cbn. now rewrite Nat.eqb_refl.
    + now rewrite H1, H2.
  - assert (N : actor a <> Some t) by (destruct (actor a) as [t'|]; [injection Ea as Ea; apply Nat.eqb_neq in Ea; congruence|discriminate]).
    rewrite (exec_frame _ _ _ _ E N). destruct (thr s t); [reflexivity|]. destruct a; cbn in N |- *; try reflexivity.
    destruct (Nat.eqb_spec t0 t); [congruence|reflexivity].
  - assert (N : actor a <> Some t) by (destruct (actor a); discriminate).
    rewrite (exec_frame _ _ _ _ E N). destruct (thr s t); [reflexivity|]. destruct a; cbn in Ea |- *; try reflexivity; discriminate.
Qed.
Lemma runs_called : forall l s, runs l s -> forall t op, called l t op <-> op_of l t = Some op.
Proof.
  apply (runs_ind (fun l s => forall t op, called l t op <-> op_of l t = Some op)); [cbn; split; easy|].
  intros l s a s' R IH E t op. unfold called in *. rewrite in_snoc, IH, op_of_app.
  assert (O := runs_op _ _ R t).
  destruct (op_of l t) as [o|] eqn:Eo.
  - split; [|auto]. intros [H|H]; [exact H|]. subst a. unfold exec in E. destruct (thr s t); [discriminate|discriminate].
  - split.
    + intros [H|<-]; [discriminate|]. cbn. now rewrite Nat.eqb_refl.
    + intro H. right. destruct a; try discriminate. cbn in H. destruct (Nat.eqb_spec t0 t) as [->|]; [congruence|discriminate].
Qed.

(** Phase invariants tying the trace to the state. *)
Definition wrote (p : phase) : bool := match p with PWait | PEnd _ | PDel _ => true | _ => false end.
Definition ended (p : phase) : bool := match p with PEnd _ | PDel _ | PRet _ => true | _ => false end.
Record hist (l : list act) (s : hst) : Prop := {
  h_written : forall t, written l t -> exists op p, thr s t = Some (mkT op p) /\ (wrote p = true \/ (returned l t /\ exists r, p = PRet r));
  h_wrote : forall t op p, thr s t = Some (mkT op p) -> wrote p = true -> written l t;
  h_deliv : forall t, In (ADeliver t) l -> exists op p, thr s t = Some (mkT op p) /\ ended p = true;
  h_reg : forall t op p, thr s t = Some (mkT op p) -> recorded p = true -> In (AReg t) l;
  h_snt : forall k t, snt s k = Some t -> In (AReg t) l;
  h_ret : forall t, returned l t -> exists op r, thr s t = Some (mkT op (PRet r));
}.

Lemma runs_hist : forall l s, runs l s -> hist l s.
Proof.
  apply runs_ind.
  { constructor; cbn; try discriminate; try (intros; contradiction); try (intros t [? []]); intros t [[]|[[]|[]]]. }
  intros l s a s' R [HW HW2 HD HR HS HRet] E.
  assert (I := runs_inv _ _ R).
  assert (MV : forall t op p, thr s t = Some (mkT op p) -> exists p', thr s' t = Some (mkT op p') /\
     (p' = p /\ actor a <> Some t \/ (actor a = Some t /\ moves a p p'))).
  { intros t op p Ht. destruct (actor a) as [t'|] eqn:Ea.
    - destruct (Nat.eq_dec t' t) as [->|N].
      + destruct (exec_own _ _ _ _ E Ea) as [(o & -> & Hn & _)|(o & q & q' & H1 & H2 & H3 & _)]; [congruence|].
        rewrite Ht in H1. injection H1 as <- <-. exists q'. auto.
      + exists p. rewrite (exec_frame _ _ _ _ E) by congruence. split; [exact Ht|]. left. split; [reflexivity|congruence].
    - exists p. rewrite (exec_frame _ _ _ _ E) by congruence. split; [exact Ht|]. left. split; [reflexivity|discriminate]. }
  constructor.
  - intros t [ok Hw]. apply in_snoc in Hw. destruct Hw as [Hw|<-].
    + destruct (HW t (ex_intro _ ok Hw)) as (op & p & Ht & Hp). destruct (MV t op p Ht) as (p' & Ht' & [[-> _]|[Ea Hm]]).
      * exists op, p. split; [exact Ht'|]. destruct Hp as [Hp|[Hp Hr]]; [auto|]. right. split; [|exact Hr].
        unfold returned in *. rewrite !in_snoc. tauto.
      * exists op, p'. split; [exact Ht'|].
        destruct Hp as [Hp|[Hp [r ->]]].
        -- destruct a; cbn in Hm, Ea; try (now exfalso); try discriminate; injection Ea as ->.
           all: try (destruct Hm as [-> ->]; try discriminate Hp; auto; fail).
           ++ destruct Hm as [-> [->| ->]]; auto.
           ++ destruct Hm as [-> [b ->]]; auto.
           ++ destruct Hm as (r & -> & ->); auto.
           ++ destruct Hm as (r & -> & ->). right. split; [|eauto]. unfold returned. rewrite !in_snoc. auto.
        -- exfalso. destruct a; cbn in Hm, Ea; try contradiction; destruct Hm as [? Hm]; try discriminate; try (destruct Hm; discriminate).
    + destruct (exec_own _ _ _ t E eq_refl) as [(o & He & _)|(o & q & q' & H1 & H2 & H3 & _)]; [discriminate|].
      cbn in H3. destruct H3 as [-> ->]. eauto.
  - intros t op p Ht Hp. destruct (option_map (Nat.eqb t) (actor a)) as [[|]|] eqn:Ea.
    + destruct (actor a) as [t'|] eqn:Ea'; [|discriminate]. injection Ea as Ea. apply Nat.eqb_eq in Ea. subst t'.
      destruct (exec_own _ _ _ _ E Ea') as [(o & -> & Hn & [Hs| Hs])|(o & q & q' & H1 & H2 & H3 & _)].
      * rewrite Ht in Hs. injection Hs as <- ->. discriminate.
      * rewrite Ht in Hs. injection Hs as <- ->. discriminate.
      * rewrite Ht in H2. injection H2 as <- <-.
        assert (D : wrote q = true \/ exists ok, a = AWrite t ok).
        { destruct a; cbn in H3, Ea'; try contradiction; try (injection Ea' as ->); try (destruct H3 as [-> ->]; cbn in *; try discriminate; eauto; fail).
          - destruct H3 as [-> _]. auto.
          - destruct H3 as [-> _]. auto.
          - destruct H3 as (r & -> & ->). auto.
          - destruct H3 as (r & -> & ->). auto. }
        destruct D as [D|[ok ->]].
        -- destruct (HW2 _ _ _ H1 D) as [ok Hk]. exists ok. apply in_snoc. auto.
        -- exists ok. apply in_snoc. auto.
    + assert (N : actor a <> Some t) by (destruct (actor a) as [t'|]; [injection Ea as Ea; apply Nat.eqb_neq in Ea; congruence|discriminate]).
      rewrite (exec_frame _ _ _ _ E N) in Ht. destruct (HW2 _ _ _ Ht Hp) as [ok Hk]. exists ok. apply in_snoc. auto.
    + assert (N : actor a <> Some t) by (destruct (actor a); discriminate).
      rewrite (exec_frame _ _ _ _ E N) in Ht. destruct (HW2 _ _ _ Ht Hp) as [ok Hk]. exists ok. apply in_snoc. auto.
  - intros t Hd. apply in_snoc in Hd. destruct Hd as [Hd|<-].
    + destruct (HD t Hd) as (op & p & Ht & Hp). destruct (MV t op p Ht) as (p' & Ht' & [[-> _]|[Ea Hm]]); [eauto|].
      exists op, p'. split; [exact Ht'|]. destruct a; cbn in Hm; try contradiction; try (destruct Hm as [-> ->]; discriminate).
      * destruct Hm as [-> [->| ->]]; auto.
      * destruct Hm as [-> [b ->]]; auto.
      * destruct Hm as (r & -> & ->); auto.
      * destruct Hm as (r & -> & ->); auto.
    + destruct (exec_own _ _ _ t E eq_refl) as [(o & He & _)|(o & q & q' & H1 & H2 & H3 & _)]; [discriminate|].
      cbn in H3. destruct H3 as [-> [b ->]]. eauto.
  - intros t op p Ht Hp. apply in_snoc. destruct (actor a) as [t'|] eqn:Ea; [destruct (Nat.eq_dec t' t) as [->|N]|].
    + destruct (exec_own _ _ _ _ E Ea) as [(o & -> & Hn & [Hs| Hs])|(o & q & q' & H1 & H2 & H3 & _)].
      * rewrite Ht in Hs. injection Hs as <- ->. discriminate.
      * rewrite Ht in Hs. injection Hs as <- ->. discriminate.
      * rewrite Ht in H2. injection H2 as <- <-.
        destruct a; cbn in H3, Ea; try contradiction; try (injection Ea as ->); try (destruct H3 as [-> ->]; cbn in *; try discriminate; eauto; fail).
        -- destruct H3 as [-> _]. eauto.
        -- destruct H3 as [-> _]. eauto.
        -- destruct H3 as (r & -> & ->). discriminate.
        -- destruct H3 as (r & -> & ->). discriminate.
    + rewrite (exec_frame _ _ _ _ E) in Ht by congruence. eauto.
    + rewrite (exec_frame _ _ _ _ E) in Ht by congruence. eauto.
  - intros k t Hk. apply in_snoc.
    assert (C : snt s k = Some t \/ a = AReg t).
    { destruct a; exec_inv E; subst s'; cbn [snt] in Hk; auto; try discriminate.
      - destruct (Z.eq_dec k (key t_op)) as [->|N]; [rewrite setz_eq in Hk; injection Hk as ->; auto|rewrite setz_neq in Hk by exact N; auto].
      - destruct (Z.eq_dec k (key t_op)) as [->|N]; [rewrite setz_eq in Hk; discriminate|rewrite setz_neq in Hk by exact N; auto]. }
    destruct C as [C| ->]; [left; eauto|auto].
  - intros t Hr. unfold returned in Hr. rewrite !in_snoc in Hr.
    assert (C : returned l t \/ a = AUnlock t \/ a = ANoBuf t \/ a = AShut t) by (unfold returned; intuition auto).
    destruct C as [C|C].
    + destruct (HRet _ C) as (op & r & Ht). destruct (MV _ _ _ Ht) as (p' & Ht' & [[-> _]|[Ea Hm]]); [eauto|].
      exfalso. destruct a; cbn in Hm, Ea; try contradiction; destruct Hm as [? Hm]; try discriminate; try (destruct Hm; discriminate).
    + assert (Ea : actor a = Some t) by (destruct C as [->|[->| ->]]; reflexivity).
      destruct (exec_own _ _ _ t E Ea) as [(o & He & _)|(o & q & q' & H1 & H2 & H3 & _)]; [intuition congruence|].
      destruct C as [->|[->| ->]]; cbn in H3; [destruct H3 as (r & -> & ->)|destruct H3 as [-> ->]|destruct H3 as [-> ->]]; eauto.
Qed.
