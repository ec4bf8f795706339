(** Invariants of the HCI command path. *)
Require Import Verif.Base Verif.M_hcicmd Verif.S_hcicmd.

Definition holds (p : phase) : bool := match p with PLocked | PBuf | PReg | PWait | PEnd _ | PDel _ => true | _ => false end.
Definition recorded (p : phase) : bool := match p with PReg | PWait | PEnd _ => true | _ => false end.

Lemma setn_eq : forall {A} (f : nat -> A) k v, setn f k v k = v.
Proof. intros. unfold setn. now rewrite Nat.eqb_refl. Qed.
Lemma setn_neq : forall {A} (f : nat -> A) k v x, x <> k -> setn f k v x = f x.
Proof. intros A f k v x H. unfold setn. apply Nat.eqb_neq in H. now rewrite H. Qed.
Lemma setz_eq : forall {A} (f : Z -> A) k v, setz f k v k = v.
Proof. intros. unfold setz. now rewrite Z.eqb_refl. Qed.
Lemma setz_neq : forall {A} (f : Z -> A) k v x, x <> k -> setz f k v x = f x.
Proof. intros A f k v x H. unfold setz. apply Z.eqb_neq in H. now rewrite H. Qed.

Lemma exec_all_app : forall l1 l2 s, exec_all s (l1 ++ l2) = match exec_all s l1 with Some s' => exec_all s' l2 | None => None end.
Proof. induction l1 as [|a l1 IH]; intros l2 s; [reflexivity|]. cbn. destruct (exec s a); auto. Qed.
Lemma runs_snoc : forall l a s', runs (l ++ [a]) s' <-> exists s, runs l s /\ exec s a = Some s'.
Proof.
  intros l a s'. unfold runs. rewrite exec_all_app. split.
  - destruct (exec_all hinit l) as [s|] eqn:E; [|discriminate]. cbn. intro H. exists s. destruct (exec s a); [auto|discriminate].
  - intros (s & -> & H). cbn. now rewrite H.
Qed.
Lemma runs_prefix : forall l1 l2 s, runs (l1 ++ l2) s -> exists s1, runs l1 s1 /\ exec_all s1 l2 = Some s.
Proof.
  intros l1 l2 s. unfold runs. rewrite exec_all_app. destruct (exec_all hinit l1) as [s1|] eqn:E; [|discriminate]. eauto.
Qed.

(** The thread an action belongs to, and the table seen as updates. *)
Ltac exec_inv H :=
  unfold exec in H;
  repeat match type of H with
  | context [match ?x with _ => _ end] => let E := fresh "E" in destruct x eqn:E; try discriminate H
  end;
  try (injection H as H).

Record inv (s : hst) : Prop := {
  i_lock : forall t op p, thr s t = Some (mkT op p) -> holds p = true -> lck s (key op) = Some t;
  i_holder : forall k t, lck s k = Some t -> exists op p, thr s t = Some (mkT op p) /\ holds p = true /\ key op = k;
  i_sent : forall k t, snt s k = Some t -> exists op p, thr s t = Some (mkT op p) /\ key op = k /\
             (recorded p = true \/ (closed s = true /\ exists r, p = PRet r));
  i_give : forall t b, lp s = LGive t b -> exists op p, thr s t = Some (mkT op p) /\ p <> PStart /\ p <> PLocked /\ p <> PBuf;
}.

Lemma inv_init : inv hinit.
Proof. constructor; cbn; intros; discriminate. Qed.

Definition early (p : phase) : bool := match p with PStart | PLocked | PBuf => true | _ => false end.

Lemma inv_move : forall s t op p p' L S B l c f, inv s -> thr s t = Some (mkT op p) -> (forall r, p <> PRet r) ->
  (early p = false -> early p' = false) ->
  (L = lck s /\ holds p' = holds p \/
   L = setz (lck s) (key op) (Some t) /\ lck s (key op) = None /\ holds p' = true \/
   L = setz (lck s) (key op) None /\ holds p = true /\ holds p' = false) ->
  (S = snt s /\ (recorded p = true -> recorded p' = true \/ (closed s = true /\ exists r, p' = PRet r)) \/
   S = setz (snt s) (key op) (Some t) /\ recorded p' = true \/
   S = setz (snt s) (key op) None /\ holds p = true) ->
  (l = lp s \/ l = LIdle) -> c = closed s ->
  inv (mkH (setn (thr s) t (Some (mkT op p'))) L S B l c f).
Proof.
  intros s t op p p' L S B l c f [IL IH IS IG] Ht Hnr He HL HS Hl ->. constructor; cbn [thr lck snt bufs lp closed failed].
  - intros t0 op0 q. destruct (Nat.eq_dec t0 t) as [->|N].
    + rewrite setn_eq. intros [= <- <-] Hq. destruct HL as [[-> HL]|[(-> & HL1 & HL2)|(-> & HL1 & HL2)]].
      * apply (IL t op p Ht). congruence.
      * apply setz_eq.
      * congruence.
    + rewrite setn_neq by exact N. intros Ht0 Hq. assert (K := IL _ _ _ Ht0 Hq). destruct HL as [[-> HL]|[(-> & HL1 & HL2)|(-> & HL1 & HL2)]].
      * exact K.
      * rewrite setz_neq; [exact K|]. intro E. rewrite E in K. congruence.
      * rewrite setz_neq; [exact K|]. intro E. rewrite E in K. rewrite (IL _ _ _ Ht HL1) in K. congruence.
  - intros k t0 Hk.
    assert (D : lck s k = Some t0 /\ (t0 = t -> holds p' = true /\ key op = k) \/ (t0 = t /\ k = key op /\ holds p' = true)).
    { destruct HL as [[-> HL]|[(-> & HL1 & HL2)|(-> & HL1 & HL2)]].
      - left. split; [exact Hk|]. intros ->. destruct (IH _ _ Hk) as (o & q & E1 & E2 & E3).
        rewrite Ht in E1. injection E1 as -> ->. split; congruence.
      - destruct (Z.eq_dec k (key op)) as [->|N].
        + rewrite setz_eq in Hk. injection Hk as <-. auto.
        + rewrite setz_neq in Hk by exact N. left. split; [exact Hk|]. intros ->. destruct (IH _ _ Hk) as (o & q & E1 & E2 & E3).
          rewrite Ht in E1. injection E1 as -> ->. congruence.
      - destruct (Z.eq_dec k (key op)) as [->|N]; [rewrite setz_eq in Hk; discriminate|].
        rewrite setz_neq in Hk by exact N. left. split; [exact Hk|]. intros ->. destruct (IH _ _ Hk) as (o & q & E1 & E2 & E3).
        rewrite Ht in E1. injection E1 as -> ->. congruence. }
    destruct (Nat.eq_dec t0 t) as [->|N].
    + rewrite setn_eq. exists op, p'. destruct D as [[D1 D2]|(D1 & D2 & D3)]; [destruct (D2 eq_refl)|]; auto.
    + rewrite setn_neq by exact N. destruct D as [[D1 D2]|(D1 & D2 & D3)]; [exact (IH _ _ D1)|congruence].
  - intros k t0 Hk.
    destruct HS as [[-> HS]|[(-> & HS)|[-> HS]]].
    + destruct (IS _ _ Hk) as (o & q & E1 & E2 & E3). destruct (Nat.eq_dec t0 t) as [->|N].
      * rewrite Ht in E1. injection E1 as -> ->. exists o, p'. rewrite setn_eq. split; [reflexivity|]. split; [exact E2|].
        destruct E3 as [E3|(C & r & ->)]; [auto|]. exfalso. now apply (Hnr r).
      * exists o, q. rewrite setn_neq by exact N. auto.
    + destruct (Z.eq_dec k (key op)) as [->|N].
      * rewrite setz_eq in Hk. injection Hk as <-. exists op, p'. rewrite setn_eq. auto.
      * rewrite setz_neq in Hk by exact N. destruct (IS _ _ Hk) as (o & q & E1 & E2 & E3). exists o, q.
        rewrite setn_neq; [auto|]. intros ->. rewrite Ht in E1. injection E1 as -> ->. congruence.
    + destruct (Z.eq_dec k (key op)) as [->|N]; [rewrite setz_eq in Hk; discriminate|].
      rewrite setz_neq in Hk by exact N. destruct (IS _ _ Hk) as (o & q & E1 & E2 & E3). exists o, q.
      rewrite setn_neq; [auto|]. intros ->. rewrite Ht in E1. injection E1 as -> ->. congruence.
  - intros t0 b Hb. assert (G : lp s = LGive t0 b) by (destruct Hl as [<-| ->]; [exact Hb|discriminate]).
    destruct (IG _ _ G) as (o & q & E1 & E2 & E3 & E4). destruct (Nat.eq_dec t0 t) as [->|N].
    + rewrite Ht in E1. injection E1 as -> ->. exists o, p'. rewrite setn_eq. split; [reflexivity|].
      assert (X : early p' = false) by (apply He; destruct q; auto; congruence). destruct p'; try discriminate; repeat split; discriminate.
    + exists o, q. rewrite setn_neq by exact N. auto.
Qed.

Lemma inv_step : forall s a s', inv s -> exec s a = Some s' -> inv s'.
Proof.
  intros s a s' I H. assert (I0 := I). destruct I0 as [IL IH IS IG].
  assert (SP : forall t op q f, thr s t = None -> holds q = false -> early q = true \/ (exists r, q = PRet r) ->
     inv (mkH (setn (thr s) t (Some (mkT op q))) (lck s) (snt s) (bufs s) (lp s) (closed s) f)).
  { intros t op q f Hn Hq _. constructor; cbn [thr lck snt bufs lp closed failed].
    + intros t0 op0 p. destruct (Nat.eq_dec t0 t) as [->|N]; [rewrite setn_eq|rewrite setn_neq by exact N; eauto]. intros [= <- <-]; congruence.
    + intros k t0 Hk. destruct (IH k t0 Hk) as (op0 & p & E1 & E2 & E3). exists op0, p. rewrite setn_neq by congruence. auto.
    + intros k t0 Hk. destruct (IS k t0 Hk) as (op0 & p & E1 & E2 & E3). exists op0, p. rewrite setn_neq by congruence. auto.
    + intros t0 b Hb. destruct (IG t0 b Hb) as (op0 & p & E1 & E2). exists op0, p. rewrite setn_neq by congruence. auto. }
  assert (EV : forall code b, a = AEvt code b -> inv s').
  { intros code b ->. unfold exec in H. destruct (lp s) eqn:El; try discriminate. destruct (evt_effect code b) as [n c]. injection H as <-.
    constructor; cbn [thr lck snt bufs lp closed failed]; auto.
    intros t0 d0 Hg. destruct c as [[k d]|]; [|discriminate]. destruct (snt s k) as [t1|] eqn:Es; [|discriminate]. injection Hg as -> ->.
    destruct (IS _ _ Es) as (o1 & q & E1 & E2 & E3). exists o1, q. split; [exact E1|].
    destruct E3 as [E3|(_ & r & ->)]; [destruct q; try discriminate|]; repeat split; discriminate. }
  destruct a; try (now eapply EV); clear EV; exec_inv H; subst s'.
  1,2: apply SP; auto; right; eauto.
  13,14: constructor; cbn [thr lck snt bufs lp closed failed]; auto; try discriminate; try (intros; discriminate).
  13: constructor; cbn [thr lck snt bufs lp closed failed]; auto.
  13: { constructor; cbn [thr lck snt bufs lp closed failed]; auto.
    intros k t Hk. destruct (IS k t Hk) as (o & q & E1 & E2 & E3). exists o, q. split; [exact E1|]. split; [exact E2|].
    destruct E3 as [E3|[_ E3]]; [auto|]. right. auto. }
  all: subst; eapply inv_move; [exact I|eassumption|intros; discriminate|cbn; auto; discriminate| | | |]; cbn [holds recorded]; auto 6.
  all: try (right; left; split; [reflexivity|]; split; [assumption|reflexivity]).
  left. split; [reflexivity|]. intros _. right. eauto.
Qed.

Lemma runs_inv : forall l s, runs l s -> inv s.
Proof.
  induction l as [|a l IH] using rev_ind; intros s H.
  - injection H as <-. apply inv_init.
  - apply runs_snoc in H. destruct H as (s0 & H & E). exact (inv_step _ _ _ (IH _ H) E).
Qed.
