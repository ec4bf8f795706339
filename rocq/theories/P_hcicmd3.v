(** Delivery of completions. *)
Require Import Verif.Base Verif.M_hcicmd Verif.S_hcicmd Verif.P_hcicmd Verif.P_hcicmd2.

(** The last event of [l] completed call [t] (opcode [op]) with data [b], after [t] was recorded. *)
Definition given (l : list act) (t : nat) (op : Z) (b : bytes) : Prop :=
  exists l1 c p l2, l = l1 ++ AEvt c p :: l2 /\ Forall (fun a => ~ is_evt a /\ forall t', a <> ADeliver t') l2 /\
    completes (AEvt c p) = Some (key op, b) /\ In (AReg t) l1.
Definition answered (l : list act) (t : nat) (op : Z) (b : bytes) : Prop :=
  exists l1 l2, l = l1 ++ ADeliver t :: l2 /\ given l1 t op b.

Lemma given_snoc : forall l t op b a, given l t op b -> ~ is_evt a -> (forall t', a <> ADeliver t') -> given (l ++ [a]) t op b.
Proof.
  intros l t op b a (l1 & c & p & l2 & -> & F & C & R) N1 N2. exists l1, c, p, (l2 ++ [a]). rewrite <- app_assoc. split; [reflexivity|].
  split; [|auto]. apply Forall_app. auto.
Qed.
Lemma answered_snoc : forall l t op b a, answered l t op b -> answered (l ++ [a]) t op b.
Proof. intros l t op b a (l1 & l2 & -> & G). exists l1, (l2 ++ [a]). rewrite <- app_assoc. auto. Qed.

Definition result (p : phase) : option cres := match p with PEnd r | PDel r | PRet r => Some r | _ => None end.

Record dinv (l : list act) (s : hst) : Prop := {
  d_give : forall t b op p, lp s = LGive t b -> thr s t = Some (mkT op p) -> given l t op b;
  d_ok : forall t op p b, thr s t = Some (mkT op p) -> result p = Some (COk b) -> answered l t op b;
}.
Lemma runs_dinv : forall l s, runs l s -> dinv l s.
Proof.
  apply runs_ind; [constructor; cbn; discriminate|]. intros l s a s' R [DG DO] E.
  assert (I := runs_inv _ _ R). assert (H := runs_hist _ _ R).
  constructor.
  - intros t b op p Hl Ht.
    assert (C : (lp s = LGive t b /\ ~ is_evt a /\ forall t', a <> ADeliver t') \/
                (exists c q, a = AEvt c q /\ exists k, completes a = Some (k, b) /\ snt s k = Some t)).
    { destruct a; try (left; split; [exec_inv E; subst s'; cbn [lp] in Hl; auto; discriminate|]; split; [cbn; tauto|intros; discriminate]).
      - exec_inv E; subst s'; discriminate.
      - right. exists code, b0. split; [reflexivity|]. cbn [completes]. unfold exec in E. destruct (lp s); try discriminate.
        destruct (evt_effect code b0) as [n [[k d]|]]; injection E as <-; cbn [lp] in Hl; [|discriminate].
        exists k. destruct (snt s k) as [t1|]; [|discriminate]. injection Hl as -> ->. auto. }
    destruct C as [(C1 & C2 & C3)|(c & q & -> & k & C1 & C2)].
    + destruct (i_give _ I _ _ C1) as (o & r & Ht0 & _).
      assert (o = op).
      { destruct (actor a) as [t'|] eqn:Ea; [destruct (Nat.eq_dec t' t) as [->|N]|].
        - destruct (exec_own _ _ _ _ E Ea) as [(x & -> & Hn & _)|(x & y & z & H1 & H2 & _)]; congruence.
        - rewrite (exec_frame _ _ _ _ E) in Ht by congruence. congruence.
        - rewrite (exec_frame _ _ _ _ E) in Ht by congruence. congruence. }
      subst o. apply given_snoc; eauto.
    + rewrite (exec_frame _ _ _ t E) in Ht by discriminate.
      destruct (i_sent _ I _ _ C2) as (o & r & Ht0 & Hk & _). rewrite Ht in Ht0. injection Ht0 as <- <-.
      exists l, c, q, []. split; [reflexivity|]. split; [constructor|]. split; [now rewrite Hk|]. exact (h_snt _ _ H _ _ C2).
  - intros t op p b Ht Hp.
    assert (C : (exists q, thr s t = Some (mkT op q) /\ result q = Some (COk b)) \/ (a = ADeliver t /\ lp s = LGive t b /\ exists q, thr s t = Some (mkT op q))).
    { destruct (actor a) as [t'|] eqn:Ea; [destruct (Nat.eq_dec t' t) as [->|N]|].
      - destruct (exec_own _ _ _ _ E Ea) as [(o & -> & Hn & [Hs| Hs])|(o & q & q' & H1 & H2 & H3 & _)].
        + rewrite Ht in Hs. injection Hs as <- ->. discriminate.
        + rewrite Ht in Hs. injection Hs as <- ->. discriminate.
        + rewrite Ht in H2. injection H2 as <- <-.
          destruct a; cbn in H3, Ea; try contradiction; try (injection Ea as ->); try (destruct H3 as [-> ->]; cbn in Hp; discriminate).
          * destruct H3 as [-> [->| ->]]; discriminate.
          * right. split; [reflexivity|]. destruct H3 as [-> [b' ->]]. injection Hp as ->.
            unfold exec in E. rewrite H1 in E. destruct (lp s) as [|t' b''|] eqn:El; try discriminate.
            destruct (Nat.eqb_spec t' t) as [->|]; [|discriminate]. injection E as <-. cbn [thr] in Ht. rewrite setn_eq in Ht. injection Ht as ->. eauto.
          * left. destruct H3 as (r & -> & ->). eauto.
          * left. destruct H3 as (r & -> & ->). eauto.
      - rewrite (exec_frame _ _ _ _ E) in Ht by congruence. eauto.
      - rewrite (exec_frame _ _ _ _ E) in Ht by congruence. eauto. }
    destruct C as [(q & H1 & H2)|(-> & H1 & q & H2)].
    + apply answered_snoc. eauto.
    + exists l, []. split; [reflexivity|]. eauto.
Qed.

(** ** A well-behaved controller *)
Lemma honest_prefix : forall l1 l2, honest (l1 ++ l2) -> honest l1.
Proof.
  intros l1 l2 [H1 H2]. split.
  - intros a1 a a2 op d -> C. apply (H1 a1 a (a2 ++ l2) op d); [now rewrite <- app_assoc|exact C].
  - apply Forall_app in H2. tauto.
Qed.
Lemma writes_snoc : forall l s a op, runs l s -> exec s a <> None ->
  writes op (l ++ [a]) = (writes op l + (if is_write_of l op a then 1 else 0))%nat.
Proof.
  intros l s a op R E. unfold writes. rewrite filter_app, app_length.
  assert (X : forall x, In x l \/ x = a -> is_write_of (l ++ [a]) op x = is_write_of l op x).
  { intros x Hx. destruct x; try reflexivity. cbn. rewrite op_of_app.
    assert (D : op_of l t <> None).
    { rewrite (runs_op _ _ R). destruct Hx as [Hx|<-].
      - destruct (h_written _ _ (runs_hist _ _ R) t (ex_intro _ ok Hx)) as (o & p & -> & _). discriminate.
      - cbn in E. destruct (thr s t) as [[? []]|]; cbn in *; congruence. }
    destruct (op_of l t); [reflexivity|congruence]. }
  f_equal.
  - f_equal. apply filter_ext_in. intros x Hx. apply X. auto.
  - cbn [filter]. rewrite X by auto. destruct (is_write_of l op a); reflexivity.
Qed.
Lemma completions_snoc : forall l a op, completions op (l ++ [a]) = (completions op l + (if is_completion_of op a then 1 else 0))%nat.
Proof. intros. unfold completions. rewrite filter_app, app_length. cbn [filter]. destruct (is_completion_of op a); reflexivity. Qed.

(** Call [t] has been written and awaits the completion of [op]. *)
Definition waiting (s : hst) (op : Z) (t : nat) : Prop := thr s t = Some (mkT op PWait) /\ forall b, lp s <> LGive t b.

Record good (l : list act) (s : hst) : Prop := {
  g_open : closed s = false /\ failed s = false /\ lp s <> LStopped;
  g_ops : forall t th, thr s t = Some th -> key (t_op th) = t_op th;
  g_sent : forall t op p, thr s t = Some (mkT op p) -> recorded p = true -> snt s op = Some t;
  g_give : forall t b, lp s = LGive t b -> exists op, thr s t = Some (mkT op PWait);
  g_count : forall op, (exists t, waiting s op t) /\ writes op l = S (completions op l) \/
                       (forall t, ~ waiting s op t) /\ writes op l = completions op l;
  g_unans : forall t op p, thr s t = Some (mkT op p) -> result p <> None -> written l t -> In (ADeliver t) l;
}.

Lemma key_id : forall op, op / 1024 <> 63 -> key op = op.
Proof. intros op H. unfold key. apply Z.eqb_neq in H. now rewrite H. Qed.

(** Actions that are neither writes nor completions and leave [waiting] alone. *)
Lemma g_count_same : forall l s a s', runs l s -> exec s a = Some s' -> good l s ->
  (forall op, is_write_of l op a = false) -> completes a = None -> (forall op t, waiting s' op t <-> waiting s op t) ->
  forall op, (exists t, waiting s' op t) /\ writes op (l ++ [a]) = S (completions op (l ++ [a])) \/
             (forall t, ~ waiting s' op t) /\ writes op (l ++ [a]) = completions op (l ++ [a]).
Proof.
  intros l s a s' R E G HW HC HQ op. rewrite (writes_snoc _ _ _ _ R) by congruence. rewrite completions_snoc, HW.
  unfold is_completion_of. rewrite HC, !Nat.add_0_r. destruct (g_count _ _ G op) as [[[t Ht] Hc]|[Ht Hc]].
  - left. split; [exists t; now apply HQ|exact Hc].
  - right. split; [|exact Hc]. intros t Hn. apply (Ht t). now apply HQ.
Qed.

Lemma runs_good : forall l s, runs l s -> honest l -> good l s.
Proof.
  apply (runs_ind (fun l s => honest l -> good l s)).
  { intros _. constructor; cbn; try discriminate; [repeat split; discriminate|].
    intro op. right. split; [intros t [H _]; discriminate|reflexivity]. }
  intros l s a s' R IHg E Hh. assert (G := IHg (honest_prefix _ _ Hh)). clear IHg.
  assert (I := runs_inv _ _ R). assert (I' := inv_step _ _ _ I E). assert (H := runs_hist _ _ R).
  destruct (g_open _ _ G) as (Gc & Gf & Gs).
  assert (Ha : match a with ATimeout _ | AClose | AStop | AReadErr => False | AWrite _ ok => ok = true
     | ASpawn _ op => op / 1024 <> 63 | AEvt c _ => c <> 255 | _ => True end).
  { destruct Hh as [_ Hf]. apply Forall_app in Hf. destruct Hf as [_ Hf]. now apply Forall_cons_iff in Hf. }
  assert (OWN : forall t op p, thr s' t = Some (mkT op p) -> actor a <> Some t -> thr s t = Some (mkT op p)).
  { intros t op p Ht N. now rewrite (exec_frame _ _ _ _ E N) in Ht. }
  assert (OPS : forall t th, thr s' t = Some th -> key (t_op th) = t_op th).
  { intros t [op p] Ht. cbn. destruct (actor a) as [t'|] eqn:Ea; [destruct (Nat.eq_dec t' t) as [->|N]|].
    - destruct (exec_own _ _ _ _ E Ea) as [(o & -> & Hn & [Hs| Hs])|(o & q & q' & H1 & H2 & H3 & _)].
      + rewrite Ht in Hs. injection Hs as <- ->. now apply key_id.
      + rewrite Ht in Hs. injection Hs as <- ->. now apply key_id.
      + rewrite Ht in H2. injection H2 as <- <-. exact (g_ops _ _ G _ _ H1).
    - apply OWN in Ht; [|congruence]. exact (g_ops _ _ G _ _ Ht).
    - apply OWN in Ht; [|congruence]. exact (g_ops _ _ G _ _ Ht). }
  assert (UNIQ : forall t t' op p p', thr s t = Some (mkT op p) -> thr s t' = Some (mkT op p') -> holds p = true -> holds p' = true -> t = t').
  { intros t t' op p p' H1 H2 P1 P2. assert (L1 := i_lock _ I _ _ _ H1 P1). assert (L2 := i_lock _ I _ _ _ H2 P2). congruence. }
  assert (WR : forall t, written (l ++ [a]) t -> (forall ok, a <> AWrite t ok) -> written l t).
  { intros t [ok Hw] N. apply in_snoc in Hw. destruct Hw as [Hw|Hw]; [exists ok; exact Hw|]. exfalso. now apply (N ok). }
  (* delivery of results *)
  assert (UN : forall t op p, thr s' t = Some (mkT op p) -> result p <> None -> written (l ++ [a]) t -> In (ADeliver t) (l ++ [a])).
  { intros t op p Ht Hp Hw. apply in_snoc. destruct (actor a) as [t'|] eqn:Ea; [destruct (Nat.eq_dec t' t) as [->|N]|].
    - destruct (exec_own _ _ _ _ E Ea) as [(o & -> & Hn & _)|(o & q & q' & H1 & H2 & H3 & _)].
      + exfalso. apply WR in Hw; [|discriminate]. destruct (h_written _ _ H _ Hw) as (o1 & p1 & Hx & _). congruence.
      + rewrite Ht in H2. injection H2 as <- <-.
        destruct a; cbn in H3, Ea, Ha; try contradiction; injection Ea as ->; try (destruct H3 as [-> ->]; exfalso; apply Hp; reflexivity).
        * destruct H3 as [-> ->]. exfalso. apply WR in Hw; [|discriminate]. destruct (h_written _ _ H _ Hw) as (o1 & p1 & Hx & [Hy|[Hy [r ->]]]); rewrite H1 in Hx; [injection Hx as <- <-|]; discriminate.
        * exfalso. unfold exec in E. rewrite H1 in E. destruct H3 as [-> _]. rewrite Gc in E. discriminate.
        * exfalso. unfold exec in E. rewrite H1 in E. destruct H3 as [-> _]. rewrite Gc in E. discriminate.
        * auto.
        * left. destruct H3 as (r & -> & ->). eapply (g_unans _ _ G); [exact H1|discriminate|]. apply WR; [exact Hw|discriminate].
        * left. destruct H3 as (r & -> & ->). eapply (g_unans _ _ G); [exact H1|discriminate|]. apply WR; [exact Hw|discriminate].
    - left. assert (Ht0 := OWN _ _ _ Ht ltac:(congruence)). eapply (g_unans _ _ G); [exact Ht0|exact Hp|]. apply WR; [exact Hw|].
      intros ok ->. cbn in Ea. congruence.
    - left. assert (Ht0 := OWN _ _ _ Ht ltac:(congruence)). eapply (g_unans _ _ G); [exact Ht0|exact Hp|]. apply WR; [exact Hw|].
      intros ok ->. discriminate. }
  (* actions other than write, event, deliver: lp unchanged, PWait set unchanged *)
  assert (SAME : lp s' = lp s -> closed s' = closed s -> failed s' = failed s ->
     (forall op, is_write_of l op a = false) -> completes a = None ->
     (forall t op, thr s' t = Some (mkT op PWait) <-> thr s t = Some (mkT op PWait)) ->
     (forall t op p, thr s' t = Some (mkT op p) -> recorded p = true -> snt s' op = Some t) -> good (l ++ [a]) s').
  { intros E1 E2 E3 HW HC HP HS. constructor; auto.
    - rewrite E1, E2, E3. auto.
    - intros t b Hl. rewrite E1 in Hl. destruct (g_give _ _ G _ _ Hl) as [op Hop]. exists op. now apply HP.
    - apply (g_count_same l s a s' R E G HW HC). intros op t. unfold waiting. rewrite E1, HP. tauto. }
  assert (PW : forall t0, actor a = Some t0 -> (forall ok, a <> AWrite t0 ok) -> (forall op, thr s t0 <> Some (mkT op PWait)) ->
     forall t op, thr s' t = Some (mkT op PWait) <-> thr s t = Some (mkT op PWait)).
  { intros t0 Ea Nw Np t op. destruct (Nat.eq_dec t t0) as [->|N].
    - split; intro Ht; [|exfalso; now apply (Np op)].
      destruct (exec_own _ _ _ _ E Ea) as [(o & -> & Hn & [Hs| Hs])|(o & q & q' & H1 & H2 & H3 & _)]; try congruence.
      rewrite Ht in H2. injection H2 as <- <-. exfalso. destruct a; cbn in H3; try contradiction.
      all: try (destruct H3 as [? ?]; discriminate).
      + cbn in Ea. injection Ea as ->. now apply (Nw ok).
      + destruct H3 as [_ [H3|H3]]; discriminate.
      + destruct H3 as [_ [b H3]]; discriminate.
      + destruct H3 as (r & _ & H3); discriminate.
      + destruct H3 as (r & _ & H3); discriminate.
    - rewrite (exec_frame _ _ _ _ E) by congruence. tauto. }
  destruct a as [t op|t|t|t|t|t ok|t|t|t|t|t|t|code b| | | |]; cbn in Ha; try contradiction.
  - (* spawn *) cbn in E. destruct (thr s t) eqn:Et; [discriminate|]. injection E as <-. apply SAME; auto.
    + apply (PW t); [reflexivity|discriminate|intros; congruence].
    + cbn [thr snt]. intros t1 op1 p1. destruct (Nat.eq_dec t1 t) as [->|N]; [rewrite setn_eq; rewrite Gf; intros [= <- <-]; discriminate|].
      rewrite setn_neq by exact N. apply (g_sent _ _ G).
  - cbn in E. destruct (thr s t) as [[op []]|] eqn:Et; try discriminate. destruct (lck s (key op)); [discriminate|]. injection E as <-. apply SAME; auto.
    + apply (PW t); [reflexivity|discriminate|intros; congruence].
    + cbn [thr snt]. intros t1 op1 p1. destruct (Nat.eq_dec t1 t) as [->|N]; [rewrite setn_eq; intros [= <- <-]; discriminate|].
      rewrite setn_neq by exact N. apply (g_sent _ _ G).
  - cbn in E. destruct (thr s t) as [[op []]|] eqn:Et; try discriminate. destruct (bufs s); [discriminate|]. injection E as <-. apply SAME; auto.
    + apply (PW t); [reflexivity|discriminate|intros; congruence].
    + cbn [thr snt]. intros t1 op1 p1. destruct (Nat.eq_dec t1 t) as [->|N]; [rewrite setn_eq; intros [= <- <-]; discriminate|].
      rewrite setn_neq by exact N. apply (g_sent _ _ G).
  - cbn in E. destruct (thr s t) as [[op []]|] eqn:Et; try discriminate. injection E as <-. apply SAME; auto.
    + apply (PW t); [reflexivity|discriminate|intros; congruence].
    + cbn [thr snt]. intros t1 op1 p1. destruct (Nat.eq_dec t1 t) as [->|N]; [rewrite setn_eq; intros [= <- <-]; discriminate|].
      rewrite setn_neq by exact N. apply (g_sent _ _ G).
  - (* reg *) cbn in E. destruct (thr s t) as [[op []]|] eqn:Et; try discriminate. injection E as <-. apply SAME; auto.
    + apply (PW t); [reflexivity|discriminate|intros; congruence].
    + cbn [thr snt]. assert (K := g_ops _ _ G _ _ Et). cbn in K. rewrite K. intros t1 op1 p1. destruct (Nat.eq_dec t1 t) as [->|N].
      * rewrite setn_eq. intros [= <- <-] _. apply setz_eq.
      * rewrite setn_neq by exact N. intros H1 H2. rewrite setz_neq; [exact (g_sent _ _ G _ _ _ H1 H2)|].
        intros ->. apply N. apply (UNIQ t1 t op p1 PBuf H1 Et); [destruct p1; cbn in *; congruence|reflexivity].
  - (* write *) assert (E0 := E). cbn in E. destruct (thr s t) as [[op []]|] eqn:Et; try discriminate. rewrite Gc in E. injection E as Es'.
    assert (Nl : forall b, lp s <> LGive t b).
    { intros b Hb. destruct (g_give _ _ G _ _ Hb) as [o Ho]. congruence. }
    assert (NW : forall t', ~ waiting s op t').
    { intros t' [Hw _]. assert (t' = t) by (eapply UNIQ; [exact Hw|exact Et|reflexivity|reflexivity]). subst t'. congruence. }
    assert (OO : op_of l t = Some op) by (rewrite (runs_op _ _ R), Et; reflexivity).
    constructor; auto.
    + subst s'. cbn. rewrite Gf, Ha. auto.
    + subst s'. cbn [thr snt]. intros t1 op1 p1. destruct (Nat.eq_dec t1 t) as [->|N].
      * rewrite setn_eq. intros [= <- <-] _. exact (g_sent _ _ G _ _ _ Et eq_refl).
      * rewrite setn_neq by exact N. apply (g_sent _ _ G).
    + subst s'. cbn [thr lp]. intros t1 b1 Hl. destruct (g_give _ _ G _ _ Hl) as [o Ho]. exists o. rewrite setn_neq; [exact Ho|congruence].
    + intro op1. rewrite (writes_snoc _ _ _ _ R) by congruence. rewrite completions_snoc. cbn [is_write_of is_completion_of completes].
      rewrite OO. destruct (Z.eqb_spec op op1) as [<-|No].
      * left. split; [exists t; split; [subst s'; cbn; now rewrite setn_eq|subst s'; cbn; auto]|].
        destruct (g_count _ _ G op) as [[[t' Hw] _]|[_ Hc]]; [exfalso; now apply (NW t')|]. unfold is_completion_of. cbn. lia.
      * unfold is_completion_of. cbn [completes]. rewrite !Nat.add_0_r.
        assert (Q : forall t', waiting s' op1 t' <-> waiting s op1 t').
        { intro t'. unfold waiting. subst s'. cbn [thr lp]. destruct (Nat.eq_dec t' t) as [->|N]; [rewrite setn_eq; split; intros [X _]; congruence|].
          rewrite setn_neq by exact N. tauto. }
        destruct (g_count _ _ G op1) as [[[t' Hw] Hc]|[Hw Hc]]; [left|right]; (split; [|exact Hc]).
        -- exists t'. now apply Q.
        -- intros t' X. apply (Hw t'). now apply Q.
  - (* shut *) cbn in E. destruct (thr s t) as [[op []]|] eqn:Et; try discriminate. rewrite Gc in E. discriminate.
  - (* see done *) cbn in E. destruct (thr s t) as [[op []]|] eqn:Et; try discriminate. rewrite Gc in E. discriminate.
  - (* deliver *) assert (E0 := E). cbn in E. destruct (thr s t) as [[op []]|] eqn:Et; try discriminate. destruct (lp s) as [|t1 b1|] eqn:El; try discriminate.
    destruct (Nat.eqb_spec t1 t) as [->|]; [|discriminate]. injection E as Es'.
    constructor; auto.
    + subst s'. cbn. repeat split; auto. discriminate.
    + subst s'. cbn [thr snt]. intros t1 op1 p1. destruct (Nat.eq_dec t1 t) as [->|N].
      * rewrite setn_eq. intros [= <- <-] _. exact (g_sent _ _ G _ _ _ Et eq_refl).
      * rewrite setn_neq by exact N. apply (g_sent _ _ G).
    + subst s'. cbn. discriminate.
    + apply (g_count_same l s (ADeliver t) s' R E0 G); [reflexivity|reflexivity|].
      intros op1 t1. unfold waiting. subst s'. cbn [thr lp]. destruct (Nat.eq_dec t1 t) as [->|N].
      * rewrite setn_eq. split; [intros [X _]; discriminate|]. intros [_ X]. exfalso. now apply (X b1).
      * rewrite setn_neq by exact N. split; intros [X Y]; (split; [exact X|]); intros b'; [rewrite El; congruence|discriminate].
  - (* delete *) cbn in E. destruct (thr s t) as [[op []]|] eqn:Et; try discriminate. injection E as <-. apply SAME; auto.
    + apply (PW t); [reflexivity|discriminate|intros; congruence].
    + cbn [thr snt]. assert (K := g_ops _ _ G _ _ Et). cbn in K. rewrite K. intros t1 op1 p1. destruct (Nat.eq_dec t1 t) as [->|N].
      * rewrite setn_eq. intros [= <- <-]; discriminate.
      * rewrite setn_neq by exact N. intros H1 H2. rewrite setz_neq; [exact (g_sent _ _ G _ _ _ H1 H2)|].
        intros ->. apply N. eapply UNIQ; [exact H1|exact Et|destruct p1; cbn in *; congruence|reflexivity].
  - (* unlock *) cbn in E. destruct (thr s t) as [[op []]|] eqn:Et; try discriminate. injection E as <-. apply SAME; auto.
    + apply (PW t); [reflexivity|discriminate|intros; congruence].
    + cbn [thr snt]. intros t1 op1 p1. destruct (Nat.eq_dec t1 t) as [->|N]; [rewrite setn_eq; intros [= <- <-]; discriminate|].
      rewrite setn_neq by exact N. apply (g_sent _ _ G).
  - (* event *) assert (E0 := E). unfold exec in E. destruct (lp s) eqn:El; try discriminate.
    destruct (evt_effect code b) as [n c] eqn:Ev. injection E as Es'.
    assert (CM : completes (AEvt code b) = c) by (cbn; now rewrite Ev).
    destruct c as [[k d]|].
    + assert (Hc := proj1 Hh l (AEvt code b) [] k d eq_refl CM).
      destruct (g_count _ _ G k) as [[[t [Ht Hl]] Hn]|[_ Hn]]; [|lia].
      assert (Hs := g_sent _ _ G _ _ _ Ht eq_refl). rewrite Hs in Es'.
      constructor; auto.
      * subst s'. cbn. repeat split; auto. discriminate.
      * subst s'. cbn [thr snt]. apply (g_sent _ _ G).
      * subst s'. cbn. intros t1 b1 [= <- <-]. eauto.
      * intro op1. rewrite (writes_snoc _ _ _ _ R) by congruence. rewrite completions_snoc. cbn [is_write_of]. rewrite Nat.add_0_r.
        unfold is_completion_of. rewrite CM. destruct (Z.eqb_spec k op1) as [<-|No].
        -- right. split; [|lia]. intros t1 [H1 H2]. subst s'. cbn in H1, H2.
           assert (t1 = t) by (eapply UNIQ; [exact H1|exact Ht|reflexivity|reflexivity]). subst t1. now apply (H2 d).
        -- rewrite Nat.add_0_r.
           assert (Q : forall t', waiting s' op1 t' <-> waiting s op1 t').
           { intro t'. unfold waiting. subst s'. cbn [thr lp]. split; intros [X Y]; (split; [exact X|]); intros b'; [congruence|]. intros [= -> _]. congruence. }
           destruct (g_count _ _ G op1) as [[[t' Hw] Hc1]|[Hw Hc1]]; [left|right]; (split; [|exact Hc1]).
           ++ exists t'. now apply Q.
           ++ intros t' X. apply (Hw t'). now apply Q.
    + apply SAME; auto; subst s'; cbn; auto.
      * tauto.
      * apply (g_sent _ _ G).
  - (* give up *) cbn in E. destruct (lp s); try discriminate. rewrite Gc in E. discriminate.
Qed.
