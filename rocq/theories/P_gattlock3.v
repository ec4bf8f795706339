(** Proofs about the lock of a GATT client: what subscriptions mean for later handler calls. *)
Require Import Verif.Base Verif.M_attsrv Verif.M_attcli Verif.M_gattcli Verif.S_gattcli Verif.P_gattcli3 Verif.M_gattlock Verif.S_gattlock Verif.P_gattlock Verif.P_gattlock2.

Lemma sub_effect : forall p g ch ind h g' r, inv_a g -> subscribe p g ch ind h = Ret (g', r) ->
  (gc_cccd ch = None /\ g' = g /\ r = CFail) \/
  (exists d, gc_cccd ch = Some d /\ (forall vh, vh <> gc_vh ch -> aget (g_subs g') vh = aget (g_subs g) vh) /\ let e := entry g (gc_vh ch) (gd_h d) in
    ((r = COk tt /\ (h = None <-> of_kind e ind = None) /\ aget (g_subs g') (gc_vh ch) = Some e) \/
     (r = COk tt /\ ~ (h = None <-> of_kind e ind = None) /\ aget (g_subs g') (gc_vh ch) = Some (with_kind e ind h)) \/ (r <> COk tt /\ aget (g_subs g') (gc_vh ch) = None))).
Proof.
  intros p g ch ind h g' r IA H. unfold subscribe in H. destruct (gc_cccd ch) as [d|]; [right|left; injection H as <- <-; auto]. exists d. split; [reflexivity|].
  assert (B := entry_bits g (gc_vh ch) (gd_h d) IA). cbv zeta. destruct (kind_dec h (entry g (gc_vh ch) (gd_h d)) ind) as [K|K].
  - rewrite set_handlers_same in H by assumption. injection H as <- <-. cbn [with_subs g_subs]. split; [intros vh NE; rewrite aget_aset; apply Z.eqb_neq in NE; now rewrite NE|]. left. rewrite aget_aset, Z.eqb_refl. auto.
  - rewrite set_handlers_write in H by assumption. cbv zeta in H. destruct (write _ _ _ _) as [[c' r0]|]; [|discriminate]. cbn [gbind] in H.
    assert (r0 = r) by (destruct r0; injection H as _ H; exact H). subst r0. split.
    + intros vh NE. apply Z.eqb_neq in NE. destruct r; injection H as <-; cbn [with_cli with_subs g_subs]; rewrite ?aget_adel, ?aget_aset, ?NE; reflexivity.
    + right. destruct r as [[]|code| | |]; injection H as <-; [left|right..]; (split; [try reflexivity; discriminate|]); cbn [with_cli with_subs g_subs]; rewrite ?aget_adel, ?aget_aset, ?Z.eqb_refl; auto.
Qed.
Lemma clear_effect : forall p ord g g' r vh, clear_subs p g ord = Ret (g', r) -> aget (g_subs g') vh = None \/ aget (g_subs g') vh = aget (g_subs g) vh.
Proof.
  intros p. induction ord as [|k ord IH]; intros g g' r vh H; cbn [clear_subs] in H; [injection H as <- _; auto|]. destruct (aget (g_subs g) k) as [s|]; [|eauto].
  destruct (write _ _ _ _) as [[c' x]|]; [|discriminate]. cbn [gbind] in H. destruct x; try (injection H as <- _; auto). destruct (IH _ _ _ vh H) as [E|E]; [auto|]. cbn [with_subs g_subs] in E. rewrite aget_adel in E. destruct (vh =? k); auto.
Qed.
Definition target (s : sub) (b : bytes) : option nat := match (if hd 0 b =? 29 then sb_i s else None) with Some h => Some h | None => sb_n s end.
Lemma note_effect : forall g b g' call, handle_notification g b = Ret (g', call) ->
  (forall vh, vh <> note_vh b -> aget (g_subs g') vh = aget (g_subs g) vh) /\
  match aget (g_subs g) (note_vh b) with
  | None => g' = g /\ call = None
  | Some s => aget (g_subs g') (note_vh b) = Some (mkSub (sb_cccdh s) (sb_ccc s) (sb_n s) (sb_i s) (sb_id s + 1)) /\ call = match target s b with Some h => Some (h, sb_id s, skipn 3 b) | None => None end
  end.
Proof.
  intros g b g' call H. unfold handle_notification in H. destruct b as [|op [|x [|y v]]]; [discriminate..|].
  assert (E : r16 (op :: x :: y :: v) 1 = Ret (de16 x y)) by reflexivity. rewrite E in H. cbn [gbind] in H. change (note_vh (op :: x :: y :: v)) with (de16 x y).
  destruct (aget (g_subs g) (de16 x y)) as [s|] eqn:A; [|injection H as <- <-; auto].
  assert (F : gfrom (op :: x :: y :: v) 3 = Ret v) by (rewrite gfrom_ok by (cbn; lia); reflexivity). rewrite F in H. cbn [gbind gidx nth_error] in H. injection H as <- <-. cbn [with_subs g_subs]. split.
  - intros vh NE. apply Z.eqb_neq in NE. now rewrite aget_aset, NE.
  - rewrite aget_aset, Z.eqb_refl. split; [reflexivity|]. unfold target. cbn [hd skipn]. destruct (op =? 29); [destruct (sb_i s)|]; destruct (sb_n s); reflexivity.
Qed.
Lemma inv_note : forall g b g' call, inv_a g -> handle_notification g b = Ret (g', call) -> inv_a g'.
Proof.
  intros g b g' call IA H. destruct (note_effect _ _ _ _ H) as [O E]. intros k s K. destruct (Z.eq_dec k (note_vh b)) as [->|NE]; [|rewrite O in K by exact NE; now apply (IA k)].
  destruct (aget (g_subs g) (note_vh b)) as [s0|] eqn:A; [destruct E as [E _]; rewrite E in K; injection K as <-; cbn; now apply (IA (note_vh b))|destruct E as [-> _]; now apply (IA (note_vh b))].
Qed.
Lemma inv_sub : forall p g ch ind h g' r, inv_a g -> subscribe p g ch ind h = Ret (g', r) -> inv_a g'.
Proof. intros p g ch ind h g' r IA H. unfold subscribe in H. destruct (gc_cccd ch); [exact (inv_set _ _ _ _ _ _ _ _ IA H)|injection H as <- _; exact IA]. Qed.
Lemma inv_seq : forall g t g', one_by_one g t g' -> inv_a g -> inv_a g'.
Proof.
  intros g t g' H. induction H as [g|g t g1 k ch ind h r p g2 H IH S|g t g1 k r p ord g2 H IH V S|g t g1 k r c pr H IH|g t g1 b h id d g2 H IH S|g t g1 b g2 H IH S|g t g1 e H IH E]; intro IA; auto.
  - exact (inv_sub _ _ _ _ _ _ _ (IH IA) S).
  - exact (inv_clear _ _ _ _ _ (IH IA) S).
  - exact (inv_note _ _ _ _ (IH IA) S).
  - exact (inv_note _ _ _ _ (IH IA) S).
Qed.
Lemma snoc_split : forall {A} (t : list A) e a b, t ++ [e] = a ++ b -> (b = [] /\ a = t ++ [e]) \/ exists b', b = b' ++ [e] /\ t = a ++ b'.
Proof.
  intros A t e a b E. destruct b as [|y b0]; [left; rewrite app_nil_r in E; auto|]. right. destruct (@exists_last _ (y :: b0) ltac:(discriminate)) as (b' & x & EB). rewrite EB in *. rewrite app_assoc in E. apply app_inj_tail in E. destruct E as [-> ->]. exists b'. auto.
Qed.
Lemma seq_split : forall g t g', one_by_one g t g' -> forall a b, t = a ++ b -> exists g1, one_by_one g a g1 /\ one_by_one g1 b g'.
Proof.
  intros g t g' H. induction H as [g|g t g1 k ch ind h r p g2 H IH S|g t g1 k r p ord g2 H IH V S|g t g1 k r c pr H IH|g t g1 b0 h id d g2 H IH S|g t g1 b0 g2 H IH S|g t g1 e H IH E]; intros a b EQ.
  { symmetry in EQ. apply app_eq_nil in EQ. destruct EQ as [-> ->]. exists g. split; constructor. }
  all: destruct (snoc_split _ _ _ _ EQ) as [[-> ->]|(b' & -> & ->)];
    [match goal with |- exists g1, one_by_one _ _ g1 /\ one_by_one g1 [] ?x => exists x end; split; [|constructor]|destruct (IH _ _ eq_refl) as (gm & H1 & H2); exists gm; split; [exact H1|]].
  - exact (ob_sub _ _ _ _ _ _ _ _ _ _ H S).
  - exact (ob_sub _ _ _ _ _ _ _ _ _ _ H2 S).
  - exact (ob_clear _ _ _ _ _ _ _ _ H V S).
  - exact (ob_clear _ _ _ _ _ _ _ _ H2 V S).
  - now apply ob_ask.
  - now apply ob_ask.
  - exact (ob_note _ _ _ _ _ _ _ _ H S).
  - exact (ob_note _ _ _ _ _ _ _ _ H2 S).
  - exact (ob_ignored _ _ _ _ _ H S).
  - exact (ob_ignored _ _ _ _ _ H2 S).
  - now apply ob_other.
  - now apply ob_other.
Qed.
(** one event *)
Inductive ob_one : gcl -> lev -> gcl -> Prop :=
| o1_sub : forall g k ch ind h r p g2, subscribe p g ch ind h = Ret (g2, r) -> ob_one g (LRet k (MSub ch ind h) r) g2
| o1_clear : forall g k r p ord g2, clear_subs p g ord = Ret (g2, r) -> ob_one g (LRet k MClear r) g2
| o1_ask : forall g k r c pr, ob_one g (LRet k MAsk r) (mkG c pr (g_subs g))
| o1_note : forall g b h id d g2, handle_notification g b = Ret (g2, Some (h, id, d)) -> ob_one g (LNote b h id d) g2
| o1_ignored : forall g b g2, handle_notification g b = Ret (g2, None) -> ob_one g (LIgnored b) g2
| o1_other : forall g e, match e with LNote _ _ _ _ | LIgnored _ | LRet _ (MSub _ _ _) _ | LRet _ MClear _ | LRet _ MAsk _ => False | _ => True end -> ob_one g e g.
Lemma seq_one : forall g t g', one_by_one g t g' -> forall e, t = [e] -> ob_one g e g'.
Proof.
  intros g t g' H e E. destruct H as [g|g t g1 k ch ind h r p g2 H S|g t g1 k r p ord g2 H V S|g t g1 k r c pr H|g t g1 b h id d g2 H S|g t g1 b g2 H S|g t g1 e0 H X]; [discriminate|..];
    change [e] with ([] ++ [e]) in E; apply app_inj_tail in E; destruct E as [-> <-];
    (assert (g1 = g) by (inversion H as [|? t0|? t0|? t0|? t0|? t0|? t0]; subst; try reflexivity; destruct t0; discriminate); subst g1);
    econstructor; eauto.
Qed.
Lemma seq_mid : forall g a e b g', one_by_one g (a ++ e :: b) g' -> exists g1 g2, one_by_one g a g1 /\ ob_one g1 e g2 /\ one_by_one g2 b g'.
Proof.
  intros g a e b g' H. destruct (seq_split _ _ _ H a (e :: b) eq_refl) as (g1 & H1 & H2). destruct (seq_split _ _ _ H2 [e] b eq_refl) as (g2 & H3 & H4).
  exists g1, g2. split; [exact H1|]. split; [exact (seq_one _ _ _ H3 _ eq_refl)|exact H4].
Qed.
(** induction over the events *)
Lemma seq_ind : forall (P : gcl -> Prop) (Q : lev -> Prop), (forall g e g', inv_a g -> P g -> Q e -> ob_one g e g' -> P g') -> forall t g g', one_by_one g t g' -> inv_a g -> P g -> Forall Q t -> P g'.
Proof.
  intros P Q STEP t. induction t as [|e t IH]; intros g g' H IA PG F.
  - inversion H as [|? t0|? t0|? t0|? t0|? t0|? t0]; subst; try (destruct t0; discriminate). exact PG.
  - destruct (seq_mid _ [] _ _ _ H) as (g1 & g2 & H1 & H2 & H3). assert (g1 = g) by (inversion H1 as [|? t0|? t0|? t0|? t0|? t0|? t0]; subst; try reflexivity; destruct t0; discriminate). subst g1.
    apply Forall_cons_iff in F. destruct F as [QE F]. apply (IH g2 g' H3); [|exact (STEP _ _ _ IA PG QE H2)|exact F].
    destruct (seq_split _ _ _ H [e] t eq_refl) as (g3 & H4 & _). clear - H2 IA. inversion H2; subst; auto;
      [exact (inv_sub _ _ _ _ _ _ _ IA H)|exact (inv_clear _ _ _ _ _ IA H)|exact (inv_note _ _ _ _ IA H)|exact (inv_note _ _ _ _ IA H)].
Qed.
Lemma inv_new : forall mtu, inv_a (new_gcl mtu). Proof. intros mtu vh s E. discriminate. Qed.

(** registrations after one event *)
Lemma reg_same : forall g g' vh, aget (g_subs g') vh = aget (g_subs g) vh -> forall i, registered g' vh i = registered g vh i. Proof. intros g g' vh E i. now rewrite !registered_aget, E. Qed.
Lemma reg_entry : forall g vh d i, registered g vh i = of_kind (entry g vh d) i.
Proof. intros g vh d i. rewrite registered_aget. unfold entry. destruct (aget (g_subs g) vh); destruct i; reflexivity. Qed.
Lemma reg_sub : forall p g ch ind h g' r, inv_a g -> subscribe p g ch ind h = Ret (g', r) -> gc_cccd ch <> None ->
  (forall vh i, (vh, i) <> (gc_vh ch, ind) -> registered g' vh i = registered g vh i \/ registered g' vh i = None) /\
  (registered g' (gc_vh ch) ind = None \/ (r = COk tt /\ h <> None /\ (registered g' (gc_vh ch) ind = registered g (gc_vh ch) ind \/ registered g' (gc_vh ch) ind = h))).
Proof.
  intros p g ch ind h g' r IA H CD. destruct (sub_effect _ _ _ _ _ _ _ IA H) as [(C & _)|(d & C & O & [(R & K & E)|[(R & K & E)|(R & E)]])]; [contradiction|..].
  - assert (X : forall i, registered g' (gc_vh ch) i = registered g (gc_vh ch) i) by (intro i; rewrite (reg_entry g (gc_vh ch) (gd_h d)), registered_aget, E; destruct i; reflexivity). split.
    + intros vh i NE. left. destruct (Z.eq_dec vh (gc_vh ch)) as [->|N]; [apply X|apply reg_same; now apply O].
    + rewrite X, (reg_entry g (gc_vh ch) (gd_h d)). destruct h as [h|]; [right|left; now apply K]. split; [exact R|]. split; [discriminate|auto].
  - split.
    + intros vh i NE. left. destruct (Z.eq_dec vh (gc_vh ch)) as [->|N]; [|apply reg_same; now apply O]. rewrite registered_aget, E, (reg_entry g (gc_vh ch) (gd_h d)). unfold with_kind, of_kind. destruct i, ind; cbn; try reflexivity; now destruct NE.
    + rewrite registered_aget, E. unfold with_kind. destruct h as [h|]; [right|left; destruct ind; reflexivity]. split; [exact R|]. split; [discriminate|]. right. destruct ind; reflexivity.
  - split; [|left; now rewrite registered_aget, E]. intros vh i NE. destruct (Z.eq_dec vh (gc_vh ch)) as [->|N]; [right; now rewrite registered_aget, E|left; apply reg_same; now apply O].
Qed.
Lemma reg_note : forall g b g' call, handle_notification g b = Ret (g', call) -> forall vh i, registered g' vh i = registered g vh i.
Proof.
  intros g b g' call H vh i. destruct (note_effect _ _ _ _ H) as [O E]. destruct (Z.eq_dec vh (note_vh b)) as [->|N]; [|apply reg_same; now apply O].
  rewrite !registered_aget. destruct (aget (g_subs g) (note_vh b)) as [s|] eqn:A; [destruct E as [-> _]; destruct i; reflexivity|destruct E as [-> _]; now rewrite A].
Qed.
Lemma reg_one : forall vh ind g e g', inv_a g -> registered g vh ind = None -> ~ subscribes vh ind e -> ob_one g e g' -> registered g' vh ind = None.
Proof.
  intros vh ind g e g' IA R NS H. destruct H as [g k ch i h r p g2 H|g k r p ord g2 H|g k r c pr|g b h id d g2 H|g b g2 H|g e H].
  - destruct (gc_cccd ch) as [d|] eqn:CD; [|unfold subscribe in H; rewrite CD in H; injection H as <- _; exact R]. destruct (reg_sub _ _ _ _ _ _ _ IA H ltac:(congruence)) as [O S].
    destruct (Z.eq_dec vh (gc_vh ch)) as [->|N]; [destruct (Bool.bool_dec ind i) as [->|N]|].
    + destruct S as [S|(_ & NH & _)]; [exact S|]. exfalso. apply NS. cbn. destruct h; [auto|contradiction].
    + destruct (O (gc_vh ch) ind ltac:(congruence)) as [E|E]; congruence.
    + destruct (O vh ind ltac:(congruence)) as [E|E]; congruence.
  - rewrite registered_aget in *. destruct (clear_effect _ _ _ _ _ vh H) as [-> | ->]; [reflexivity|exact R].
  - exact R.
  - now rewrite (reg_note _ _ _ _ H).
  - now rewrite (reg_note _ _ _ _ H).
  - exact R.
Qed.
(** who a handler call is for *)
Lemma note_reg : forall g b h id d g', handle_notification g b = Ret (g', Some (h, id, d)) ->
  d = skipn 3 b /\ (registered g (note_vh b) (hd 0 b =? 29) = Some h \/ (hd 0 b =? 29 = true /\ registered g (note_vh b) true = None /\ registered g (note_vh b) false = Some h)).
Proof.
  intros g b h id d g' H. destruct (note_effect _ _ _ _ H) as [_ E]. rewrite !registered_aget. destruct (aget (g_subs g) (note_vh b)) as [s|]; [|destruct E; discriminate]. destruct E as [_ E]. unfold target in E.
  destruct (hd 0 b =? 29); [destruct (sb_i s) as [x|]; [injection E as -> -> ->; auto|]|]; destruct (sb_n s) as [x|]; try discriminate; injection E as -> -> ->; auto.
Qed.
Lemma reg_origin : forall g0 t g, one_by_one g0 t g -> inv_a g0 -> (forall vh i, registered g0 vh i = None) -> forall vh i h, registered g vh i = Some h ->
  exists k ch, In (LRet k (MSub ch i (Some h)) (COk tt)) t /\ gc_vh ch = vh.
Proof.
  intros g0 t g H. induction H as [g|g t g1 k ch ind h r p g2 H IH S|g t g1 k r p ord g2 H IH V S|g t g1 k r c pr H IH|g t g1 b h id d g2 H IH S|g t g1 b g2 H IH S|g t g1 e H IH E]; intros IA N vh i x R.
  - rewrite N in R. discriminate.
  - assert (OLD : registered g1 vh i = Some x -> exists k0 ch0, In (LRet k0 (MSub ch0 i (Some x)) (COk tt)) (t ++ [LRet k (MSub ch ind h) r]) /\ gc_vh ch0 = vh).
    { intro E. destruct (IH IA N _ _ _ E) as (k0 & c0 & I0 & V0). exists k0, c0. split; [apply in_or_app; auto|exact V0]. }
    destruct (gc_cccd ch) as [d|] eqn:CD; [|unfold subscribe in S; rewrite CD in S; injection S as <- _; auto]. destruct (reg_sub _ _ _ _ _ _ _ (inv_seq _ _ _ H IA) S ltac:(congruence)) as [O T].
    destruct (Z.eq_dec vh (gc_vh ch)) as [->|NE]; [destruct (Bool.bool_dec i ind) as [->|NE]|].
    + destruct T as [T|(-> & _ & [T|T])]; [congruence|rewrite T in R; auto|]. rewrite T in R. subst h. exists k, ch. split; [apply in_or_app; right; now left|reflexivity].
    + destruct (O (gc_vh ch) i ltac:(congruence)) as [E|E]; rewrite E in R; [auto|discriminate].
    + destruct (O vh i ltac:(congruence)) as [E|E]; rewrite E in R; [auto|discriminate].
  - rewrite registered_aget in R. destruct (clear_effect _ _ _ _ _ vh S) as [E|E]; rewrite E in R; [discriminate|]. rewrite <- registered_aget in R. destruct (IH IA N _ _ _ R) as (k0 & c0 & I0 & V0). exists k0, c0. split; [apply in_or_app; auto|exact V0].
  - change (registered g1 vh i = Some x) in R. destruct (IH IA N _ _ _ R) as (k0 & c0 & I0 & V0). exists k0, c0. split; [apply in_or_app; auto|exact V0].
  - rewrite (reg_note _ _ _ _ S) in R. destruct (IH IA N _ _ _ R) as (k0 & c0 & I0 & V0). exists k0, c0. split; [apply in_or_app; auto|exact V0].
  - rewrite (reg_note _ _ _ _ S) in R. destruct (IH IA N _ _ _ R) as (k0 & c0 & I0 & V0). exists k0, c0. split; [apply in_or_app; auto|exact V0].
  - destruct (IH IA N _ _ _ R) as (k0 & c0 & I0 & V0). exists k0, c0. split; [apply in_or_app; auto|exact V0].
Qed.

(** numbers *)
Definition cnt_vh (vh : Z) (t : list lev) : Z := Z.of_nat (length (filter (about_vh vh) t)).
Definition id_of (g : gcl) (vh : Z) : option Z := option_map sb_id (aget (g_subs g) vh).
Lemma id_one : forall vh g e g' n, inv_a g -> id_of g vh = Some n -> ~ forgets vh e -> ob_one g e g' -> id_of g' vh = Some (n + cnt_vh vh [e]).
Proof.
  intros vh g e g' n IA R NF H.
  assert (NOTE : forall b g2 call, handle_notification g b = Ret (g2, call) -> forall v, about_vh vh v = (note_vh b =? vh) -> id_of g2 vh = Some (n + cnt_vh vh [v])).
  { intros b g2 call E v V. destruct (note_effect _ _ _ _ E) as [O X]. unfold cnt_vh. cbn [filter]. rewrite V. destruct (note_vh b =? vh) eqn:Q; cbn [length Z.of_nat].
    - apply Z.eqb_eq in Q. subst vh. unfold id_of in *. destruct (aget (g_subs g) (note_vh b)) as [s|]; [|discriminate]. destruct X as [-> _]. cbn in R |- *. injection R as ->. reflexivity.
    - apply Z.eqb_neq in Q. unfold id_of in *. rewrite O by congruence. rewrite R. f_equal. lia. }
  destruct H as [g k ch i h r p g2 H|g k r p ord g2 H|g k r c pr|g b h id d g2 H|g b g2 H|g e H].
  - unfold cnt_vh. cbn [filter about_vh length Z.of_nat]. rewrite Z.add_0_r. unfold id_of in *. destruct (sub_effect _ _ _ _ _ _ _ IA H) as [(_ & -> & _)|(d & C & O & E)]; [exact R|].
    destruct (Z.eq_dec vh (gc_vh ch)) as [->|N]; [|now rewrite O]. unfold entry in E. destruct (aget (g_subs g) (gc_vh ch)) as [s|]; [|discriminate].
    destruct E as [(_ & _ & ->)|[(_ & _ & ->)|(N & _)]]; [exact R|exact R|exfalso; apply NF; cbn; auto].
  - exfalso. now apply NF.
  - unfold cnt_vh. cbn [filter about_vh length Z.of_nat]. rewrite Z.add_0_r. exact R.
  - exact (NOTE b g2 _ H (LNote b h id d) eq_refl).
  - exact (NOTE b g2 _ H (LIgnored b) eq_refl).
  - unfold cnt_vh. cbn [filter]. replace (about_vh vh e) with false by (destruct e; try reflexivity; contradiction). cbn [length Z.of_nat]. rewrite Z.add_0_r. exact R.
Qed.
Lemma cnt_app : forall vh a b, cnt_vh vh (a ++ b) = cnt_vh vh a + cnt_vh vh b. Proof. intros. unfold cnt_vh. rewrite filter_app, app_length. lia. Qed.
Lemma id_run : forall vh t g g' n, one_by_one g t g' -> inv_a g -> id_of g vh = Some n -> Forall (fun e => ~ forgets vh e) t -> id_of g' vh = Some (n + cnt_vh vh t).
Proof.
  intros vh t. induction t as [|e t IH]; intros g g' n H IA R F.
  - inversion H as [|? t0|? t0|? t0|? t0|? t0|? t0]; subst; try (destruct t0; discriminate). rewrite Z.add_0_r. exact R.
  - destruct (seq_mid _ [] _ _ _ H) as (g1 & g2 & H1 & H2 & H3). assert (g1 = g) by (inversion H1 as [|? t0|? t0|? t0|? t0|? t0|? t0]; subst; try reflexivity; destruct t0; discriminate). subst g1.
    apply Forall_cons_iff in F. destruct F as [NF F]. assert (E := id_one _ _ _ _ _ IA R NF H2). assert (IA2 : inv_a g2).
    { clear - H2 IA. inversion H2; subst; auto; [exact (inv_sub _ _ _ _ _ _ _ IA H)|exact (inv_clear _ _ _ _ _ IA H)|exact (inv_note _ _ _ _ IA H)|exact (inv_note _ _ _ _ IA H)]. }
    rewrite (IH g2 g' _ H3 IA2 E F). change (e :: t) with ([e] ++ t). rewrite cnt_app. f_equal. lia.
Qed.
(** no Subscribe/Unsubscribe of vh has returned yet: the client knows nothing of it *)
Definition names (vh : Z) (e : lev) : Prop := match e with LRet _ (MSub ch _ _) _ => gc_vh ch = vh | _ => False end.
Lemma unknown_run : forall vh t g g', one_by_one g t g' -> inv_a g -> aget (g_subs g) vh = None -> Forall (fun e => ~ names vh e) t -> aget (g_subs g') vh = None.
Proof.
  intros vh t g g' H IA N F. revert t g g' H IA N F.
  apply (seq_ind (fun g => aget (g_subs g) vh = None) (fun e => ~ names vh e)). intros g e g' IA N NN H. destruct H as [g k ch i h r p g2 H|g k r p ord g2 H|g k r c pr|g b h id d g2 H|g b g2 H|g e H].
  - destruct (sub_effect _ _ _ _ _ _ _ IA H) as [(_ & -> & _)|(d & C & O & E)]; [exact N|]. rewrite O; [exact N|]. intro X. apply NN. cbn. auto.
  - destruct (clear_effect _ _ _ _ _ vh H) as [E|E]; congruence.
  - exact N.
  - destruct (note_effect _ _ _ _ H) as [O X]. destruct (Z.eq_dec vh (note_vh b)) as [->|NE]; [rewrite N in X; destruct X; discriminate|now rewrite O].
  - destruct (note_effect _ _ _ _ H) as [O X]. destruct (Z.eq_dec vh (note_vh b)) as [->|NE]; [rewrite N in X; destruct X as [-> _]; exact N|now rewrite O].
  - exact N.
Qed.
