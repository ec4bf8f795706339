Require Import Verif.Base Verif.M_uuid Verif.M_attdb Verif.S_attdb Verif.P_attdb Verif.M_attsrv Verif.S_attsrv Verif.P_attsrv Verif.P_attsrv2 Verif.P_attsrv3 Verif.P_attsrv4 Verif.P_attsrv5.

Definition opens (l : list notif) (ind : bool) (h : Z) (j : nat) : Prop :=
  exists y, nth_error l j = Some y /\ nt_ind y = ind /\ nt_char y = h /\ nt_open y = true.
Definition st_ok (l : list notif) (m : list (Z * nat)) (ind : bool) (h : Z) (on : bool) : Prop :=
  if on then exists i, aget m h = Some i /\ forall j, opens l ind h j <-> j = i else forall j, ~ opens l ind h j.
Lemma nth_snoc : forall {A} (l : list A) x j, nth_error (l ++ [x]) j = if Nat.ltb j (length l) then nth_error l j else if Nat.eqb j (length l) then Some x else None.
Proof.
  intros A l x j. destruct (Nat.ltb j (length l)) eqn:E; [apply nth_error_app1; lia|]. rewrite nth_error_app2 by lia.
  destruct (Nat.eqb j (length l)) eqn:F; [replace (j - length l)%nat with 0%nat by lia; reflexivity|]. destruct (j - length l)%nat as [|k] eqn:K; [lia|]. cbn. now destruct k.
Qed.
Lemma opens_snoc : forall l ind c vh id ind' h j, opens (l ++ [mkN ind c vh id true]) ind' h j <-> opens l ind' h j \/ (j = length l /\ ind' = ind /\ h = c).
Proof.
  intros. unfold opens. rewrite nth_snoc. destruct (Nat.ltb j (length l)) eqn:E.
  - split; [now left|]. intros [H|(-> & _)]; [exact H|lia].
  - destruct (Nat.eqb j (length l)) eqn:F.
    + apply Nat.eqb_eq in F. split.
      * intros (y & Y & A & B & C). injection Y as <-. cbn in A, B. right. split; [exact F|]. split; congruence.
      * intros [(y & Y & _)|(_ & -> & ->)]; [apply (f_equal (fun o => match o with Some _ => true | None => false end)) in Y; rewrite (proj2 (nth_error_None l j)) in Y by lia; discriminate Y|].
        eexists. split; [reflexivity|]. now cbn.
    + split; [intros (y & Y & _); discriminate Y|]. intros [(y & Y & _)|(-> & _)]; [rewrite (proj2 (nth_error_None l j)) in Y by lia; discriminate Y|rewrite Nat.eqb_refl in F; discriminate F].
Qed.
Lemma opens_close : forall l i ind h j, opens (close_notif l i) ind h j <-> opens l ind h j /\ j <> i.
Proof.
  intros. unfold opens, close_notif. destruct (nth_error l i) as [x|] eqn:E.
  - rewrite nth_error_upd. destruct (Nat.eqb i j) eqn:Q.
    + apply Nat.eqb_eq in Q. subst j. assert (i < length l)%nat by (apply nth_error_Some; congruence). replace (Nat.ltb i (length l)) with true by lia. split.
      * intros (y & Y & _ & _ & O). injection Y as <-. discriminate O.
      * intros [_ C]. now elim C.
    + split; [intro H; split; [exact H|intros ->; rewrite Nat.eqb_refl in Q; discriminate Q]|now intros [H _]].
  - split; [intro H; split; [exact H|]|now intros [H _]]. intros ->. destruct H as (y & Y & _). congruence.
Qed.
Lemma st_start : forall l m ind c vh id ind' h on, st_ok l m ind c false ->
  (ind' = ind -> h = c -> st_ok (l ++ [mkN ind c vh id true]) (aset m c (length l)) ind h true) /\
  (ind' <> ind \/ h <> c -> forall m', (forall k, k <> c -> aget m' k = aget m k) -> h <> c -> st_ok l m ind' h on -> st_ok (l ++ [mkN ind c vh id true]) m' ind' h on) /\
  (ind' <> ind -> forall m', st_ok l m' ind' h on -> st_ok (l ++ [mkN ind c vh id true]) m' ind' h on).
Proof.
  intros l m ind c vh id ind' h on H. split; [|split].
  - intros -> ->. cbn. exists (length l). split; [rewrite aget_aset, Z.eqb_refl; reflexivity|]. intro j. rewrite opens_snoc. split.
    + intros [O|(-> & _)]; [now elim (H j)|reflexivity].
    + intros ->. right. auto.
  - intros N m' E NC S. destruct on; cbn in *.
    + destruct S as (i & A & O). exists i. split; [rewrite E by exact NC; exact A|]. intro j. rewrite opens_snoc, <- O. split; [intros [Q|(_ & Q1 & Q2)]; [exact Q|contradiction]|now left].
    + intro j. rewrite opens_snoc. intros [Q|(_ & Q1 & Q2)]; [now elim (S j)|contradiction].
  - intros N m' S. destruct on; cbn in *.
    + destruct S as (i & A & O). exists i. split; [exact A|]. intro j. rewrite opens_snoc, <- O. split; [intros [Q|(_ & Q1 & Q2)]; [exact Q|contradiction]|now left].
    + intro j. rewrite opens_snoc. intros [Q|(_ & Q1 & Q2)]; [now elim (S j)|contradiction].
Qed.
Lemma opens_unique : forall l ind h ind' h' j, opens l ind h j -> opens l ind' h' j -> ind = ind' /\ h = h'.
Proof. intros l ind h ind' h' j (y & Y & A & B & _) (y' & Y' & A' & B' & _). rewrite Y in Y'. injection Y' as <-. split; congruence. Qed.
Lemma st_stop : forall l m ind c i, st_ok l m ind c true -> aget m c = Some i ->
  st_ok (close_notif l i) m ind c false /\ (forall m' ind' h on, ind' <> ind \/ h <> c -> st_ok l m' ind' h on -> st_ok (close_notif l i) m' ind' h on).
Proof.
  intros l m ind c i (i' & A & O) E. rewrite A in E. injection E as ->. split.
  - cbn. intros j Q. apply opens_close in Q. destruct Q as [Q N]. apply O in Q. contradiction.
  - intros m' ind' h on N S. destruct on; cbn in *.
    + destruct S as (k & B & P). exists k. split; [exact B|]. intro j. rewrite opens_close, <- P. split; [tauto|]. intro Q. split; [exact Q|]. intros ->.
      destruct (opens_unique _ _ _ _ _ _ Q (proj2 (O i) eq_refl)) as [-> ->]. destruct N as [N|N]; now apply N.
    + intros j Q. apply opens_close in Q. now elim (S j).
Qed.
(** status of every characteristic, both kinds *)
Definition bit_of (v : Z) (ind : bool) : bool := Z.testbit v (if ind then 1 else 0).
Definition map_of (s : srv) (ind : bool) := if ind then inn s else nn s.
Definition rinv (s : srv) (f : Z -> Z) : Prop := forall ind h, st_ok (notifs s) (map_of s ind) ind h (bit_of (f h) ind).
Definition upd_bit0 (f : Z -> bool) (c : Z) (b : bool) : Z -> bool := fun h => if h =? c then b else f h.
Definition rinv2 (s : srv) (fn fi : Z -> bool) : Prop := (forall h, st_ok (notifs s) (nn s) false h (fn h)) /\ (forall h, st_ok (notifs s) (inn s) true h (fi h)).
Lemma start_n_r : forall s ci old ccc fn fi s' ok, rinv2 s fn fi -> fn (ci_handle ci) = Z.testbit old 0 -> (Z.testbit ccc 0 = true -> Z.testbit (ci_prop ci) 4 = true) ->
  cccd_start_n s ci old ccc = Ret (s', ok) -> ok = true /\ cccs s' = cccs s /\ prep s' = prep s /\ rinv2 s' (upd_bit0 fn (ci_handle ci) (Z.testbit ccc 0 || Z.testbit old 0)) fi.
Proof.
  intros s ci old ccc fn fi s' ok [RN RI] F SP H. unfold cccd_start_n in H. destruct (Z.testbit ccc 0) eqn:A, (Z.testbit old 0) eqn:B; cbn [andb negb orb] in H |- *.
  2:{ rewrite (SP eq_refl) in H. destruct (ci_nh ci) as [id|]; [|discriminate]. injection H as <- <-. split; [reflexivity|]. split; [reflexivity|]. split; [reflexivity|].
      assert (S0 := RN (ci_handle ci)). rewrite F in S0. split; intro h; cbn [set_nn notifs nn inn].
      - unfold upd_bit0. destruct (h =? ci_handle ci) eqn:E.
        + apply Z.eqb_eq in E. subst h. exact (proj1 (st_start (notifs s) (nn s) false (ci_handle ci) (ci_vhandle ci) id false (ci_handle ci) true S0) eq_refl eq_refl).
        + apply (proj1 (proj2 (st_start (notifs s) (nn s) false (ci_handle ci) (ci_vhandle ci) id false h (fn h) S0))); [right; lia| |lia|apply RN].
          intros k K. rewrite aget_aset. destruct (k =? ci_handle ci) eqn:E2; [lia|reflexivity].
      - apply (proj2 (proj2 (st_start (notifs s) (nn s) false (ci_handle ci) (ci_vhandle ci) id true h (fi h) S0))); [discriminate|apply RI]. }
  all: injection H as <- <-; split; [reflexivity|]; split; [reflexivity|]; split; [reflexivity|]; split; [|exact RI]; intro h; unfold upd_bit0;
    destruct (h =? ci_handle ci) eqn:E; [apply Z.eqb_eq in E; subst h; assert (S0 := RN (ci_handle ci)); rewrite F in S0; exact S0|apply RN].
Qed.
Lemma start_i_r : forall s ci old ccc fn fi s' ok, rinv2 s fn fi -> fi (ci_handle ci) = Z.testbit old 1 -> (Z.testbit ccc 1 = true -> Z.testbit (ci_prop ci) 5 = true) ->
  cccd_start_i s ci old ccc = Ret (s', ok) -> ok = true /\ cccs s' = cccs s /\ prep s' = prep s /\ rinv2 s' fn (upd_bit0 fi (ci_handle ci) (Z.testbit ccc 1 || Z.testbit old 1)).
Proof.
  intros s ci old ccc fn fi s' ok [RN RI] F SP H. unfold cccd_start_i in H. destruct (Z.testbit ccc 1) eqn:A, (Z.testbit old 1) eqn:B; cbn [andb negb orb] in H |- *.
  2:{ rewrite (SP eq_refl) in H. destruct (ci_ih ci) as [id|]; [|discriminate]. injection H as <- <-. split; [reflexivity|]. split; [reflexivity|]. split; [reflexivity|].
      assert (S0 := RI (ci_handle ci)). rewrite F in S0. split; intro h; cbn [set_inn notifs nn inn].
      - apply (proj2 (proj2 (st_start (notifs s) (inn s) true (ci_handle ci) (ci_vhandle ci) id false h (fn h) S0))); [discriminate|apply RN].
      - unfold upd_bit0. destruct (h =? ci_handle ci) eqn:E.
        + apply Z.eqb_eq in E. subst h. exact (proj1 (st_start (notifs s) (inn s) true (ci_handle ci) (ci_vhandle ci) id true (ci_handle ci) true S0) eq_refl eq_refl).
        + apply (proj1 (proj2 (st_start (notifs s) (inn s) true (ci_handle ci) (ci_vhandle ci) id true h (fi h) S0))); [right; lia| |lia|apply RI].
          intros k K. rewrite aget_aset. destruct (k =? ci_handle ci) eqn:E2; [lia|reflexivity]. }
  all: injection H as <- <-; split; [reflexivity|]; split; [reflexivity|]; split; [reflexivity|]; split; [exact RN|]; intro h; unfold upd_bit0;
    destruct (h =? ci_handle ci) eqn:E; [apply Z.eqb_eq in E; subst h; assert (S0 := RI (ci_handle ci)); rewrite F in S0; exact S0|apply RI].
Qed.
Lemma stop_n_r : forall s ci old ccc fn fi s', rinv2 s fn fi -> fn (ci_handle ci) = Z.testbit ccc 0 || Z.testbit old 0 ->
  cccd_stop_n s ci old ccc = Ret s' -> cccs s' = cccs s /\ prep s' = prep s /\ rinv2 s' (upd_bit0 fn (ci_handle ci) (Z.testbit ccc 0)) fi.
Proof.
  intros s ci old ccc fn fi s' [RN RI] F H. unfold cccd_stop_n in H. destruct (Z.testbit ccc 0) eqn:A, (Z.testbit old 0) eqn:B; cbn [andb negb orb] in H, F |- *.
  3:{ destruct (aget (nn s) (ci_handle ci)) as [i|] eqn:E; [|discriminate]. injection H as <-. split; [reflexivity|]. split; [reflexivity|]. 
      assert (S0 := RN (ci_handle ci)). rewrite F in S0. destruct (st_stop _ _ _ _ _ S0 E) as [SA SB]. split; intro h; cbn [set_nn notifs nn inn].
      - unfold upd_bit0. destruct (h =? ci_handle ci) eqn:Q; [apply Z.eqb_eq in Q; subst h; exact SA|]. apply SB; [right; lia|apply RN].
      - apply SB; [left; discriminate|apply RI]. }
  all: injection H as <-; split; [reflexivity|]; split; [reflexivity|]; split; [|exact RI]; intro h; unfold upd_bit0;
    destruct (h =? ci_handle ci) eqn:E; [apply Z.eqb_eq in E; subst h; assert (S0 := RN (ci_handle ci)); rewrite F in S0; exact S0|apply RN].
Qed.
Lemma stop_i_r : forall s ci old ccc fn fi s', rinv2 s fn fi -> fi (ci_handle ci) = Z.testbit ccc 1 || Z.testbit old 1 ->
  cccd_stop_i s ci old ccc = Ret s' -> cccs s' = cccs s /\ prep s' = prep s /\ rinv2 s' fn (upd_bit0 fi (ci_handle ci) (Z.testbit ccc 1)).
Proof.
  intros s ci old ccc fn fi s' [RN RI] F H. unfold cccd_stop_i in H. destruct (Z.testbit ccc 1) eqn:A, (Z.testbit old 1) eqn:B; cbn [andb negb orb] in H, F |- *.
  3:{ destruct (aget (inn s) (ci_handle ci)) as [i|] eqn:E; [|discriminate]. injection H as <-. split; [reflexivity|]. split; [reflexivity|]. 
      assert (S0 := RI (ci_handle ci)). rewrite F in S0. destruct (st_stop _ _ _ _ _ S0 E) as [SA SB]. split; intro h; cbn [set_inn notifs nn inn].
      - apply SB; [left; discriminate|apply RN].
      - unfold upd_bit0. destruct (h =? ci_handle ci) eqn:Q; [apply Z.eqb_eq in Q; subst h; exact SA|]. apply SB; [right; lia|apply RI]. }
  all: injection H as <-; split; [reflexivity|]; split; [reflexivity|]; split; [exact RN|]; intro h; unfold upd_bit0;
    destruct (h =? ci_handle ci) eqn:E; [apply Z.eqb_eq in E; subst h; assert (S0 := RI (ci_handle ci)); rewrite F in S0; exact S0|apply RI].
Qed.
Definition rst (s : srv) : Prop := rinv2 s (fun h => Z.testbit (ccc_of (cccs s) h) 0) (fun h => Z.testbit (ccc_of (cccs s) h) 1).
Lemma rinv2_ext : forall s fn fi fn' fi', (forall h, fn h = fn' h) -> (forall h, fi h = fi' h) -> rinv2 s fn fi -> rinv2 s fn' fi'.
Proof. intros s fn fi fn' fi' A B [RN RI]. split; intro h; [rewrite <- A|rewrite <- B]; auto. Qed.
Lemma cccd_write_r : forall s ci x y t s' st, rst s -> supported ci (de16 x y) -> cccd_write s ci (x :: y :: t) = Ret (s', st) -> rst s' /\ st = 0.
Proof.
  intros s ci x y t s' st R [SN SI] H. unfold cccd_write in H. change (gle16 (x :: y :: t)) with (Ret (de16 x y)) in H. cbn [gbind] in H.
  set (ccc := de16 x y) in *. set (old := ccc_of (cccs s) (ci_handle ci)) in *.
  destruct (cccd_start_n s ci old ccc) as [[s1 ok1]|] eqn:E1; [|discriminate]. cbn [gbind] in H.
  destruct (start_n_r _ _ _ _ _ _ _ _ R eq_refl SN E1) as (-> & C1 & _ & R1). cbn [negb] in H.
  destruct (cccd_stop_n s1 ci old ccc) as [s2|] eqn:E2; [|discriminate]. cbn [gbind] in H.
  destruct (stop_n_r _ _ _ _ _ _ _ R1 ltac:(unfold upd_bit0; rewrite Z.eqb_refl; reflexivity) E2) as (C2 & _ & R2).
  destruct (cccd_start_i s2 ci old ccc) as [[s3 ok3]|] eqn:E3; [|discriminate]. cbn [gbind] in H.
  destruct (start_i_r _ _ _ _ _ _ _ _ R2 eq_refl SI E3) as (-> & C3 & _ & R3). cbn [negb] in H.
  destruct (cccd_stop_i s3 ci old ccc) as [s4|] eqn:E4; [|discriminate]. cbn [gbind] in H.
  destruct (stop_i_r _ _ _ _ _ _ _ R3 ltac:(unfold upd_bit0; rewrite Z.eqb_refl; reflexivity) E4) as (C4 & _ & R4).
  injection H as <- <-. split; [|reflexivity]. unfold rst. cbn [set_cccs cccs]. 
  assert (R5 : rinv2 (set_cccs s4 (aset (cccs s4) (ci_handle ci) ccc)) (upd_bit0 (upd_bit0 (fun h => Z.testbit (ccc_of (cccs s) h) 0) (ci_handle ci) (Z.testbit ccc 0 || Z.testbit old 0)) (ci_handle ci) (Z.testbit ccc 0))
     (upd_bit0 (upd_bit0 (fun h => Z.testbit (ccc_of (cccs s) h) 1) (ci_handle ci) (Z.testbit ccc 1 || Z.testbit old 1)) (ci_handle ci) (Z.testbit ccc 1))) by exact R4.
  eapply rinv2_ext; [| |exact R5]; intro h; rewrite ccc_aset, C4, C3, C2, C1; unfold upd_bit0; destruct (h =? ci_handle ci); reflexivity.
Qed.
Lemma att_write_r : forall s e a v s' st cs, rst s -> (forall ci x y t, a_wh a = Some (ACccd ci) -> v = x :: y :: t -> supported ci (de16 x y)) ->
  att_write s e a v = Ret (s', st, cs) -> rst s'.
Proof.
  intros s e a v s' st cs R S H. unfold att_write in H. destruct (a_wh a) as [[i|ci]|].
  - injection H as <- _ _. exact R.
  - destruct v as [|x [|y t]]; try discriminate H. destruct (cccd_write s ci (x :: y :: t)) as [[s1 st1]|] eqn:E; [|discriminate]. cbn [gbind] in H. injection H as <- _ _.
    eapply cccd_write_r; [exact R| |exact E]. eapply S; reflexivity.
  - injection H as <- _ _. exact R.
Qed.
Definition rsinv (d : dbt) (s : srv) : Prop := s_db s = d /\ rst s /\ (forall a, prep s = Some a -> ~ is_cccd (a_wh a)).
Lemma handle_rsinv : forall d s e r s' o cs, wf_db d -> all_bytes r -> asks_supported d r -> rsinv d s -> handle s e r = Ret (s', o, cs) -> rsinv d s'.
Proof.
  intros d s e r s' o cs W B [AW AP] (D & R & P) H. destruct (handle_env _ _ _ _ _ _ H) as (D' & _). split; [congruence|].
  destruct r as [|op t]; [injection H as <- _ _; split; assumption|].
  refine (handle_op (fun x => rst (fst (fst x)) /\ forall a, prep (fst (fst x)) = Some a -> ~ is_cccd (a_wh a)) s e op t _ _ _ _ _ _ _ _ _ _ _ _ _ H); cbn [fst]; try (intros; split; assumption).
  - intros _ s1 p G. apply h_mtu_inv in G. destruct G as [(-> & _)|(? & ? & _ & _ & -> & _)]; [split; assumption|]. split; [exact R|exact P].
  - intros -> s1 p c G. destruct (h_write_keeps _ _ _ _ _ _ G) as (_ & K & _). rewrite K. split; [|exact P].
    unfold h_write in G. destruct (Nat.ltb _ 3) eqn:L; [injection G as <- _ _; exact R|]. destruct t as [|x [|y t]]; try discriminate L. rewrite r16_1 in G. cbn [gbind] in G.
    rewrite D, (attr_at_db d _ W) in G. cbn [gbind] in G. destruct (attr_at d (de16 x y)) as [a|] eqn:A; [|injection G as <- _ _; exact R].
    rewrite gfrom_ok in G by (cbn [length]; lia). cbn [gbind skipn] in G. destruct (att_write s e a t) as [[[s2 st] c2]|] eqn:E; [|discriminate]. cbn [gbind] in G. injection G as <- _ _.
    inversion B as [|? ? _ B1]; subst. inversion B1 as [|? ? Ba B2]; subst. inversion B2 as [|? ? Bb _]; subst.
    eapply att_write_r; [exact R| |exact E]. intros ci u v w WH ->. apply (AW 18 (de16 x y) u v w a ci); auto; [now apply de16_range|now apply req_handle_of].
  - intros -> s1 c G. destruct (h_write_cmd_keeps _ _ _ _ _ G) as (_ & K & _). rewrite K. split; [|exact P].
    unfold h_write_cmd in G. destruct (Nat.leb _ 3) eqn:L; [injection G as <- _; exact R|]. destruct t as [|x [|y t]]; try discriminate L. rewrite r16_1 in G. cbn [gbind] in G.
    rewrite D, (attr_at_db d _ W) in G. cbn [gbind] in G. destruct (attr_at d (de16 x y)) as [a|] eqn:A; [|injection G as <- _; exact R].
    rewrite gfrom_ok in G by (cbn [length]; lia). cbn [gbind skipn] in G. destruct (att_write s e a t) as [[[s2 st] c2]|] eqn:E; [|discriminate]. cbn [gbind] in G. injection G as <- _.
    inversion B as [|? ? _ B1]; subst. inversion B1 as [|? ? Ba B2]; subst. inversion B2 as [|? ? Bb _]; subst.
    eapply att_write_r; [exact R| |exact E]. intros ci u v w WH ->. apply (AW 82 (de16 x y) u v w a ci); auto; [now apply de16_range|now apply req_handle_of].
  - intros -> s1 p G. unfold h_prepare in G. destruct t as [|x [|y t]]; try discriminate G. rewrite r16_1 in G. cbn [gbind] in G. destruct (Nat.ltb _ 3); [injection G as <- _; split; assumption|].
    rewrite D, (attr_at_db d _ W) in G. cbn [gbind] in G. destruct (attr_at d (de16 x y)) as [a|] eqn:A; [|injection G as <- _; split; assumption].
    destruct (a_wh a) eqn:WH; [|injection G as <- _; split; assumption]. destruct (gfrom _ 5); [|discriminate]. cbn [gbind] in G. destruct (r16 _ 3); [|discriminate]. cbn [gbind] in G.
    inversion B as [|? ? _ B1]; subst. inversion B1 as [|? ? Ba B2]; subst. inversion B2 as [|? ? Bb _]; subst.
    injection G as <- _. destruct (prep s) as [b|] eqn:PS; (split; [exact R|]); cbn [set_prep prep]; intros a' E; injection E as <-.
    + now apply P.
    + eapply AP; [|apply req_handle_of; assumption|exact A]. now apply de16_range.
  - intros _ s1 p c G. unfold h_execute in G. destruct (Nat.ltb _ 2); [injection G as <- _ _; split; assumption|]. destruct (gidx _ 1) as [f|]; [|discriminate]. cbn [gbind] in G.
    destruct (f =? 0); [injection G as <- _ _; split; [exact R|discriminate]|]. destruct (f =? 1); [|injection G as <- _ _; split; assumption].
    destruct (prep s) as [a|] eqn:PS; [|discriminate]. destruct (a_wh a) eqn:WH; [|injection G as <- _ _; split; [exact R|rewrite PS; exact P]].
    destruct (att_write s e a (prepdata s)) as [[[s2 st] c2]|] eqn:E; [|discriminate]. cbn [gbind] in G. injection G as <- _ _. split; [|discriminate].
    assert (RR : rst s2) by (eapply att_write_r; [exact R| |exact E]; intros ci x y u Q; exfalso; apply (P a eq_refl); exists ci; exact Q). exact RR.
Qed.
Lemma reach_rsinv : forall d s, wf_db d -> reach_supported d s -> rsinv d s.
Proof.
  intros d s W R. induction R as [rx tx s H|s e r s' o cs R IH B A H]; [|eapply handle_rsinv; eauto].
  unfold new_server in H. destruct ((rx <? 23) || (rx >? 515)); [discriminate|]. injection H as <-. split; [reflexivity|]. split; [|discriminate].
  split; intros h; cbn; intros j (y & Y & _); now destruct j.
Qed.
Lemma count_none : forall {A} (p : A -> bool) l, (forall j y, nth_error l j = Some y -> p y = false) -> length (filter p l) = 0%nat.
Proof.
  intros A p l. induction l as [|x l IH]; intro H; [reflexivity|]. cbn [filter]. rewrite (H 0%nat x eq_refl). apply IH. intros j y Y. apply (H (S j) y Y).
Qed.
Lemma count_one : forall {A} (p : A -> bool) l i, (forall j, (exists y, nth_error l j = Some y /\ p y = true) <-> j = i) -> length (filter p l) = 1%nat.
Proof.
  intros A p l. induction l as [|x l IH]; intros i H.
  - destruct (proj2 (H i) eq_refl) as (y & Y & _). destruct i; discriminate Y.
  - cbn [filter]. destruct (p x) eqn:E.
    + assert (0%nat = i) by (apply H; exists x; now split). subst i. cbn [length]. rewrite count_none; [reflexivity|]. intros j y Y. destruct (p y) eqn:F; [|reflexivity].
      assert (S j = 0%nat) by (apply H; exists y; now split). discriminate.
    + destruct i as [|i]; [destruct (proj2 (H 0%nat) eq_refl) as (y & Y & F); injection Y as <-; congruence|]. apply (IH i). intro j. split.
      * intros Q. assert (S j = S i) by (apply H; exact Q). lia.
      * intros ->. apply (H (S i)). reflexivity.
Qed.
Lemma st_running : forall s ind h on m, st_ok (notifs s) m ind h on -> running s ind h = if on then 1%nat else 0%nat.
Proof.
  intros s ind h on m S. unfold running. destruct on; cbn in S.
  - destruct S as (i & _ & O). apply (count_one _ _ i). intro j. rewrite <- O. unfold opens. split.
    + intros (y & Y & P). apply andb_true_iff in P. destruct P as [P P3]. apply andb_true_iff in P. destruct P as [P1 P2]. apply eqb_prop in P1. exists y. repeat split; auto. lia.
    + intros (y & Y & A & B & C). exists y. split; [exact Y|]. rewrite A, C. subst h. rewrite Z.eqb_refl. now destruct ind.
  - apply count_none. intros j y Y. destruct (Bool.eqb (nt_ind y) ind && (nt_char y =? h) && nt_open y) eqn:P; [|reflexivity]. exfalso.
    apply andb_true_iff in P. destruct P as [P P3]. apply andb_true_iff in P. destruct P as [P1 P2]. apply eqb_prop in P1. apply (S j). exists y. repeat split; auto. lia.
Qed.
(** ---- the end of the connection ---- *)
Lemma cleanup_spec : forall m s l, cleanup s m = Ret l -> forall ind h j, opens l ind h j -> opens (notifs s) ind h j /\
  (forall k c, In (k, c) m -> (Z.testbit c 1 = true -> aget (inn s) k <> Some j) /\ (Z.testbit c 0 = true -> aget (nn s) k <> Some j)).
Proof.
  intros m. induction m as [|[k c] m IH]; intros s l H ind h j O; cbn [cleanup] in H.
  - injection H as <-. split; [exact O|]. intros k c [].
  - destruct (if Z.testbit c 1 then _ else _) as [l1|] eqn:E1; [|discriminate]. cbn [gbind] in H.
    destruct (if Z.testbit c 0 then _ else _) as [l2|] eqn:E2; [|discriminate]. cbn [gbind] in H.
    destruct (IH _ _ H ind h j O) as [O2 K]. cbn [set_nn notifs nn inn] in O2, K.
    assert (Q2 : opens l1 ind h j /\ (Z.testbit c 0 = true -> aget (nn s) k <> Some j)).
    { destruct (Z.testbit c 0); [|injection E2 as <-; split; [exact O2|discriminate]]. destruct (aget (nn s) k) as [i|]; [|discriminate]. injection E2 as <-.
      apply opens_close in O2. destruct O2 as [O2 N]. split; [exact O2|]. intros _ Q. injection Q as ->. now elim N. }
    assert (Q1 : opens (notifs s) ind h j /\ (Z.testbit c 1 = true -> aget (inn s) k <> Some j)).
    { destruct Q2 as [Q2 _]. destruct (Z.testbit c 1); [|injection E1 as <-; split; [exact Q2|discriminate]]. destruct (aget (inn s) k) as [i|]; [|discriminate]. injection E1 as <-.
      apply opens_close in Q2. destruct Q2 as [O1 N]. split; [exact O1|]. intros _ Q. injection Q as ->. now elim N. }
    split; [apply Q1|]. intros k' c' [E|I]; [injection E as <- <-; split; [apply Q1|apply Q2]|]. now apply K.
Qed.
Lemma aget_in : forall {V} (m : list (Z * V)) k v, aget m k = Some v -> In (k, v) m.
Proof. intros V m k v. induction m as [|[k' w] m IH]; cbn; intro H; [discriminate|]. destruct (k =? k') eqn:E; [apply Z.eqb_eq in E; injection H as ->; subst; now left|right; auto]. Qed.
Lemma cleanup_closes : forall s l, rst s -> cleanup s (cccs s) = Ret l -> forall n, In n l -> nt_open n = false.
Proof.
  intros s l [RN RI] H n IN. destruct (nt_open n) eqn:O; [|reflexivity]. exfalso. apply In_nth_error in IN. destruct IN as [j J].
  destruct (cleanup_spec _ _ _ H (nt_ind n) (nt_char n) j ltac:(exists n; auto)) as [P K].
  destruct (nt_ind n).
  - specialize (RI (nt_char n)). unfold ccc_of in RI. destruct (aget (cccs s) (nt_char n)) as [v|] eqn:E; [|cbn in RI; now elim (RI j)].
    destruct (Z.testbit v 1) eqn:T; cbn in RI; [|now elim (RI j)]. destruct RI as (i & A & Q). apply Q in P. subst j. apply (proj1 (K _ _ (aget_in _ _ _ E))); assumption.
  - specialize (RN (nt_char n)). unfold ccc_of in RN. destruct (aget (cccs s) (nt_char n)) as [v|] eqn:E; [|cbn in RN; now elim (RN j)].
    destruct (Z.testbit v 0) eqn:T; cbn in RN; [|now elim (RN j)]. destruct RN as (i & A & Q). apply Q in P. subst j. apply (proj2 (K _ _ (aget_in _ _ _ E))); assumption.
Qed.
Lemma aset_keys : forall {V} (m : list (Z * V)) k v, NoDup (map fst m) -> NoDup (map fst (aset m k v)) /\ (forall x, In x (map fst (aset m k v)) <-> x = k \/ In x (map fst m)).
Proof.
  intros V m k v. induction m as [|[k' w] m IH]; intro N; cbn [aset map fst].
  - split; [constructor; [intros []|constructor]|]. intro x. cbn. split; intros [->|[]]; auto.
  - inversion N as [|? ? N1 N2]; subst. destruct (IH N2) as [I1 I2]. destruct (k =? k') eqn:E; cbn [map fst].
    + apply Z.eqb_eq in E. subst k'. split; [exact N|]. intro x. cbn. split; [intros [->|Q]; auto|intros [->|[->|Q]]; auto].
    + split; [constructor; [|exact I1]|].
      * intro Q. apply I2 in Q. destruct Q as [Q|Q]; [lia|contradiction].
      * intro x. cbn. rewrite I2. tauto.
Qed.
