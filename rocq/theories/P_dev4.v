(** The table at any time is made of the published services. *)
Require Import Verif.Base Verif.M_uuid Verif.M_attdb Verif.M_attsrv Verif.P_attsrv2 Verif.P_attsrv8 Verif.M_srvloop Verif.S_srvloop Verif.M_dev Verif.S_dev Verif.P_dev Verif.P_dev2 Verif.P_dev3.

Lemma same_char_refl : forall c, same_char c c.
Proof. intro c. do 7 (split; [reflexivity|]). split; [exists 0%nat; cbn; now rewrite app_nil_r|reflexivity]. Qed.
Lemma same_service_refl : forall s, same_service s s.
Proof. intro s. split; [reflexivity|]. induction (s_chars s); constructor; auto using same_char_refl. Qed.
Lemma same_list_refl : forall l, Forall2 same_service l l.
Proof. induction l; constructor; auto using same_service_refl. Qed.
Lemma gen_char_same : forall c c' h, same_char c c' -> same_char c (fst (fst (gen_char c' h))).
Proof.
  intros c c' h (E1 & E2 & E3 & E4 & E5 & E6 & E7 & (n & D) & E). unfold gen_char. destruct (gen_descs _ _ _) as [l h']. cbn [fst]. unfold same_char. cbn [c_uuid c_prop c_value c_rh c_wh c_nh c_ih c_descs].
  do 7 (split; [assumption|]). split.
  - destruct (c_nh c'), (c_ih c'); try (exists (S n); rewrite D, <- app_assoc; f_equal; replace (S n) with (n + 1)%nat by lia; rewrite repeat_app; reflexivity). exists n. exact D.
  - intros N I. rewrite E6, E7, N, I. now apply E.
Qed.
Lemma gen_chars_same : forall cs cs', Forall2 same_char cs cs' -> forall h, Forall2 same_char cs (fst (fst (gen_chars cs' h))).
Proof.
  intros cs cs' F. induction F as [|c c' cs cs' S F IH]; intro h; [constructor|]. cbn [gen_chars]. pose proof (gen_char_same c c' h S) as G. destruct (gen_char c' h) as [[x a] h1]. specialize (IH h1). destruct (gen_chars cs' h1) as [[r l] h2]. cbn [fst] in *. now constructor.
Qed.
Lemma gen_svcs_same : forall ss ss', Forall2 same_service ss ss' -> forall h, Forall2 same_service ss (fst (fst (gen_svcs ss' h))).
Proof.
  intros ss ss' F. induction F as [|s s' ss ss' S F IH]; intro h; [constructor|]. cbn [gen_svcs]. unfold gen_svc. destruct S as [U C]. pose proof (gen_chars_same _ _ C (u16 (h + 1))) as G.
  destruct (gen_chars (s_chars s') (u16 (h + 1))) as [[x a] h1]. specialize (IH h1). destruct (gen_svcs ss' h1) as [[r l] h2]. cbn [fst] in *. constructor; [split; assumption|exact IH].
Qed.
Lemma new_db_same : forall ss ss' h, Forall2 same_service ss ss' -> Forall2 same_service ss (fst (new_db ss' h)).
Proof. intros ss ss' h F. pose proof (gen_svcs_same _ _ F h) as G. unfold new_db. destruct (gen_svcs ss' h) as [[x a] h1]. exact G. Qed.

Lemma Forall2_nth : forall {A B} (R : A -> B -> Prop) l l' k y, Forall2 R l l' -> nth_error l' k = Some y -> exists x, nth_error l k = Some x /\ R x y.
Proof. intros A B R l l' k y F. revert k. induction F as [|a b l l' H F IH]; intros [|k] E; cbn in *; try discriminate; [injection E as <-; eauto|auto]. Qed.
Lemma Forall2_upd : forall {A B} (R : A -> B -> Prop) l l' k x y, Forall2 R l l' -> nth_error l k = Some x -> R x y -> Forall2 R l (upd l' k y).
Proof. intros A B R l l' k x y F. revert k. induction F as [|a b l l' H F IH]; intros [|k] E S; cbn in *; try discriminate; constructor; auto. injection E as ->. exact S. Qed.
Lemma Forall2_len : forall {A B} (R : A -> B -> Prop) l l', Forall2 R l l' -> length l = length l'.
Proof. intros A B R l l' F. induction F; cbn; congruence. Qed.
Definition picks (os : list service) (ks : list nat) (ss : list service) : Prop := Forall2 (fun k s => exists o, nth_error os k = Some o /\ same_service o s) ks ss.
Lemma fetch_picks : forall os objs ks ss, Forall2 same_service os objs -> fetch objs ks = Some ss -> picks os ks ss.
Proof.
  intros os objs ks ss F H. apply fetch_nth in H. induction H as [|k s ks ss E H IH]; constructor; [|exact IH]. exact (Forall2_nth _ _ _ _ _ F E).
Qed.
Lemma picks_list : forall os ks ss, picks os ks ss -> exists l, Forall2 (fun k o => nth_error os k = Some o) ks l /\ Forall2 same_service l ss.
Proof. intros os ks ss F. induction F as [|k s ks ss (o & E & S) F (l & L1 & L2)]; [exists []; split; constructor|]. exists (o :: l). split; constructor; assumption. Qed.
Lemma store_same_objs : forall os ks l ss, Forall2 (fun k o => nth_error os k = Some o) ks l -> Forall2 same_service l ss -> forall objs, Forall2 same_service os objs -> Forall2 same_service os (store objs ks ss).
Proof.
  intros os ks l ss F. revert ss. induction F as [|k o ks l E F IH]; intros ss G objs O; inversion G; subst; [exact O|]. cbn [store]. apply IH; [assumption|]. eapply Forall2_upd; eassumption.
Qed.
Lemma publish_same : forall os d objs ks d', Forall2 same_service os objs -> publish d objs ks = Some d' -> Forall2 same_service os (dv_objs d') /\ exists ss, dv_db d' = snd (new_db ss 1) /\ picks os ks ss.
Proof.
  intros os d objs ks d' F H. unfold publish in H. destruct (distinct ks); [|discriminate]. destruct (fetch objs ks) as [ss|] eqn:FE; [|discriminate]. pose proof (fetch_picks _ _ _ _ F FE) as P.
  destruct (picks_list _ _ _ P) as (l & L1 & L2). pose proof (new_db_same l ss 1 L2) as N. destruct (new_db ss 1) as [ss' t] eqn:ND. cbn [fst] in N. injection H as <-. cbn [dv_objs dv_db]. split; [exact (store_same_objs _ _ _ _ L1 N _ F)|].
  exists ss. rewrite ND. split; [reflexivity|exact P].
Qed.
Lemma objects_snoc : forall name h x v, objects name (h ++ [(x, v)]) = objects name h ++ made1 name x.
Proof. intros. unfold objects. rewrite flat_map_app. cbn [flat_map fst]. rewrite app_nil_r. now rewrite !app_assoc. Qed.
Lemma picks_app : forall os r ks ss, picks os ks ss -> picks (os ++ r) ks ss.
Proof. intros os r ks ss F. induction F as [|k s ks ss (o & E & S) F IH]; constructor; [|exact IH]. exists o. split; [|exact S]. rewrite nth_error_app1; [exact E|]. apply nth_error_Some. congruence. Qed.

Lemma dv_name_step : forall d x d' v, dstep d x = Some (d', v) -> dv_name d' = dv_name d.
Proof.
  intros d x d' v S. assert (P : forall objs ks, publish d objs ks = Some d' -> dv_name d' = dv_name d). { intros objs ks P. unfold publish in P. destruct (distinct ks); [|discriminate]. destruct (fetch objs ks); [|discriminate]. destruct (new_db _ 1). now injection P as <-. }
  destruct x; cbn [dstep] in S.
  - destruct (fresh_for _ _); [|discriminate]. now injection S as <- _.
  - destruct (publish d _ _) eqn:E; [|discriminate]. injection S as -> _. exact (P _ _ E).
  - destruct (existsb _ _); [discriminate|]. destruct (publish d _ _) eqn:E; [|discriminate]. injection S as -> _. exact (P _ _ E).
  - destruct (existsb _ _); [discriminate|]. destruct (publish d _ _) eqn:E; [|discriminate]. injection S as -> _. exact (P _ _ E).
  - destruct (new_server _ _ _); [|discriminate]. now injection S as <- _.
  - destruct (nth_error _ _); [|discriminate]. destruct (lstep _ _) as [[? ?]|]; [|discriminate]. now injection S as <- _.
Qed.
Lemma dv_name_run : forall name h d, drun (dinit name) h d -> dv_name d = name.
Proof.
  intros name h. induction h as [|[x v] h IH] using rev_ind; intros d H.
  - inversion H as [? E1 E2|? l ? ? ? ? ? ? E1 E2]; [subst; reflexivity|destruct l; discriminate].
  - destruct (drun_snoc_inv _ _ _ _ H) as (d1 & R & S). rewrite (dv_name_step _ _ _ _ S). now apply IH.
Qed.
Lemma current : forall name h d, drun (dinit name) h d -> Forall2 same_service (objects name h) (dv_objs d) /\ exists ss, dv_db d = snd (new_db ss 1) /\ picks (objects name h) (in_table h) ss.
Proof.
  intros name h. induction h as [|[x v] h IH] using rev_ind; intros d H.
  - inversion H as [? E1 E2|? l ? ? ? ? ? ? E1 E2]; [subst|destruct l; discriminate]. unfold dinit. pose proof (new_db_same (default_services name 1) _ 1 (same_list_refl (default_services name 1))) as S. destruct (new_db (default_services name 1) 1) as [ss t] eqn:ND. cbn [fst dv_objs dv_db] in *. split.
    + unfold objects. cbn [flat_map]. rewrite app_nil_r. apply Forall2_app; [apply same_list_refl|exact S].
    + exists (default_services name 1). rewrite ND. split; [reflexivity|]. constructor; [|constructor; [|constructor]]; eexists; (split; [reflexivity|]); apply same_service_refl.
  - destruct (drun_snoc_inv _ _ _ _ H) as (d1 & R & S). cbn [fst snd] in S. destruct (IH d1 R) as (O & ss & T & P). pose proof (dinv_run _ _ _ R) as [_ IL IP _ _ _]. pose proof (dv_name_run _ _ _ R) as NM. rewrite objects_snoc, in_table_snoc, published_snoc.
    assert (PUB : forall objs, publish d1 objs (pub1 (created h) (published h) x) = Some d -> Forall2 same_service (objects name h ++ made1 name x) objs ->
      Forall2 same_service (objects name h ++ made1 name x) (dv_objs d) /\ exists ss0, dv_db d = snd (new_db ss0 1) /\ picks (objects name h ++ made1 name x) (pub1 (created h) (published h) x) ss0).
    { intros objs PB F. exact (publish_same _ _ _ _ _ F PB). }
    destruct x as [s|k|n|n ks| |i a]; cbn [dstep publishes] in *.
    + destruct (fresh_for _ _); [|discriminate]. injection S as <- _. cbn [dv_objs dv_db made1]. split; [apply Forall2_app; [exact O|apply same_list_refl]|]. exists ss. split; [exact T|now apply picks_app].
    + destruct (publish d1 _ _) as [d2|] eqn:E; [|discriminate]. injection S as -> _. rewrite IP in E. apply (PUB _ E). cbn [made1]. now rewrite app_nil_r.
    + destruct (existsb _ _); [discriminate|]. destruct (publish d1 _ _) as [d2|] eqn:E; [|discriminate]. injection S as -> _. rewrite IL, NM in E. apply (PUB _ E). apply Forall2_app; [exact O|apply same_list_refl].
    + destruct (existsb _ _); [discriminate|]. destruct (publish d1 _ _) as [d2|] eqn:E; [|discriminate]. injection S as -> _. rewrite IL, NM in E. apply (PUB _ E). apply Forall2_app; [exact O|apply same_list_refl].
    + destruct (new_server _ _ _); [|discriminate]. injection S as <- _. cbn [dv_objs dv_db made1]. rewrite app_nil_r. split; [exact O|]. now exists ss.
    + destruct (nth_error _ _); [|discriminate]. destruct (lstep _ _) as [[? ?]|]; [|discriminate]. injection S as <- _. cbn [dv_objs dv_db made1]. rewrite app_nil_r. split; [exact O|]. now exists ss.
Qed.
