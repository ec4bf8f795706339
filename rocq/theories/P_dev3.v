(** The history of a device and what each connection sees of it. *)
Require Import Verif.Base Verif.M_uuid Verif.M_attdb Verif.M_attsrv Verif.P_attsrv2 Verif.P_attsrv8 Verif.M_srvloop Verif.S_srvloop Verif.M_dev Verif.S_dev Verif.P_dev Verif.P_dev2.

Lemma drun_snoc_inv : forall d h e d2, drun d (h ++ [e]) d2 -> exists d1, drun d h d1 /\ dstep d1 (fst e) = Some (d2, snd e).
Proof.
  intros d h e d2 H. inversion H as [x E1 E2|x h' d1 a d2' v R S E1 E2].
  - destruct h; discriminate.
  - apply app_inj_tail in E2. destruct E2 as [-> <-]. exists d1. split; assumption.
Qed.
Lemma drun_split : forall d a b d2, drun d (a ++ b) d2 -> exists d1, drun d a d1 /\ drun d1 b d2.
Proof.
  intros d a b. induction b as [|e b IH] using rev_ind; intros d2 H.
  - rewrite app_nil_r in H. exists d2. split; [exact H|constructor].
  - rewrite app_assoc in H. destruct (drun_snoc_inv _ _ _ _ H) as (d1 & R & S). destruct (IH d1 R) as (dm & A & B). exists dm. split; [exact A|]. destruct e as [x v]. econstructor; eassumption.
Qed.

Lemma created_app : forall a b, created (a ++ b) = (created a + fold_right (fun e n => created1 (fst e) + n) 0 b)%nat.
Proof.
  induction a as [|[x v] a IH]; intro b; cbn [app created]; [|rewrite IH; lia].
  induction b as [|[x v] b IH]; cbn [created fold_right fst]; [reflexivity|]. rewrite IH. lia.
Qed.
Lemma created_snoc : forall h x v, created (h ++ [(x, v)]) = (created h + created1 x)%nat.
Proof. intros. rewrite created_app. cbn. lia. Qed.
Lemma pub_from_snoc : forall h n p x v, pub_from n p (h ++ [(x, v)]) = pub1 (n + fold_right (fun e n => created1 (fst e) + n) 0 h)%nat (pub_from n p h) x.
Proof.
  induction h as [|[y w] h IH]; intros n p x v; cbn [app pub_from fold_right fst]; [now rewrite Nat.add_0_r|]. rewrite IH. f_equal. lia.
Qed.
Lemma created_fold : forall h, created h = (4 + fold_right (fun e n => created1 (fst e) + n) 0 h)%nat.
Proof. induction h as [|[x v] h IH]; cbn [created fold_right fst]; [reflexivity|]. rewrite IH. lia. Qed.
Lemma published_snoc : forall h x v, published (h ++ [(x, v)]) = pub1 (created h) (published h) x.
Proof. intros. unfold published. rewrite pub_from_snoc. now rewrite created_fold. Qed.
Lemma in_table_snoc : forall h x v, in_table (h ++ [(x, v)]) = if publishes x then published (h ++ [(x, v)]) else in_table h.
Proof.
  intros. unfold in_table. rewrite existsb_app. cbn [existsb fst]. destruct (publishes x) eqn:P; [now rewrite !orb_true_r|]. rewrite !orb_false_r. destruct (existsb _ h); [|reflexivity]. rewrite published_snoc. now destruct x.
Qed.
Lemma accepts_app : forall a b, accepts (a ++ b) = (accepts a + accepts b)%nat.
Proof. intros. unfold accepts. now rewrite filter_app, app_length. Qed.
Lemma acts_of_app : forall i a b, acts_of i (a ++ b) = acts_of i a ++ acts_of i b.
Proof. intros. apply flat_map_app. Qed.
Lemma seen_on_app : forall i a b, seen_on i (a ++ b) = seen_on i a ++ seen_on i b.
Proof. intros. apply flat_map_app. Qed.

Record dinv (h : dhist) (d : dev) : Prop := {
  di_good : good (dv_objs d);
  di_len : length (dv_objs d) = created h;
  di_pub : dv_pub d = published h;
  di_ground : grounded (in_table h) (dv_objs d) (dv_db d);
  di_tab : Forall (fun k => (k < length (dv_objs d))%nat) (in_table h);
  di_conns : length (dv_conns d) = accepts h }.

Lemma good_app : forall a b, good a -> good b -> (forall n, In n (numbers b) -> ~ In n (numbers a)) -> good (a ++ b).
Proof.
  intros a b [A1 A2] [B1 B2] D. split; [rewrite numbers_app; apply NoDup_app2; auto; intros x X Y; exact (D x Y X)|]. apply Forall_app. now split.
Qed.
Lemma good_default : forall name n, good (default_services name n).
Proof. intros. split; [cbn; repeat constructor; intros []|]. repeat constructor. Qed.
Lemma good_app_default : forall objs name n, good objs -> existsb (Nat.eqb n) (numbers objs) = false -> good (objs ++ default_services name n).
Proof. intros objs name n G E. apply good_app; [exact G|apply good_default|]. intros m M. cbn in M. destruct M as [<-|[]]. now apply not_mem. Qed.
Lemma nth_app_l : forall {A} (l r : list A) k, (k < length l)%nat -> nth_error (l ++ r) k = nth_error l k.
Proof. intros. now apply nth_error_app1. Qed.
Lemma ground_app : forall tab objs r t, Forall (fun k => (k < length objs)%nat) tab -> grounded tab objs t -> grounded tab (objs ++ r) t.
Proof.
  intros tab objs r t B G. unfold grounded in *. erewrite chars_of_ext; [exact G|]. intros k K. apply nth_app_l. rewrite Forall_forall in B. now apply B.
Qed.

(** one step of the device: the objects, and the tables made of objects that are not touched *)
Lemma dstep_facts : forall h d x d' v, dinv h d -> dstep d x = Some (d', v) ->
  dinv (h ++ [(x, v)]) d' /\
  (forall tab t, Forall (fun k => (k < length (dv_objs d))%nat) tab -> (forall k, In k (assigned h x) -> ~ In k tab) -> grounded tab (dv_objs d) t ->
     grounded tab (dv_objs d') t /\ Forall (fun k => (k < length (dv_objs d'))%nat) tab) /\
  (publishes x = true -> dv_conns d' = map (refresh_conn (dv_objs d')) (dv_conns d)).
Proof.
  intros h d x d' v [IG IL IP IGr IT IC] S.
  assert (PUB : forall objs ks, good objs -> publishes x = true -> (exists r, objs = dv_objs d ++ r) -> length objs = (length (dv_objs d) + created1 x)%nat -> ks = pub1 (created h) (published h) x -> publish d objs ks = Some d' ->
    dinv (h ++ [(x, v)]) d' /\ (forall tab t, Forall (fun k => (k < length (dv_objs d))%nat) tab -> (forall k, In k (assigned h x) -> ~ In k tab) -> grounded tab (dv_objs d) t ->
       grounded tab (dv_objs d') t /\ Forall (fun k => (k < length (dv_objs d'))%nat) tab) /\ (publishes x = true -> dv_conns d' = map (refresh_conn (dv_objs d')) (dv_conns d))).
  { intros objs ks G PX (r & OR) LO KS P. assert (KB : Forall (fun k => (k < length objs)%nat) ks).
    { unfold publish in P. destruct (distinct ks); [|discriminate]. destruct (fetch objs ks) as [ss|] eqn:F; [|discriminate]. apply fetch_nth in F. clear - F. induction F as [|k s ks ss E F IH]; constructor; [|exact IH]. apply nth_error_Some. congruence. }
    destruct (publish_facts _ _ _ _ G P) as (F1 & F2 & F3 & F4 & F5 & F6 & F7).
    split; [|split; [|intros _; exact F7]].
    - constructor.
      + exact F1.
      + rewrite created_snoc, F2, LO, IL. reflexivity.
      + now rewrite published_snoc, F3.
      + rewrite in_table_snoc, PX, published_snoc, <- KS. exact F5.
      + rewrite in_table_snoc, PX, published_snoc, <- KS, F2. exact KB.
      + rewrite F7, map_length, accepts_app, IC. destruct x; try discriminate PX; cbn; lia.
    - intros tab t B NI Gr. split.
      + apply (ground_app _ _ r _ B) in Gr. rewrite <- OR in Gr. unfold grounded in *. erewrite chars_of_ext; [exact Gr|]. intros k K. apply F6. intro KK. apply (NI k); [|exact K]. unfold assigned. rewrite PX, <- KS. exact KK.
      + eapply Forall_impl; [|exact B]. cbv beta. intros k K. rewrite F2, OR, app_length. lia. }
  destruct x as [s|k|n|n ks| |i a]; cbn [dstep] in S.
  - destruct (fresh_for (dv_objs d) s) eqn:FR; [|discriminate]. injection S as <- <-. cbn [dv_objs dv_pub dv_db dv_conns]. unfold fresh_for in FR. apply andb_true_iff in FR. destruct FR as [FR F3]. apply andb_true_iff in FR. destruct FR as [F1 F2].
    assert (G : good (dv_objs d ++ [s])). { apply good_app; [exact IG| |]. { split; [now apply distinct_nodup|]. constructor; [exact F1|constructor]. } rewrite forallb_forall in F3. intros m M. apply not_mem. apply negb_true_iff. now apply F3. }
    split; [|split; [|discriminate]].
    + constructor; cbn [dv_objs dv_pub dv_db dv_conns].
      * exact G.
      * rewrite created_snoc, app_length, IL. reflexivity.
      * now rewrite published_snoc.
      * rewrite in_table_snoc. cbn [publishes]. now apply ground_app.
      * rewrite in_table_snoc. cbn [publishes]. eapply Forall_impl; [|exact IT]. cbv beta. intros j J. rewrite app_length. lia.
      * rewrite accepts_app. cbn. lia.
    + intros tab t B _ Gr. split; [now apply ground_app|]. eapply Forall_impl; [|exact B]. cbv beta. intros j J. rewrite app_length. lia.
  - destruct (publish d (dv_objs d) (dv_pub d ++ [k])) as [d1|] eqn:P; [|discriminate]. cbn [option_map] in S. injection S as -> <-. apply (PUB (dv_objs d) (dv_pub d ++ [k])); auto.
    + exists []. now rewrite app_nil_r.
    + cbn [pub1]. now rewrite IP.
  - destruct (existsb (Nat.eqb n) (numbers (dv_objs d))) eqn:E; [discriminate|]. destruct (publish d _ _) as [d1|] eqn:P; [|discriminate]. cbn [option_map] in S. injection S as -> <-.
    refine (PUB _ _ _ _ _ _ _ P); [now apply good_app_default|reflexivity|eexists; reflexivity|now rewrite app_length|]. cbn [pub1]. now rewrite IL.
  - destruct (existsb (Nat.eqb n) (numbers (dv_objs d))) eqn:E; [discriminate|]. destruct (publish d _ _) as [d1|] eqn:P; [|discriminate]. cbn [option_map] in S. injection S as -> <-.
    refine (PUB _ _ _ _ _ _ _ P); [now apply good_app_default|reflexivity|eexists; reflexivity|now rewrite app_length|]. cbn [pub1]. now rewrite IL.
  - destruct (new_server (dv_db d) 515 23) as [s|]; [|discriminate]. injection S as <- <-. cbn [dv_objs dv_pub dv_db dv_conns]. split; [|split; [auto|discriminate]].
    constructor; cbn [dv_objs dv_pub dv_db dv_conns].
    + exact IG.
    + rewrite created_snoc. cbn. lia.
    + now rewrite published_snoc.
    + rewrite in_table_snoc. exact IGr.
    + rewrite in_table_snoc. exact IT.
    + rewrite app_length, accepts_app, IC. reflexivity.
  - destruct (nth_error (dv_conns d) i) as [c|]; [|discriminate]. destruct (lstep c a) as [[c' w]|]; [|discriminate]. injection S as <- <-. cbn [dv_objs dv_pub dv_db dv_conns]. split; [|split; [auto|discriminate]].
    constructor; cbn [dv_objs dv_pub dv_db dv_conns].
    + exact IG.
    + rewrite created_snoc. cbn. lia.
    + now rewrite published_snoc.
    + rewrite in_table_snoc. exact IGr.
    + rewrite in_table_snoc. exact IT.
    + rewrite upd_length, accepts_app, IC. cbn. lia.
Qed.
Lemma dinv_init : forall name, dinv [] (dinit name).
Proof.
  intro name. unfold dinit. pose proof (new_db_knows (default_services name 1) 1) as K. pose proof (good_default name 1) as [G1 G2]. specialize (K G2).
  assert (LE : length (fst (new_db (default_services name 1) 1)) = 2%nat) by reflexivity.
  destruct (new_db (default_services name 1) 1) as [ss t]. cbn [fst] in LE. destruct K as (K1 & K2 & K3).
  assert (G : good (default_services name 0 ++ ss)). { apply good_app; [apply good_default|split; [rewrite numbers_sch, K2, <- numbers_sch; exact G1|exact K3]|]. rewrite numbers_sch, K2. intros n N. cbn in N. destruct N as [<-|[]]. cbn. intros [F|[]]. discriminate. }
  destruct ss as [|s1 [|s2 [|s3 ss]]]; try discriminate.
  constructor; cbn [dv_objs dv_pub dv_db dv_conns]; try reflexivity.
  - exact G.
  - red. change (chars_of (default_services name 0 ++ [s1; s2]) (in_table [])) with (flat_map s_chars [s1; s2]). exact K1.
  - cbn. repeat constructor.
Qed.
Lemma dinv_run : forall name h d, drun (dinit name) h d -> dinv h d.
Proof.
  intros name h. induction h as [|[x v] h IH] using rev_ind; intros d H.
  - inversion H as [? E1 E2|? l ? ? ? ? ? ? E1 E2]; [subst; apply dinv_init|destruct l; discriminate].
  - destruct (drun_snoc_inv _ _ _ _ H) as (d1 & R & S). exact (proj1 (dstep_facts _ _ _ _ _ (IH d1 R) S)).
Qed.

(** ** One connection *)
Lemma assigned_ext : forall h1 h2 x, created h1 = created h2 -> published h1 = published h2 -> assigned h1 x = assigned h2 x.
Proof. intros h1 h2 x C P. unfold assigned. now rewrite C, P. Qed.
Lemma fold_mid : forall (a : dhist) v (b : dhist), fold_right (fun e n => created1 (fst e) + n)%nat 0%nat (a ++ (DAccept, v) :: b) = fold_right (fun e n => created1 (fst e) + n)%nat 0%nat (a ++ b).
Proof. induction a as [|[x w] a IH]; intros v b; cbn [app fold_right fst created1]; [reflexivity|]. now rewrite IH. Qed.
Lemma pub_mid : forall a v b n p, pub_from n p (a ++ (DAccept, v) :: b) = pub_from n p (a ++ b).
Proof. induction a as [|[x w] a IH]; intros v b n p; cbn [app pub_from created1 pub1]; [now rewrite Nat.add_0_r|]. apply IH. Qed.
Lemma assigned_mid : forall h1 v h2 x, assigned (h1 ++ (DAccept, v) :: h2) x = assigned (h1 ++ h2) x.
Proof. intros. apply assigned_ext; [rewrite !created_fold; now rewrite fold_mid|apply pub_mid]. Qed.
Lemma undisturbed_snoc : forall h1 h2 e, undisturbed h1 (h2 ++ [e]) -> undisturbed h1 h2 /\ forall k, In k (assigned (h1 ++ h2) (fst e)) -> ~ In k (in_table h1).
Proof.
  intros h1 h2 e U. split.
  - intros x f y E. apply (U x f (y ++ [e])). rewrite E, <- app_assoc. reflexivity.
  - apply (U h2 e []). reflexivity.
Qed.
Lemma nth_upd_ne : forall {A} (l : list A) i j x, i <> j -> nth_error (upd l i x) j = nth_error l j.
Proof. intros. rewrite nth_error_upd. apply Nat.eqb_neq in H. now rewrite H. Qed.
Lemma new_server_uses : forall d rx tx s, new_server d rx tx = Some s -> uses d s.
Proof. intros d rx tx s H. unfold new_server in H. destruct (_ || _); [discriminate|]. injection H as <-. split; [reflexivity|]. split; [discriminate|constructor]. Qed.

(** what a step of the device does to connection i: its own step, a refresh, or nothing *)
Lemma dstep_conn : forall d x d' v i c, dstep d x = Some (d', v) -> nth_error (dv_conns d) i = Some c -> exists c', nth_error (dv_conns d') i = Some c' /\
  ((exists a, x = DConn i a /\ lstep c a = Some (c', v)) \/ (acts_of i [(x, v)] = [] /\ seen_on i [(x, v)] = [] /\ (c' = c \/ (publishes x = true /\ c' = refresh_conn (dv_objs d') c)))).
Proof.
  intros d x d' v i c S N.
  assert (PUB : forall objs ks, publish d objs ks = Some d' -> nth_error (dv_conns d') i = Some (refresh_conn (dv_objs d') c)).
  { intros objs ks P. unfold publish in P. destruct (distinct ks); [|discriminate]. destruct (fetch objs ks); [|discriminate]. destruct (new_db _ 1). injection P as <-. cbn [dv_conns dv_objs]. now apply map_nth_error. }
  destruct x as [s|k|n|n ks| |j a]; cbn [dstep] in S.
  - destruct (fresh_for (dv_objs d) s); [|discriminate]. injection S as <- <-. exists c. cbn. auto 6.
  - destruct (publish d _ _) as [d1|] eqn:P; [|discriminate]. injection S as -> <-. eexists. split; [exact (PUB _ _ P)|]. right. auto.
  - destruct (existsb _ _); [discriminate|]. destruct (publish d _ _) as [d1|] eqn:P; [|discriminate]. injection S as -> <-. eexists. split; [exact (PUB _ _ P)|]. right. auto.
  - destruct (existsb _ _); [discriminate|]. destruct (publish d _ _) as [d1|] eqn:P; [|discriminate]. injection S as -> <-. eexists. split; [exact (PUB _ _ P)|]. right. auto.
  - destruct (new_server _ _ _); [|discriminate]. injection S as <- <-. exists c. cbn [dv_conns]. split; [rewrite nth_app_l; [exact N|apply nth_error_Some; congruence]|]. right. cbn. auto.
  - destruct (nth_error (dv_conns d) j) as [b|] eqn:NJ; [|discriminate]. destruct (lstep b a) as [[b' w]|] eqn:L; [|discriminate]. injection S as <- <-. cbn [dv_conns]. destruct (Nat.eq_dec j i) as [->|NE].
    + assert (b = c) by congruence. subst b. exists b'. split; [|left; exists a; now split]. rewrite nth_error_upd, Nat.eqb_refl. assert (B : (i < length (dv_conns d))%nat) by (apply nth_error_Some; congruence). apply Nat.ltb_lt in B. now rewrite B.
    + exists c. split; [rewrite nth_upd_ne by exact NE; exact N|]. right. unfold acts_of, seen_on. cbn [flat_map fst snd]. apply Nat.eqb_neq in NE. rewrite NE. auto.
Qed.

Lemma connection : forall name h1 v0 h2 d, drun (dinit name) (h1 ++ (DAccept, v0) :: h2) d -> undisturbed h1 h2 ->
  exists d1 s0 c, drun (dinit name) h1 d1 /\ new_server (dv_db d1) 515 23 = Some s0 /\ nth_error (dv_conns d) (accepts h1) = Some c /\
    lrun (linit s0) (acts_of (accepts h1) h2) c (seen_on (accepts h1) h2) /\
    uses (dv_db d1) (sv c) /\ grounded (in_table h1) (dv_objs d) (dv_db d1) /\ Forall (fun k => (k < length (dv_objs d))%nat) (in_table h1).
Proof.
  intros name h1 v0 h2. induction h2 as [|e h2 IH] using rev_ind; intros d H U.
  - destruct (drun_snoc_inv _ _ _ _ H) as (d1 & R & S). pose proof (dinv_run _ _ _ R) as [IG IL IP IGr IT IC]. cbn [fst snd dstep] in S. destruct (new_server (dv_db d1) 515 23) as [s0|] eqn:N; [|discriminate]. injection S as <- _. exists d1, s0, (linit s0).
    split; [exact R|]. split; [exact N|]. cbn [dv_conns dv_objs]. split; [rewrite <- IC, nth_error_app2, Nat.sub_diag by lia; reflexivity|]. split; [constructor|]. split; [exact (new_server_uses _ _ _ _ N)|]. split; assumption.
  - apply undisturbed_snoc in U. destruct U as [U UE]. change (h1 ++ (DAccept, v0) :: h2 ++ [e]) with (h1 ++ ((DAccept, v0) :: h2) ++ [e]) in H. rewrite app_assoc in H. destruct (drun_snoc_inv _ _ _ _ H) as (d2 & R & S). destruct e as [x v]. cbn [fst snd] in *.
    destruct (IH d2 R U) as (d1 & s0 & c & A1 & A2 & A3 & A4 & A5 & A6 & A7). destruct (dstep_facts _ _ _ _ _ (dinv_run _ _ _ R) S) as (DI & GR & _).
    destruct (GR (in_table h1) (dv_db d1) A7) as [G' B']; [intros k K; apply UE; rewrite <- (assigned_mid h1 v0 h2); exact K|exact A6|].
    destruct (dstep_conn _ _ _ _ _ _ S A3) as (c' & N' & [(a & -> & L)|(E1 & E2 & E3)]).
    + exists d1, s0, c'. split; [exact A1|]. split; [exact A2|]. split; [exact N'|]. split; [|split; [exact (uses_lstep _ _ _ _ _ A5 L)|split; assumption]].
      rewrite acts_of_app, seen_on_app. unfold acts_of at 2, seen_on at 2. cbn [flat_map fst snd]. rewrite Nat.eqb_refl, !app_nil_r. econstructor; eassumption.
    + assert (c' = c). { destruct E3 as [E3|[_ E3]]; [exact E3|]. rewrite E3. unfold refresh_conn. rewrite (refresh_id _ _ _ _ (proj1 (di_good _ _ DI)) G' A5). now destruct c. } subst c'.
      exists d1, s0, c. split; [exact A1|]. split; [exact A2|]. split; [exact N'|]. split; [rewrite acts_of_app, seen_on_app, E1, E2, !app_nil_r; exact A4|]. split; [exact A5|]. split; assumption.
Qed.

(** ** Whatever is published later: the plain table stays *)
Lemma plain_refresh : forall objs t, plain (refresh_db objs t) = plain t.
Proof.
  intros objs [l b]. unfold plain, refresh_db. cbn. f_equal. rewrite map_map. apply map_ext. intros [h eh ty v rh wh]. unfold plain_attr, refresh_attr. cbn. f_equal; [destruct rh as [[|]|]|destruct wh as [[|]|]]; reflexivity.
Qed.
Lemma plain_kept : forall name h1 v0 h2 d, drun (dinit name) (h1 ++ (DAccept, v0) :: h2) d -> exists d1 c, drun (dinit name) h1 d1 /\ nth_error (dv_conns d) (accepts h1) = Some c /\ plain (s_db (sv c)) = plain (dv_db d1).
Proof.
  intros name h1 v0 h2. induction h2 as [|e h2 IH] using rev_ind; intros d H.
  - destruct (drun_snoc_inv _ _ _ _ H) as (d1 & R & S). pose proof (di_conns _ _ (dinv_run _ _ _ R)) as IC. cbn [fst snd dstep] in S. destruct (new_server (dv_db d1) 515 23) as [s0|] eqn:N; [|discriminate]. injection S as <- _. exists d1, (linit s0).
    split; [exact R|]. cbn [dv_conns]. split; [rewrite <- IC, nth_error_app2, Nat.sub_diag by lia; reflexivity|]. destruct (new_server_uses _ _ _ _ N) as (D & _). cbn [sv linit]. now rewrite D.
  - change (h1 ++ (DAccept, v0) :: h2 ++ [e]) with (h1 ++ ((DAccept, v0) :: h2) ++ [e]) in H. rewrite app_assoc in H. destruct (drun_snoc_inv _ _ _ _ H) as (d2 & R & S). destruct e as [x v]. cbn [fst snd] in *.
    destruct (IH d2 R) as (d1 & c & A1 & A2 & A3). destruct (dstep_conn _ _ _ _ _ _ S A2) as (c' & N' & [(a & -> & L)|(E1 & E2 & E3)]); exists d1, c'; (split; [exact A1|]); (split; [exact N'|]).
    + now rewrite (db_lstep _ _ _ _ L).
    + destruct E3 as [->|[_ ->]]; [exact A3|]. cbn [refresh_conn set_sv sv refresh s_db]. now rewrite plain_refresh.
Qed.
