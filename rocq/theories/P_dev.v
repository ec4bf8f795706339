(** Objects, handles and the tables made from them. *)
Require Import Verif.Base Verif.M_uuid Verif.M_attdb Verif.M_attsrv Verif.P_attsrv Verif.P_attsrv2 Verif.P_attsrv8 Verif.M_srvloop Verif.M_dev.

Definition sch (s : service) : list nat := flat_map (fun c => match char_no c with Some n => [n] | None => [] end) (s_chars s).
Lemma numbers_sch : forall l, numbers l = concat (map sch l).
Proof. unfold numbers. induction l as [|s l IH]; [reflexivity|]. cbn [flat_map map concat]. now rewrite flat_map_app, IH. Qed.
Lemma numbers_app : forall a b, numbers (a ++ b) = numbers a ++ numbers b.
Proof. intros. now rewrite !numbers_sch, map_app, concat_app. Qed.
Lemma distinct_nodup : forall l, distinct l = true -> NoDup l.
Proof.
  induction l as [|x l IH]; intro D; [constructor|]. cbn [distinct] in D. apply andb_true_iff in D. destruct D as [D1 D2]. constructor; [|auto].
  intro I. apply negb_true_iff in D1. assert (existsb (Nat.eqb x) l = true) by (apply existsb_exists; exists x; split; [exact I|apply Nat.eqb_refl]). congruence.
Qed.
Lemma not_mem : forall n l, existsb (Nat.eqb n) l = false -> ~ In n l.
Proof. intros n l E I. assert (existsb (Nat.eqb n) l = true) by (apply existsb_exists; exists n; split; [exact I|apply Nat.eqb_refl]). congruence. Qed.
Lemma NoDup_app2 : forall {A} (a b : list A), NoDup a -> NoDup b -> (forall x, In x a -> ~ In x b) -> NoDup (a ++ b).
Proof.
  induction a as [|x a IH]; intros b NA NB D; [exact NB|]. inversion NA; subst. cbn [app]. constructor.
  - rewrite in_app_iff. intros [I|I]; [contradiction|]. exact (D x (or_introl eq_refl) I).
  - apply IH; auto. intros y Y. apply D. now right.
Qed.

(** what a copy must say of its characteristic *)
Definition knows (cs : list char) (ci : cinfo) : Prop :=
  (forall a b, ci_nh ci = Some a -> ci_ih ci = Some b -> a = b) /\
  forall n, ci_no ci = Some n -> exists c, In c cs /\ char_no c = Some n /\ c_handle c = ci_handle ci /\ c_vhandle c = ci_vhandle ci.
Definition attr_knows (cs : list char) (a : attr) : Prop := forall ci, a_rh a = Some (ACccd ci) \/ a_wh a = Some (ACccd ci) -> knows cs ci.
Lemma knows_mono : forall cs cs' ci, incl cs cs' -> knows cs ci -> knows cs' ci.
Proof. intros cs cs' ci I [N K]. split; [exact N|]. intros n E. destruct (K n E) as (c & C & R). exists c. split; [now apply I|exact R]. Qed.
Lemma attr_knows_mono : forall cs cs' l, incl cs cs' -> Forall (attr_knows cs) l -> Forall (attr_knows cs') l.
Proof. intros cs cs' l I F. eapply Forall_impl; [|exact F]. intros a A ci C. eapply knows_mono; [exact I|now apply A]. Qed.

Lemma gen_descs_knows : forall ci cs ds h, knows cs ci -> Forall (attr_knows cs) (fst (gen_descs ci ds h)).
Proof.
  induction ds as [|d ds IH]; intros h K; [constructor|]. cbn [gen_descs]. specialize (IH (u16 (h + 1)) K). destruct (gen_descs ci ds (u16 (h + 1))) as [l h']. cbn [fst] in *. constructor; [|exact IH].
  intros ci' [E|E]; cbn in E; [destruct (d_rh d) as [[|]|]|destruct (d_wh d) as [[|]|]]; cbn in E; try discriminate; injection E as <-; exact K.
Qed.
Lemma named_eq : forall c a b, named c = true -> c_nh c = Some a -> c_ih c = Some b -> a = b.
Proof. intros c a b N A B. unfold named in N. rewrite A, B in N. now apply Nat.eqb_eq in N. Qed.
Lemma gen_char_knows : forall c h, named c = true -> let '(c', l, _) := gen_char c h in Forall (attr_knows [c']) l /\ char_no c' = char_no c /\ named c' = true.
Proof.
  intros c h N. unfold gen_char. set (ds := match c_nh c, c_ih c with None, None => _ | _, _ => _ end). set (ci := mkCI h (u16 (h + 1)) (c_prop c) (c_nh c) (c_ih c)). set (c' := mkChar _ _ _ _ _ _ _ _ _ _).
  assert (K : knows [c'] ci). { split; [intros a b; apply (named_eq c a b N)|]. intros n E. exists c'. split; [now left|]. split; [exact E|]. split; reflexivity. }
  pose proof (gen_descs_knows ci [c'] ds (u16 (h + 2)) K) as G. destruct (gen_descs ci ds (u16 (h + 2))) as [l h']. cbn [fst] in G. split; [|split; [reflexivity|exact N]].
  constructor; [intros ? [E|E]; discriminate|]. constructor; [|exact G]. intros ? [E|E]; cbn in E; [destruct (c_rh c)|destruct (c_wh c)]; discriminate.
Qed.
Definition nos (cs : list char) : list nat := flat_map (fun c => match char_no c with Some n => [n] | None => [] end) cs.
Lemma gen_chars_knows : forall cs h, forallb named cs = true -> let '(cs', l, _) := gen_chars cs h in Forall (attr_knows cs') l /\ nos cs' = nos cs /\ forallb named cs' = true.
Proof.
  induction cs as [|c cs IH]; intros h N; [cbn; auto|]. cbn [gen_chars forallb] in *. apply andb_true_iff in N. destruct N as [N1 N2].
  pose proof (gen_char_knows c h N1) as G. destruct (gen_char c h) as [[c' a] h1]. specialize (IH h1 N2). destruct (gen_chars cs h1) as [[r' l] h2]. destruct G as (G1 & G2 & G3). destruct IH as (I1 & I2 & I3).
  split; [|split].
  - apply Forall_app. split; (eapply attr_knows_mono; [|eassumption]); intros x X; [destruct X as [X | []]; now left|now right].
  - unfold nos in *. cbn [flat_map]. now rewrite G2, I2.
  - cbn [forallb]. now rewrite G3, I3.
Qed.
Definition snamed (s : service) : bool := forallb named (s_chars s).
Lemma gen_svcs_knows : forall ss h, Forall (fun s => snamed s = true) ss -> let '(ss', l, _) := gen_svcs ss h in
  Forall (attr_knows (flat_map s_chars ss')) l /\ map sch ss' = map sch ss /\ Forall (fun s => snamed s = true) ss'.
Proof.
  induction ss as [|s ss IH]; intros h N; [cbn; auto|]. inversion_clear N as [|? ? N1 N2]. cbn [gen_svcs]. unfold gen_svc.
  pose proof (gen_chars_knows (s_chars s) (u16 (h + 1)) N1) as G. destruct (gen_chars (s_chars s) (u16 (h + 1))) as [[cs a] h1]. specialize (IH h1 N2). destruct (gen_svcs ss h1) as [[r' l] h2].
  destruct G as (G1 & G2 & G3). destruct IH as (I1 & I2 & I3). split; [|split].
  - cbn [app flat_map s_chars]. constructor; [intros ? [E|E]; discriminate|]. apply Forall_app. split; (eapply attr_knows_mono; [|eassumption]); intros x X; apply in_or_app; auto.
  - cbn [map]. rewrite I2. f_equal. exact G2.
  - constructor; [exact G3|exact I3].
Qed.
Lemma new_db_knows : forall ss h, Forall (fun s => snamed s = true) ss -> let (ss', t) := new_db ss h in
  Forall (attr_knows (flat_map s_chars ss')) (db_attrs t) /\ map sch ss' = map sch ss /\ Forall (fun s => snamed s = true) ss'.
Proof. intros ss h N. pose proof (gen_svcs_knows ss h N) as G. unfold new_db. destruct (gen_svcs ss h) as [[ss' l] h']. exact G. Qed.

(** the characteristics of the objects [tab] *)
Definition chars_of (objs : list service) (tab : list nat) : list char := flat_map (fun k => match nth_error objs k with Some s => s_chars s | None => [] end) tab.
Definition grounded (tab : list nat) (objs : list service) (t : dbt) : Prop := Forall (attr_knows (chars_of objs tab)) (db_attrs t).

Lemma chars_of_incl : forall objs tab, incl (chars_of objs tab) (flat_map s_chars objs).
Proof.
  intros objs tab c C. apply in_flat_map in C. destruct C as (k & _ & C). destruct (nth_error objs k) as [s|] eqn:E; [|contradiction]. apply in_flat_map. exists s. split; [now apply nth_error_In in E|exact C].
Qed.
Lemma find_unique : forall cs c n, NoDup (nos cs) -> In c cs -> char_no c = Some n -> find (fun c => opt_nat_eqb (char_no c) n) cs = Some c.
Proof.
  induction cs as [|x cs IH]; intros c n ND I E; [contradiction|]. cbn [find]. destruct I as [->|I].
  - rewrite E. cbn. now rewrite Nat.eqb_refl.
  - unfold nos in ND. cbn [flat_map] in ND. destruct (opt_nat_eqb (char_no x) n) eqn:X.
    + exfalso. unfold opt_nat_eqb in X. destruct (char_no x) as [m|]; [|discriminate]. apply Nat.eqb_eq in X. subst m. cbn [app] in ND. inversion_clear ND as [|? ? NI _]. apply NI. apply in_flat_map. exists c. split; [exact I|]. rewrite E. now left.
    + apply IH; auto. destruct (char_no x); [|exact ND]. cbn [app] in ND. now inversion ND.
Qed.
Lemma char_of_in : forall objs c n, NoDup (numbers objs) -> In c (flat_map s_chars objs) -> char_no c = Some n -> char_of objs n = Some c.
Proof. intros. now apply find_unique. Qed.

Lemma refresh_ci_id : forall objs tab ci, NoDup (numbers objs) -> knows (chars_of objs tab) ci -> refresh_ci objs ci = ci.
Proof.
  intros objs tab ci ND [_ K]. unfold refresh_ci. destruct (ci_no ci) as [n|] eqn:E; [|reflexivity]. destruct (K n eq_refl) as (c & C & N & H & V). rewrite (char_of_in objs c n ND (chars_of_incl _ _ _ C) N), H, V. now destruct ci.
Qed.
Lemma refresh_attr_id : forall objs tab a, NoDup (numbers objs) -> attr_knows (chars_of objs tab) a -> refresh_attr objs a = a.
Proof.
  intros objs tab a ND K. unfold refresh_attr. destruct a as [h eh ty v rh wh]. cbn in *. f_equal.
  - destruct rh as [[i|ci]|]; cbn; try reflexivity. rewrite (refresh_ci_id objs tab ci ND); [reflexivity|]. apply K. now left.
  - destruct wh as [[i|ci]|]; cbn; try reflexivity. rewrite (refresh_ci_id objs tab ci ND); [reflexivity|]. apply K. now right.
Qed.
Lemma map_id_in : forall {A} (f : A -> A) l, (forall x, In x l -> f x = x) -> map f l = l.
Proof. induction l as [|x l IH]; intro H; [reflexivity|]. cbn. rewrite (H x (or_introl eq_refl)), IH; [reflexivity|]. intros y Y. apply H. now right. Qed.
Lemma refresh_db_id : forall objs tab t, NoDup (numbers objs) -> grounded tab objs t -> refresh_db objs t = t.
Proof.
  intros objs tab t ND G. unfold refresh_db. destruct t as [l b]. cbn in *. f_equal. apply map_id_in. intros a A. apply (refresh_attr_id objs tab a ND). red in G. rewrite Forall_forall in G. now apply G.
Qed.

(** what a server uses comes from its table *)
Definition uses (d : dbt) (s : srv) : Prop := s_db s = d /\ (forall a, prep s = Some a -> In a (db_attrs d)) /\ Forall (from_table d) (notifs s).
Lemma refresh_id : forall objs tab t s, NoDup (numbers objs) -> grounded tab objs t -> uses t s -> refresh objs s = s.
Proof.
  intros objs tab t s ND G (D & P & F). unfold refresh. destruct s as [db tx nl il rx ct cr pr pd cc n1 n2 nt]. cbn in *. subst db. f_equal.
  - exact (refresh_db_id objs tab t ND G).
  - destruct pr as [a|]; [|reflexivity]. cbn. rewrite (refresh_attr_id objs tab a ND); [reflexivity|]. red in G. rewrite Forall_forall in G. apply G. now apply P.
  - apply map_id_in. intros n N. rewrite Forall_forall in F. destruct (F n N) as (a & ci & A & W & C1 & C2 & C3). red in G. rewrite Forall_forall in G. destruct (G a A ci (or_intror W)) as [NM K].
    assert (E : ci_no ci = Some (nt_handler n)). { unfold ci_no. destruct (nt_ind n); destruct (ci_nh ci) as [x|] eqn:X, (ci_ih ci) as [y|] eqn:Y; try discriminate; try congruence. injection C3 as ->. f_equal. now apply NM. }
    destruct (K _ E) as (c & C & CN & H & V). unfold refresh_notif. rewrite (char_of_in objs c _ ND (chars_of_incl _ _ _ C) CN), V, <- C2. now destruct n.
Qed.
