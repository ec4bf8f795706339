Require Import Verif.Base Verif.M_uuid Verif.M_attdb Verif.S_attdb Verif.P_attdb.

(** ---- configuration ---- *)
Definition cfg_inv (c : char) : Prop :=
  (c_value c = None \/ c_rh c = None) /\ c_prop c = deserved c /\ NoDup (map d_uuid (c_descs c)).
Lemma existsb_uuid_desc : forall u l, existsb (fun x => uuid_equal (d_uuid x) u) l = true <-> In u (map d_uuid l).
Proof.
  intros u l. rewrite existsb_exists, in_map_iff. split.
  - intros (x & H & E). apply beq_bytes_eq in E. exists x. auto.
  - intros (x & E & H). exists x. split; [exact H|]. unfold uuid_equal. apply beq_bytes_eq. exact E.
Qed.
Lemma NoDup_snoc : forall {A} (l : list A) x, NoDup l -> ~ In x l -> NoDup (l ++ [x]).
Proof.
  intros A l x H Hn. induction H as [|y l Hy H IH]; cbn; [repeat constructor; auto|].
  constructor.
  - rewrite in_app_iff. intros [|[->|[]]]; [contradiction|]. apply Hn. now left.
  - apply IH. intro. apply Hn. now right.
Qed.
Lemma cfg_step_inv : forall c o c', cfg_inv c -> cfg_step c o = Ret c' -> cfg_inv c'.
Proof.
  intros c o c' (H1 & H2 & H3) E. unfold cfg_inv. destruct o; cbn [cfg_step] in E.
  - unfold c_set_value in E. destruct (c_rh c) eqn:R; [discriminate|]. injection E as <-. cbn [c_value c_rh c_prop c_descs].
    split; [auto|]. split; [|exact H3]. rewrite H2. unfold deserved. cbn [c_value c_rh c_wh c_nh c_ih]. rewrite R.
    destruct (is_some (c_value c)), (is_some (c_wh c)), (is_some (c_nh c)), (is_some (c_ih c)); reflexivity.
  - unfold c_handle_read in E. destruct (c_value c) eqn:R; [discriminate|]. injection E as <-. cbn [c_value c_rh c_prop c_descs].
    split; [auto|]. split; [|exact H3]. rewrite H2. unfold deserved. cbn [c_value c_rh c_wh c_nh c_ih]. rewrite R.
    destruct (is_some (c_rh c)), (is_some (c_wh c)), (is_some (c_nh c)), (is_some (c_ih c)); reflexivity.
  - injection E as <-. cbn. split; [auto|]. split; [|exact H3]. rewrite H2. unfold deserved. cbn.
    destruct (is_some (c_value c) || is_some (c_rh c))%bool, (is_some (c_wh c)), (is_some (c_nh c)), (is_some (c_ih c)); reflexivity.
  - injection E as <-. cbn. split; [auto|]. split; [|exact H3]. rewrite H2. unfold deserved. cbn.
    destruct (is_some (c_value c) || is_some (c_rh c))%bool, (is_some (c_wh c)), (is_some (c_nh c)), (is_some (c_ih c)); reflexivity.
  - injection E as <-. cbn. split; [auto|]. split; [|exact H3]. rewrite H2. unfold deserved. cbn.
    destruct (is_some (c_value c) || is_some (c_rh c))%bool, (is_some (c_wh c)), (is_some (c_nh c)), (is_some (c_ih c)); reflexivity.
  - unfold add_desc in E. destruct (existsb _ _) eqn:X; [discriminate|]. injection E as <-. cbn [c_value c_rh c_prop c_descs].
    split; [auto|]. split; [exact H2|]. rewrite map_app. cbn [map]. apply NoDup_snoc; [exact H3|].
    intro C. apply existsb_uuid_desc in C. congruence.
Qed.
Lemma cfg_run_inv : forall l c c', cfg_inv c -> cfg_run c l = Ret c' -> cfg_inv c'.
Proof.
  induction l as [|o l IH]; intros c c' H E; cbn in E; [injection E as <-; exact H|].
  destruct (cfg_step c o) as [c1|] eqn:S; [|discriminate]. cbn in E. eapply IH; [eapply cfg_step_inv; eauto|exact E].
Qed.
Lemma new_char_inv : forall u, cfg_inv (new_char u).
Proof. intro u. unfold cfg_inv, new_char. cbn. split; [auto|]. split; [reflexivity|constructor]. Qed.
Lemma existsb_uuid_char : forall u l, existsb (fun x => uuid_equal (c_uuid x) u) l = true <-> In u (map c_uuid l).
Proof.
  intros u l. rewrite existsb_exists, in_map_iff. split.
  - intros (x & H & E). apply beq_bytes_eq in E. exists x. auto.
  - intros (x & E & H). exists x. split; [exact H|]. unfold uuid_equal. apply beq_bytes_eq. exact E.
Qed.
Lemma add_chars_spec : forall l s, NoDup (map c_uuid (s_chars s)) ->
  add_chars s l = (if list_eq_dec (list_eq_dec Z.eq_dec) (nodup (list_eq_dec Z.eq_dec) (map c_uuid (s_chars s ++ l))) (map c_uuid (s_chars s ++ l))
                   then Ret (mkSvc (s_uuid s) (s_chars s ++ l)) else Panic).
Proof.
  induction l as [|c l IH]; intros s H; cbn [add_chars].
  - rewrite app_nil_r. rewrite nodup_fixed_point by exact H. destruct (list_eq_dec _ _ _); [now destruct s|contradiction].
  - unfold add_char. destruct (existsb _ _) eqn:X; cbn [gbind].
    + apply existsb_uuid_char in X. destruct (list_eq_dec _ _ _) as [E|]; [|reflexivity]. exfalso.
      assert (N := NoDup_nodup (list_eq_dec Z.eq_dec) (map c_uuid (s_chars s ++ c :: l))). rewrite E, map_app in N. cbn [map] in N.
      apply NoDup_remove_2 in N. apply N. apply in_or_app. now left.
    + rewrite IH; cbn [s_chars s_uuid].
      * rewrite <- app_assoc. reflexivity.
      * rewrite map_app. cbn [map]. apply NoDup_snoc; [exact H|]. intro C. apply existsb_uuid_char in C. congruence.
Qed.

(** ---- rebuilding ---- *)
Lemma placed_notifying : forall c H, notifying (placed c H) = notifying c.
Proof. reflexivity. Qed.
Lemma placed_types_length : forall c H, length (char_types (placed c H)) = (length (char_types c) + (if notifying c then 1 else 0))%nat.
Proof.
  intros c H. unfold char_types. cbn [length]. rewrite !map_length. unfold own_descs. rewrite placed_notifying. cbn [placed c_descs].
  unfold own_descs. rewrite !app_length. destruct (notifying c); cbn; lia.
Qed.
Lemma placed_chars_length : forall cs H, length (flat_map char_types (placed_chars cs H)) = (length (flat_map char_types cs) + length (filter notifying cs))%nat.
Proof.
  induction cs as [|c cs IH]; intro H; [reflexivity|]. cbn [placed_chars flat_map filter]. rewrite !app_length, IH, placed_types_length.
  destruct (notifying c); cbn [length]; lia.
Qed.
Lemma placed_svcs_length : forall ss H, length (table_types (placed_svcs ss H)) = (length (table_types ss) + n_notifying ss)%nat.
Proof.
  unfold n_notifying. induction ss as [|s ss IH]; intro H; [reflexivity|]. unfold table_types in *. cbn [placed_svcs flat_map].
  rewrite !app_length, IH, filter_app, app_length. unfold svc_types. cbn [length placed_svc s_chars]. rewrite placed_chars_length. lia.
Qed.

(** without notifying characteristics a rebuild changes nothing but the last group end *)
Lemma placed_char_attrs : forall c H H', notifying c = false -> char_attrs (placed c H') H = char_attrs c H.
Proof.
  intros c H H' N. assert (T : char_types (placed c H') = char_types c).
  { unfold char_types, own_descs. rewrite placed_notifying, N. cbn [placed c_uuid c_descs]. unfold own_descs. rewrite N. now rewrite !app_nil_r. }
  unfold char_attrs. rewrite T. unfold own_descs at 1 2. rewrite placed_notifying, N. cbn [placed c_uuid c_descs c_prop c_nh c_ih c_value c_rh c_wh].
  unfold own_descs. rewrite N. now rewrite !app_nil_r.
Qed.
Lemma placed_char_types : forall c H, notifying c = false -> char_types (placed c H) = char_types c.
Proof. intros c H N. rewrite <- (char_attrs_types (placed c H) 0), <- (char_attrs_types c 0). now rewrite placed_char_attrs. Qed.
Lemma placed_chars_attrs : forall cs H H', forallb (fun c => negb (notifying c)) cs = true -> chars_attrs (placed_chars cs H') H = chars_attrs cs H.
Proof.
  induction cs as [|c cs IH]; intros H H' F; [reflexivity|]. cbn [forallb] in F. apply andb_true_iff in F. destruct F as [F1 F2].
  apply negb_true_iff in F1. cbn [placed_chars chars_attrs]. rewrite placed_char_attrs, placed_char_types by exact F1. f_equal. now apply IH.
Qed.
Lemma placed_svc_types : forall s H, forallb (fun c => negb (notifying c)) (s_chars s) = true -> svc_types (placed_svc s H) = svc_types s.
Proof.
  intros s H F. unfold svc_types. cbn [placed_svc s_chars]. f_equal.
  rewrite <- (chars_attrs_types (placed_chars _ _) 0), <- (chars_attrs_types (s_chars s) 0). now rewrite placed_chars_attrs.
Qed.
Lemma rebuild_prefix : forall ss s H H', forallb (fun c => negb (notifying c)) (flat_map s_chars ss) = true ->
  exists rest, forall i a, nth_error (svcs_attrs ss H) i = Some a ->
   exists a', nth_error (svcs_attrs (placed_svcs ss H' ++ [s]) H) i = Some a' /\ same_but_end a a' /\
     (a_endh a' = a_endh a \/ (a_typ a = u_primary /\ a_endh a = 65535)) /\
     length (svcs_attrs (placed_svcs ss H' ++ [s]) H) = (length (svcs_attrs ss H) + rest)%nat.
Proof.
  intros ss s H H' F. exists (length (svc_types s)). revert H H' F. induction ss as [|x ss IH]; intros H H' F i a Hi; [destruct i; discriminate|].
  cbn [flat_map] in F. rewrite forallb_app in F. apply andb_true_iff in F. destruct F as [F1 F2].
  cbn [placed_svcs app svcs_attrs] in *. rewrite placed_svc_types by exact F1.
  assert (LL : length (svcs_attrs (placed_svcs ss (H' + Z.of_nat (length (svc_types x))) ++ [s]) (H + Z.of_nat (length (svc_types x)))) =
               (length (svcs_attrs ss (H + Z.of_nat (length (svc_types x)))) + length (svc_types s))%nat).
  { destruct ss as [|y ss].
    - cbn [placed_svcs app svcs_attrs length]. rewrite app_nil_r, svc_attrs_length. lia.
    - destruct (nth_error (svcs_attrs (y :: ss) (H + Z.of_nat (length (svc_types x)))) 0) as [b|] eqn:EB; [|discriminate].
      destruct (IH (H + Z.of_nat (length (svc_types x))) (H' + Z.of_nat (length (svc_types x))) F2 0%nat b EB) as (b' & _ & _ & _ & L). exact L. }
  set (lst := match placed_svcs ss (H' + Z.of_nat (length (svc_types x))) ++ [s] with [] => true | _ => false end).
  set (lst0 := match ss with [] => true | _ => false end) in *.
  assert (LEN : forall b, length (svc_attrs (placed_svc x H') H b) = length (svc_attrs x H lst0)).
  { intro b. rewrite !svc_attrs_length. now rewrite placed_svc_types. }
  destruct (Nat.ltb i (length (svc_attrs x H lst0))) eqn:E.
  - rewrite nth_error_app1 in Hi by lia.
    assert (SV : nth_error (svc_attrs (placed_svc x H') H lst) i = Some a \/ (i = 0%nat /\ a = mkAttr H (if lst0 then 65535 else H + Z.of_nat (length (svc_types x)) - 1) u_primary (Some (s_uuid x)) None None)).
    { destruct i as [|i]; [right; cbn in Hi; injection Hi as <-; auto|left]. cbn in Hi |- *. now rewrite placed_chars_attrs. }
    destruct SV as [SV|[-> ->]].
    + exists a. rewrite nth_error_app1 by (rewrite LEN; lia). split; [exact SV|]. split; [unfold same_but_end; auto|]. split; [auto|].
      rewrite !app_length, LEN, LL. lia.
    + eexists. rewrite nth_error_app1 by (rewrite LEN; lia). split; [reflexivity|]. split; [unfold same_but_end; cbn; auto|]. split.
      * cbn [a_endh]. rewrite placed_svc_types by exact F1. destruct ss as [|y ss]; [right; split; reflexivity|].
        left. unfold lst, lst0. destruct (placed_svcs (y :: ss) (H' + Z.of_nat (length (svc_types x)))); reflexivity.
      * rewrite !app_length, LEN, LL. lia.
  - rewrite nth_error_app2 in Hi by lia.
    destruct (IH (H + Z.of_nat (length (svc_types x))) (H' + Z.of_nat (length (svc_types x))) F2 _ a Hi) as (a' & A & B & C & _).
    exists a'. rewrite nth_error_app2 by (rewrite LEN; lia). rewrite LEN. split; [exact A|]. split; [exact B|]. split; [exact C|].
    rewrite !app_length, LEN, LL. lia.
Qed.
