Require Import Verif.Base Verif.M_uuid Verif.M_attdb Verif.S_attdb Verif.P_attdb Verif.M_attsrv Verif.S_attsrv Verif.P_attsrv Verif.P_attsrv2 Verif.P_attsrv3 Verif.P_attsrv4 Verif.P_attsrv5 Verif.P_attsrv6.

(** ---- tables built from configured services ---- *)
Lemma deserved_bits : forall c, c_prop c = deserved c -> (Z.testbit (c_prop c) 4 = true -> c_nh c <> None) /\ (Z.testbit (c_prop c) 5 = true -> c_ih c <> None).
Proof.
  intros c ->. unfold deserved. split; intros H E; rewrite E in H; cbn [is_some] in H;
    destruct (is_some (c_value c) || is_some (c_rh c)), (is_some (c_wh c)); try destruct (is_some (c_ih c)); try destruct (is_some (c_nh c)); cbn in H; discriminate H.
Qed.
Lemma char_attrs_ok : forall c H, api_char c -> Forall attr_ok (char_attrs c H).
Proof.
  intros c H A. apply deserved_bits in A. unfold char_attrs. constructor; [intros ci E; discriminate E|]. constructor.
  - intros ci E. cbn in E. destruct (c_wh c); discriminate E.
  - apply Forall_forall. intros a Ia. apply in_map_iff in Ia. destruct Ia as (p & <- & _). intros ci E. cbn in E. destruct (d_wh (snd p)) as [[id|]|]; try discriminate E.
    injection E as <-. exact A.
Qed.
Lemma chars_attrs_ok : forall cs H, Forall api_char cs -> Forall attr_ok (chars_attrs cs H).
Proof. intros cs. induction cs as [|c cs IH]; intros H F; [constructor|]. inversion F; subst. cbn [chars_attrs]. apply Forall_app. split; [now apply char_attrs_ok|now apply IH]. Qed.
Lemma svcs_attrs_ok : forall ss H, Forall (fun s => Forall api_char (s_chars s)) ss -> Forall attr_ok (svcs_attrs ss H).
Proof.
  intros ss. induction ss as [|s ss IH]; intros H F; [constructor|]. inversion F; subst. cbn [svcs_attrs]. apply Forall_app. split; [|now apply IH].
  unfold svc_attrs. constructor; [intros ci E; discriminate E|]. now apply chars_attrs_ok.
Qed.
Lemma api_table_ok : forall ss base, 1 <= base -> base + table_size ss <= 65536 -> 0 < table_size ss -> Forall (fun s => Forall api_char (s_chars s)) ss ->
  wf_db (snd (new_db ss base)) /\ table_ok (snd (new_db ss base)).
Proof.
  intros ss base B S P F. rewrite new_db_spec by lia. cbn [snd]. split.
  - unfold wf_db. cbn [db_base db_attrs]. rewrite svcs_attrs_length. unfold table_size in S. split; [lia|]. split; [lia|]. apply svcs_attrs_consecutive.
  - unfold table_ok. cbn [db_attrs]. now apply svcs_attrs_ok.
Qed.

(** ---- groups when the range starts at a service declaration ---- *)
Fixpoint svc_decls (ss : list service) (H : Z) : list attr :=
  match ss with
  | [] => []
  | s :: r => mkAttr H (match r with [] => 65535 | _ => H + Z.of_nat (length (svc_types s)) - 1 end) u_primary (Some (s_uuid s)) None None :: svc_decls r (H + Z.of_nat (length (svc_types s)))
  end.
Lemma svc_attrs_eq : forall s H (r : list service), svc_attrs s H (match r with [] => true | _ => false end) = mkAttr H (match r with [] => 65535 | _ => H + Z.of_nat (length (svc_types s)) - 1 end) u_primary (Some (s_uuid s)) None None :: chars_attrs (s_chars s) (H + 1).
Proof. intros s H r. unfold svc_attrs. destruct r as [|x r0]; reflexivity. Qed.
Definition tail_attrs (cs : list char) (ss : list service) (H H' : Z) : list attr := chars_attrs cs H ++ svcs_attrs ss H'.
Definition okc (c : char) : Prop := uuid_size (c_uuid c).
Definition oks (s : service) : Prop := uuid_size (s_uuid s) /\ Forall okc (s_chars s).
Lemma tail_tw : forall d ss cs H H' n, (d = 6 \/ d = 20)%nat -> Forall okc cs -> Forall oks ss ->
  take_while (g_same d) (firstn n (tail_attrs cs ss H H')) = firstn (group_run (d - 4) n cs ss) (svc_decls ss H') /\
  (forall p x t, firstn n (tail_attrs cs ss H H') = p ++ x :: t -> a_v x = None -> exists b, In b p /\ g_same d b = false).
Proof.
  intros d ss. induction ss as [|s ss IH]; intros cs H H' n D FC FS.
  - destruct cs as [|c cs].
    + cbn [group_run svc_decls firstn]. unfold tail_attrs. cbn [chars_attrs svcs_attrs app]. rewrite firstn_nil. split; [reflexivity|]. intros p x t E. destruct p; discriminate E.
    + replace (group_run (d - 4) n (c :: cs) []) with 0%nat by (destruct n; reflexivity). inversion FC as [|? ? C0 _]; subst. destruct n as [|n]; [split; [reflexivity|]; intros p x t E; destruct p; discriminate E|].
      unfold tail_attrs. cbn [chars_attrs char_attrs app firstn take_while]. set (decl := mkAttr H _ u_char _ None None).
      assert (G : g_same d decl = false). { unfold g_same, decl. cbn [a_v app length]. unfold okc, uuid_size in C0. lia. }
      rewrite G. split; [reflexivity|]. intros p x t E X. destruct p as [|b p]; [injection E as <- _; discriminate X|]. exists decl. injection E as <- _. split; [now left|exact G].
  - destruct cs as [|c cs].
    + unfold tail_attrs. cbn [chars_attrs app svcs_attrs svc_decls]. inversion FS as [|? ? [S1 S2] FS']; subst. destruct n as [|n]; [cbn [group_run firstn take_while]; split; [reflexivity|]; intros p x t E; destruct p; discriminate E|].
      rewrite svc_attrs_eq. cbn [app firstn take_while]. set (decl := mkAttr H' _ u_primary _ None None).
      assert (GE : g_same d decl = Nat.eqb (length (s_uuid s)) (d - 4)) by (unfold g_same, decl; cbn [a_v]; unfold uuid_size in S1; destruct (Nat.eqb (length (s_uuid s)) (d - 4)) eqn:Q; [apply Nat.eqb_eq in Q|apply Nat.eqb_neq in Q]; lia).
      cbn [group_run]. rewrite <- GE. destruct (g_same d decl) eqn:G.
      * destruct (IH (s_chars s) (H' + 1) (H' + Z.of_nat (length (svc_types s))) n D S2 FS') as (T & N). unfold tail_attrs in T, N. cbn [firstn]. rewrite T. split; [reflexivity|].
        intros p x t E X. destruct p as [|b p]; [injection E as <- _; discriminate X|]. injection E as <- E. destruct (N p x t E X) as (b & B1 & B2). exists b. split; [now right|exact B2].
      * split; [reflexivity|]. intros p x t E X. destruct p as [|b p]; [injection E as <- _; discriminate X|]. injection E as <- _. exists decl. split; [now left|exact G].
    + replace (group_run (d - 4) n (c :: cs) (s :: ss)) with 0%nat by (destruct n; reflexivity). inversion FC as [|? ? C0 _]; subst. destruct n as [|n]; [split; [reflexivity|]; intros p x t E; destruct p; discriminate E|].
      unfold tail_attrs. cbn [chars_attrs char_attrs app firstn take_while]. set (decl := mkAttr H _ u_char _ None None).
      assert (G : g_same d decl = false). { unfold g_same, decl. cbn [a_v app length]. unfold okc, uuid_size in C0. lia. }
      rewrite G. split; [reflexivity|]. intros p x t E X. destruct p as [|b p]; [injection E as <- _; discriminate X|]. exists decl. injection E as <- _. split; [now left|exact G].
Qed.
Lemma svcs_split : forall before s after base, exists pre, svcs_attrs (before ++ s :: after) base = pre ++ svcs_attrs (s :: after) (base + table_size before) /\ length pre = length (table_types before).
Proof.
  intros before. induction before as [|x before IH]; intros s after base.
  - exists []. unfold table_size. cbn [app table_types flat_map length]. rewrite Z.add_0_r. split; reflexivity.
  - destruct (IH s after (base + Z.of_nat (length (svc_types x)))) as (pre & E & L). cbn [app svcs_attrs].
    exists (svc_attrs x base (match before ++ s :: after with [] => true | _ => false end) ++ pre). rewrite table_size_cons, Z.add_assoc, E, <- app_assoc. split; [reflexivity|].
    rewrite app_length, svc_attrs_length, L. unfold table_types. cbn [flat_map]. now rewrite app_length.
Qed.
Lemma between_from : forall d pre l st en, wf_db d -> db_attrs d = pre ++ l -> st = db_base d + Z.of_nat (length pre) -> between d st en = firstn (Z.to_nat (en + 1 - st)) l.
Proof.
  intros d pre l st en (_ & _ & C) E S. unfold between. rewrite E, filter_app. rewrite E in C.
  assert (C1 : consecutive (db_base d) pre). { intros i a Ha. apply C. rewrite nth_error_app1; [exact Ha|]. apply nth_error_Some. congruence. }
  assert (C2 : consecutive st l). { intros i a Ha. subst st. rewrite (C (length pre + i)%nat a); [lia|]. rewrite nth_error_app2 by lia. replace (length pre + i - length pre)%nat with i by lia. exact Ha. }
  change (fun a => (st <=? a_h a) && (a_h a <=? en)) with (in_range st en).
  rewrite (filter_none st en pre (db_base d) C1) by (right; lia). cbn [app]. apply (filter_prefix en l st C2 st). lia.
Qed.
Lemma flat_map_decls : forall ss H d m, (forall s, In s (firstn m ss) -> (4 + length (s_uuid s))%nat = d) ->
  flat_map (fun x => group_value_entry d (x, gval x)) (firstn m (svc_decls ss H)) = flat_map range_entry (firstn m (service_ranges ss H)).
Proof.
  intros ss. induction ss as [|s ss IH]; intros H d m E; [now rewrite !firstn_nil|]. destruct m as [|m]; [reflexivity|]. cbn [svc_decls service_ranges firstn flat_map].
  rewrite IH by (intros x Hx; apply E; now right). f_equal. unfold group_value_entry, gval, range_entry. cbn [fst snd a_h a_endh a_v].
  rewrite <- (E s (or_introl eq_refl)). replace (4 + length (s_uuid s) - 4)%nat with (length (s_uuid s)) by lia. rewrite firstn_all.
  destruct ss; reflexivity.
Qed.
Lemma svc_decls_same : forall d ss H m, (forall a, In a (firstn m (svc_decls ss H)) -> g_same d a = true) -> forall s, In s (firstn m ss) -> (4 + length (s_uuid s))%nat = d.
Proof.
  intros d ss. induction ss as [|s ss IH]; intros H m G x Hx; [rewrite firstn_nil in Hx; contradiction|]. destruct m as [|m]; [contradiction|]. cbn [firstn] in Hx. destruct Hx as [<-|Hx].
  - specialize (G _ (or_introl eq_refl)). unfold g_same in G. cbn [a_v] in G. lia.
  - apply (IH (H + Z.of_nat (length (svc_types s))) m); [|exact Hx]. intros a Ha. apply G. cbn [svc_decls firstn]. right; exact Ha.
Qed.
Lemma group_services : forall s0 before s after en base ty, 1 <= base -> base + table_size (before ++ s :: after) <= 65536 ->
  Forall oks (before ++ s :: after) -> s_db s0 = snd (new_db (before ++ s :: after) base) -> (23 <= txlen s0)%nat -> uuid_size ty ->
  let st := base + table_size before in st <= en <= 65535 ->
  let d := (4 + length (s_uuid s))%nat in let k := Nat.min ((txlen s0 - 2) / d) (S (group_run (length (s_uuid s)) (Z.to_nat (en - st)) (s_chars s) after)) in
  h_read_by_group s0 (req_range 16 st en ty) = Ret ([17; Z.of_nat d] ++ flat_map range_entry (firstn k (service_ranges (s :: after) st))) /\
  (1 <= k)%nat /\ Forall (fun x => length (s_uuid x) = length (s_uuid s)) (firstn k (s :: after)).
Proof.
  intros s0 before s after en base ty B SZ F DB M LT st R d0 k0.
  assert (P0 : 0 < table_size (before ++ s :: after)).
  { unfold table_size, table_types. rewrite flat_map_app, app_length. cbn [flat_map]. rewrite app_length. unfold svc_types. cbn [length]. lia. }
  assert (ST : st <= 65535 /\ 1 <= st). { unfold st. assert (0 <= table_size before) by (unfold table_size; lia). lia. }
  rewrite new_db_spec in DB by lia. cbn [snd] in DB.
  assert (W : wf_db (s_db s0)). { rewrite DB. unfold wf_db. cbn [db_base db_attrs]. rewrite svcs_attrs_length. unfold table_size in SZ. split; [lia|]. split; [lia|]. apply svcs_attrs_consecutive. }
  destruct (svcs_split before s after base) as (pre & E & L). fold st in E.
  apply Forall_app in F. destruct F as [_ F]. inversion F as [|? ? [S1 S2] FS]; subst.
  assert (BW : between (s_db s0) st en = firstn (Z.to_nat (en + 1 - st)) (svcs_attrs (s :: after) st)).
  { apply (between_from _ pre); [exact W|rewrite DB; exact E|rewrite DB; cbn [db_base]; unfold st, table_size; lia]. }
  cbn [svcs_attrs] in BW. rewrite svc_attrs_eq in BW. set (decl := mkAttr st _ u_primary _ None None) in BW.
  destruct (Z.to_nat (en + 1 - st)) as [|n] eqn:N; [lia|]. cbn [app firstn] in BW.
  set (d := (4 + length (s_uuid s))%nat). assert (D : (d = 6 \/ d = 20)%nat) by (unfold d, uuid_size in *; lia).
  assert (DL : entry_len 4 (txlen s0) (length (gval decl)) = d) by (unfold entry_len, gval, decl; cbn [a_v]; fold d; lia).
  destruct (tail_tw d after (s_chars s) (st + 1) (st + Z.of_nat (length (svc_types s))) n D S2 FS) as (T & NS). unfold tail_attrs in T, NS. replace (d - 4)%nat with (length (s_uuid s)) in T by (unfold d; lia). assert (NE : n = Z.to_nat (en - st)) by lia. rewrite NE in T at 2. set (m := group_run _ _ _ _) in *. fold d in k0.
  rewrite (read_group_ok s0 st en ty decl _ W M ltac:(split; lia) LT BW ltac:(discriminate)) by (rewrite DL; exact NS).
  unfold read_group_spec. rewrite DL, T.
  assert (GD : decl :: firstn m (svc_decls after (st + Z.of_nat (length (svc_types s)))) = firstn (S m) (svc_decls (s :: after) st)) by reflexivity.
  rewrite GD, firstn_firstn. set (q := ((txlen s0 - 2) / d)%nat).
  assert (Q : (1 <= q)%nat) by (unfold q; apply Nat.div_le_lower_bound; lia).
  assert (K : k0 = Nat.min q (S m)) by reflexivity. clearbody k0.
  assert (SAME : forall x, In x (firstn k0 (s :: after)) -> (4 + length (s_uuid x))%nat = d).
  { apply (svc_decls_same d (s :: after) st k0). intros a Ha. replace k0 with (Nat.min k0 (S m)) in Ha by lia. rewrite <- firstn_firstn, <- GD, <- T in Ha. clear NS.
    assert (Ha' : In a (decl :: take_while (g_same d) (firstn n (chars_attrs (s_chars s) (st + 1) ++ svcs_attrs after (st + Z.of_nat (length (svc_types s))))))) by (rewrite <- (firstn_skipn k0); apply in_or_app; now left).
    destruct Ha' as [<-|Ha']; [|now apply take_while_in in Ha']. unfold g_same, decl. cbn [a_v]. fold d. apply Nat.eqb_refl. }
  split; [|split; [lia|]].
  - rewrite <- K. rewrite flat_map_decls by exact SAME. reflexivity.
  - apply Forall_forall. intros x I. specialize (SAME x I). unfold d in SAME. lia.
Qed.
