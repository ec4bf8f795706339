(** Properties C10 (attribute table), C11 (adding services), C49 (characteristic configuration), C51 (profile lookup). *)
Require Import Verif.Base Verif.M_uuid Verif.M_attdb Verif.S_attdb Verif.P_attdb Verif.P_attdb2.

(** C10: one attribute per declaration, in declaration order, at consecutive handles from the base. *)
Theorem C10_layout : forall ss base, 1 <= base < 65536 -> base + table_size ss <= 65536 ->
  let d := snd (new_db ss base) in
  db_base d = base /\ map a_typ (db_attrs d) = table_types ss /\
  (forall i a, nth_error (db_attrs d) i = Some a -> a_h a = base + Z.of_nat i) /\ wf_db d.
Proof.
  intros ss base H0 H1. assert (0 <= table_size ss) by (unfold table_size; lia).
  rewrite new_db_spec by lia. cbn [snd db_base db_attrs]. split; [reflexivity|]. split; [apply svcs_attrs_types|].
    split; [apply svcs_attrs_consecutive|]. unfold wf_db. cbn [db_base db_attrs]. rewrite svcs_attrs_length.
    split; [lia|]. split; [unfold table_size in H1; lia|apply svcs_attrs_consecutive].
Qed.
Print Assumptions C10_layout.
(** Looking up a handle gives the attribute with that handle, and nothing exactly when there is none. *)
Theorem C10_lookup : forall d h, wf_db d -> db_at d h = Ret (find (fun a => a_h a =? h) (db_attrs d)).
Proof. exact db_at_find. Qed.
Print Assumptions C10_lookup.
Theorem C10_lookup_iff : forall d h, wf_db d ->
  (db_at d h = Ret None <-> (h < db_base d \/ db_base d + Z.of_nat (length (db_attrs d)) <= h)).
Proof.
  intros d h W. rewrite db_at_spec by exact W. split.
  - intros E. destruct ((db_base d <=? h) && (h <? db_base d + Z.of_nat (length (db_attrs d)))) eqn:C; [|lia].
    exfalso. injection E as E. apply nth_error_None in E. lia.
  - intros C. replace ((db_base d <=? h) && (h <? db_base d + Z.of_nat (length (db_attrs d)))) with false by lia. reflexivity.
Qed.
Print Assumptions C10_lookup_iff.
(** A range of handles selects exactly the attributes whose handle lies in it, in order. *)
Theorem C10_range : forall d s e, wf_db d -> s <= e ->
  db_subrange d s e = Ret (filter (fun a => (s <=? a_h a) && (a_h a <=? e)) (db_attrs d)).
Proof. exact db_subrange_spec. Qed.
Print Assumptions C10_range.
(** Each service's declaration carries its UUID, and its group ends with its own last attribute (0xFFFF for the last service). *)
Theorem C10_service : forall before s after base, 1 <= base -> base + table_size (before ++ s :: after) <= 65536 ->
  let h := base + table_size before in
  nth_error (db_attrs (snd (new_db (before ++ s :: after) base))) (length (table_types before)) =
  Some (mkAttr h (match after with [] => 65535 | _ => h + Z.of_nat (length (svc_types s)) - 1 end) u_primary (Some (s_uuid s)) None None).
Proof.
  intros before s after base H0 H1. assert (0 < table_size (before ++ s :: after)).
  { unfold table_size, table_types. rewrite flat_map_app, app_length. cbn [flat_map]. rewrite app_length. unfold svc_types. cbn [length]. lia. }
  rewrite new_db_spec by lia. cbn [snd db_attrs].
  assert (G : forall before base, nth_error (svcs_attrs (before ++ s :: after) base) (length (table_types before)) =
    Some (mkAttr (base + table_size before) (match after with [] => 65535 | _ => base + table_size before + Z.of_nat (length (svc_types s)) - 1 end) u_primary (Some (s_uuid s)) None None)).
  { clear. induction before as [|x l IH]; intros base.
    - cbn [app svcs_attrs table_types flat_map length]. unfold table_size. cbn. rewrite Z.add_0_r. destruct after; reflexivity.
    - rewrite table_size_cons. unfold table_types in *. cbn [app svcs_attrs flat_map]. rewrite app_length.
      rewrite nth_error_app2 by (rewrite svc_attrs_length; lia). rewrite svc_attrs_length.
      replace (length (svc_types x) + length (flat_map svc_types l) - length (svc_types x))%nat with (length (flat_map svc_types l)) by lia.
      rewrite IH. rewrite !Z.add_assoc. reflexivity. }
  apply G.
Qed.
Print Assumptions C10_service.
(** Each characteristic: its declaration (property, value handle = declaration handle + 1, UUID), its value attribute at that
    handle with the configured value and handlers, then its descriptors; NewDB records these handles in the characteristic. *)
Theorem C10_characteristic : forall before s after cb c ca base,
  s_chars s = cb ++ c :: ca -> 1 <= base -> base + table_size (before ++ s :: after) <= 65536 ->
  let i := (length (table_types before) + 1 + length (flat_map char_types cb))%nat in
  let h := base + Z.of_nat i in
  let d := db_attrs (snd (new_db (before ++ s :: after) base)) in
  nth_error d i = Some (mkAttr h (h + Z.of_nat (length (char_types c)) - 1) u_char
                          (Some ([u8 (c_prop c); u8 (h + 1); u8 ((h + 1) / 256)] ++ c_uuid c)) None None) /\
  nth_error d (i + 1) = Some (mkAttr (h + 1) 0 (c_uuid c) (c_value c) (option_map AUser (c_rh c)) (option_map AUser (c_wh c))) /\
  (forall k x, nth_error (own_descs c) k = Some x ->
     nth_error d (i + 2 + k) = Some (gen_desc (mkCI h (h + 1) (c_prop c) (c_nh c) (c_ih c)) x (h + 2 + Z.of_nat k))) /\
  exists s' c', nth_error (fst (new_db (before ++ s :: after) base)) (length before) = Some s' /\
                nth_error (s_chars s') (length cb) = Some c' /\ c_handle c' = h /\ c_vhandle c' = h + 1.
Proof.
  intros before s after cb c ca base HC H0 H1 i h d. subst d. assert (0 < table_size (before ++ s :: after)).
  { unfold table_size, table_types. rewrite flat_map_app, app_length. cbn [flat_map]. rewrite app_length. unfold svc_types. cbn [length]. lia. }
  rewrite new_db_spec by lia. cbn [snd fst db_attrs].
  assert (SVC : exists tl, forall k, nth_error (svcs_attrs (before ++ s :: after) base) (length (table_types before) + k) = nth_error (svc_attrs s (base + table_size before) (match after with [] => true | _ => false end) ++ tl) k).
  { clear -before. revert base. induction before as [|x l IH]; intros base.
    - eexists. intro k. cbn [app svcs_attrs table_types flat_map length plus]. unfold table_size. cbn [table_types flat_map length]. rewrite Z.add_0_r. reflexivity.
    - destruct (IH (base + Z.of_nat (length (svc_types x)))) as (tl & G). exists tl. intro k. rewrite table_size_cons. unfold table_types in *.
      cbn [app svcs_attrs flat_map]. rewrite app_length. rewrite nth_error_app2 by (rewrite svc_attrs_length; lia). rewrite svc_attrs_length.
      replace (length (svc_types x) + length (flat_map svc_types l) + k - length (svc_types x))%nat with (length (flat_map svc_types l) + k)%nat by lia.
      rewrite G. rewrite !Z.add_assoc. reflexivity. }
  destruct SVC as (tl & SVC).
  assert (CH : exists tl', forall k, nth_error (svcs_attrs (before ++ s :: after) base) (i + k) = nth_error (char_attrs c h ++ tl') k).
  { unfold svc_attrs in SVC. rewrite HC, chars_attrs_app in SVC. cbn [chars_attrs] in SVC.
    eexists. intro k. unfold i. rewrite <- !Nat.add_assoc. rewrite SVC. cbn [app nth_error plus].
    rewrite <- !app_assoc. rewrite nth_error_app2 by (rewrite <- (map_length a_typ), chars_attrs_types; lia).
    replace (length (chars_attrs cb (base + table_size before + 1))) with (length (flat_map char_types cb)) by (rewrite <- (map_length a_typ (chars_attrs _ _)), chars_attrs_types; reflexivity).
    replace (length (flat_map char_types cb) + k - length (flat_map char_types cb))%nat with k by lia.
    replace (base + table_size before + 1 + csize cb) with h by (unfold h, i, csize, table_size; lia). reflexivity. }
  destruct CH as (tl' & CH). split; [|split; [|split]].
  - specialize (CH 0%nat). rewrite Nat.add_0_r in CH. rewrite CH. reflexivity.
  - rewrite CH. reflexivity.
  - intros k x Hx. rewrite <- Nat.add_assoc, CH. unfold char_attrs. cbn [app nth_error plus].
    assert (LT : (k < length (own_descs c))%nat) by (apply nth_error_Some; congruence).
    rewrite nth_error_app1 by (rewrite map_length, combine_seq_length; lia). rewrite nth_error_map.
    assert (CB : forall (l : list desc) b k x, nth_error l k = Some x -> nth_error (combine (seq b (length l)) l) k = Some ((b + k)%nat, x)).
    { clear. induction l as [|y l IH]; intros b k x Hx; [destruct k; discriminate|]. destruct k as [|k]; cbn in *.
      - rewrite Nat.add_0_r. congruence.
      - rewrite (IH (S b) k x Hx). f_equal. f_equal. lia. }
    rewrite (CB _ 0%nat k x Hx). reflexivity.
  - assert (PS : forall l b, nth_error (placed_svcs (l ++ s :: after) b) (length l) = Some (placed_svc s (b + table_size l))).
    { clear. induction l as [|x l IH]; intro b; cbn [app placed_svcs length nth_error].
      - unfold table_size. cbn. now rewrite Z.add_0_r.
      - rewrite IH, table_size_cons, Z.add_assoc. reflexivity. }
    assert (PC : forall l b, nth_error (placed_chars (l ++ c :: ca) b) (length l) = Some (placed c (b + csize l))).
    { clear. induction l as [|x l IH]; intro b; cbn [app placed_chars length nth_error].
      - unfold csize. cbn. now rewrite Z.add_0_r.
      - rewrite IH, csize_cons, Z.add_assoc. reflexivity. }
    eexists. eexists. split; [apply PS|]. cbn [placed_svc s_chars]. rewrite HC. split; [apply PC|]. cbn [placed c_handle c_vhandle].
    unfold h, i, csize, table_size. lia.
Qed.
Print Assumptions C10_characteristic.
(** a concrete table: the default services and one notifying characteristic *)
Definition ex_svc : service := mkSvc (uuid16 0x180F) [mkChar (uuid16 0x2A19) 18 [] None (Some 1%nat) None (Some 2%nat) None 0 0].
Example C10_ex : table_size (default_services [71] 0 ++ [ex_svc]) = 21 /\
  map a_h (db_attrs (snd (new_db (default_services [71] 0 ++ [ex_svc]) 1))) = map Z.of_nat (seq 1 21).
Proof. split; reflexivity. Qed.
(** a declaration list that does not fit the 16-bit handle space is not rejected: handles wrap around to 0 *)
Theorem C69_overflow_wraps_refuted : exists ss a, In a (db_attrs (snd (new_db ss 65535))) /\ a_h a = 0.
Proof. exists [ex_svc]. eexists. split; [right; left; reflexivity|]. reflexivity. Qed.
Print Assumptions C69_overflow_wraps_refuted.
(** The services every server has: GAP with the given name, appearance 0x8000, no privacy, reconnection address 0, preferred connection parameters (interval 7.5 ms = 6 * 1.25 ms, latency 0,
    supervision time-out 20 s = 2000 * 10 ms), no address resolution, all read-only; GATT with Service Changed, by indication only. *)
Theorem C11_standard_services : forall name h,
  map (fun s => (s_uuid s, map (fun c => (c_uuid c, c_prop c, c_value c)) (s_chars s))) (default_services name h) =
  [ (le16 6144, [ (le16 10752, 2, Some name); (le16 10753, 2, Some (le16 32768)); (le16 10754, 2, Some [0]); (le16 10755, 2, Some (repeat 0 6));
                  (le16 10756, 2, Some (le16 6 ++ le16 6 ++ le16 0 ++ le16 2000)); (le16 10918, 2, Some [0]) ]);
    (le16 6145, [ (le16 10757, 32, None) ]) ].
Proof. reflexivity. Qed.
Print Assumptions C11_standard_services.

(** C11: with no notifying characteristic among them, published services keep every attribute when another one is added
    (the end of the formerly last group is corrected). *)
Theorem C11_layout_kept : forall ss s, forallb (fun c => negb (notifying c)) (flat_map s_chars ss) = true ->
  table_size ss + table_size [s] <= 65535 ->
  let '(ss1, d1) := new_db ss 1 in let d2 := snd (new_db (ss1 ++ [s]) 1) in
  length (db_attrs d2) = (length (db_attrs d1) + length (svc_types s))%nat /\
  forall i a, nth_error (db_attrs d1) i = Some a ->
    exists a', nth_error (db_attrs d2) i = Some a' /\ same_but_end a a' /\
      (a_endh a' = a_endh a \/ (a_typ a = u_primary /\ a_endh a = 65535)).
Proof.
  intros ss s F H. assert (0 <= table_size [s]) by (unfold table_size; lia). assert (0 <= table_size ss) by (unfold table_size; lia).
  rewrite new_db_spec by lia. cbn [snd db_attrs].
  assert (T : table_types (placed_svcs ss 1 ++ [s]) = table_types (placed_svcs ss 1) ++ table_types [s]) by (unfold table_types; now rewrite flat_map_app).
  assert (N : n_notifying ss = 0%nat).
  { unfold n_notifying. clear -F. induction (flat_map s_chars ss) as [|c l IH]; [reflexivity|]. cbn in *. destruct (notifying c); [discriminate|]. now apply IH. }
  assert (L : length (table_types (placed_svcs ss 1)) = length (table_types ss)) by (rewrite placed_svcs_length; lia).
  assert (SZ : 1 + table_size (placed_svcs ss 1 ++ [s]) <= 65536).
  { unfold table_size in *. rewrite T, app_length, L. lia. }
  rewrite new_db_spec by lia. cbn [snd db_attrs]. split.
  - rewrite !svcs_attrs_length, T, app_length, L. unfold table_types at 2. cbn [flat_map]. rewrite app_nil_r. lia.
  - destruct (rebuild_prefix ss s 1 1 F) as (rest & G). intros i a Hi. destruct (G i a Hi) as (a' & A & B & C & _). eauto.
Qed.
Print Assumptions C11_layout_kept.
Example C11_layout_kept_ex : forallb (fun c => negb (notifying c)) (flat_map s_chars (firstn 1 (default_services [71] 0))) = true /\
  table_size (firstn 1 (default_services [71] 0)) = 13.
Proof. split; reflexivity. Qed.
(** What a server publishes: the GAP service (device name, appearance, privacy flag, reconnection address, preferred parameters, address
    resolution), the GATT service (service changed, with its client configuration), then the services it was given, in order, from handle 1;
    the name is the one it was made with. *)
Definition gap_gatt_types : list bytes :=
  [u_primary; u_char; uuid16 0x2A00; u_char; uuid16 0x2A01; u_char; uuid16 0x2A02; u_char; uuid16 0x2A03; u_char; uuid16 0x2A04; u_char; uuid16 0x2AA6;
   u_primary; u_char; uuid16 0x2A05; u_cccd].
Theorem C11_published : forall g l, table_size l <= 65518 ->
  let d := g_db (set_services g l) in
  map a_typ (db_attrs d) = gap_gatt_types ++ table_types l /\ wf_db d /\ db_base d = 1 /\
  (exists a, nth_error (db_attrs d) 2 = Some a /\ a_h a = 3 /\ a_typ a = uuid16 0x2A00 /\ a_v a = Some (g_name g) /\ a_rh a = None /\ a_wh a = None) /\
  g_name (set_services g l) = g_name g /\ map s_uuid (g_svcs (set_services g l)) = [uuid16 0x1800; uuid16 0x1801] ++ map s_uuid l.
Proof.
  intros g l H. unfold set_services. assert (T : table_types (default_services (g_name g) 0 ++ l) = gap_gatt_types ++ table_types l) by (unfold table_types; rewrite flat_map_app; reflexivity).
  assert (SZ : table_size (default_services (g_name g) 0 ++ l) = 17 + table_size l) by (unfold table_size; rewrite T, app_length; cbn [length gap_gatt_types]; lia).
  assert (0 <= table_size l) by (unfold table_size; lia). destruct (C10_layout (default_services (g_name g) 0 ++ l) 1 ltac:(lia) ltac:(lia)) as (B & TY & _ & W).
  rewrite new_db_spec in * by lia. cbn [snd db_base db_attrs g_db g_name g_svcs] in *. split; [now rewrite TY, T|]. split; [exact W|]. split; [reflexivity|]. split.
  - eexists. split; [reflexivity|]. repeat (split; [reflexivity|]). reflexivity.
  - split; [reflexivity|]. assert (PU : forall ss h, map s_uuid (placed_svcs ss h) = map s_uuid ss).
    { induction ss as [|s ss IH]; intro h; [reflexivity|]. cbn [placed_svcs map]. rewrite IH. reflexivity. }
    rewrite PU, map_app. reflexivity.
Qed.
Print Assumptions C11_published.
(** RemoveAllServices leaves exactly those two, however many had been added; a new server publishes the same two. *)
Theorem C11_remove_all : forall g, g_db (remove_all g) = g_db (set_services g []) /\ g_svcs (remove_all g) = g_svcs (set_services g []) /\ g_name (remove_all g) = g_name g /\
  forall name h, g_db (new_gserver name h) = g_db (set_services (new_gserver name h) []) /\ g_name (new_gserver name h) = name.
Proof. intro g. split; [reflexivity|]. split; [reflexivity|]. split; [reflexivity|]. intros name h. split; reflexivity. Qed.
Print Assumptions C11_remove_all.
(** Setting services does not depend on what was published before. *)
Theorem C11_set_services_fresh : forall g l1 l2, set_services (set_services g l1) l2 = set_services g l2 /\ set_services (remove_all g) l2 = set_services g l2 /\
  forall s, set_services (add_service g s) l2 = set_services g l2.
Proof.
  intros g l1 l2. unfold set_services at 2, remove_all, add_service. destruct (new_db (default_services (g_name g) 0 ++ l1) 1). destruct (new_db (default_services (g_name g) 0) 1). split; [reflexivity|]. split; [reflexivity|].
  intro s. destruct (new_db (g_svcs g ++ [s]) 1). reflexivity.
Qed.
Print Assumptions C11_set_services_fresh.
(** REFUTED: every rebuild of the table adds one more client configuration descriptor to every notifying characteristic ... *)
Theorem C70_rebuild_grows_refuted : forall ss, table_size ss + Z.of_nat (n_notifying ss) <= 65535 ->
  let '(ss1, d1) := new_db ss 1 in
  length (db_attrs (snd (new_db ss1 1))) = (length (db_attrs d1) + n_notifying ss)%nat.
Proof.
  intros ss H. assert (0 <= table_size ss) by (unfold table_size; lia). rewrite new_db_spec by lia.
  assert (S1 : table_size (placed_svcs ss 1) = table_size ss + Z.of_nat (n_notifying ss)) by (unfold table_size; rewrite placed_svcs_length; lia).
  rewrite new_db_spec by lia. cbn [snd db_attrs]. rewrite !svcs_attrs_length. apply placed_svcs_length.
Qed.
Print Assumptions C70_rebuild_grows_refuted.
(** ... so after two more AddService calls a published characteristic has three of them, and everything behind it has moved. *)
Definition g1 := add_service (new_gserver [71] 0) ex_svc.
Definition g3 := add_service (add_service g1 (new_service (uuid16 0x1234))) (new_service (uuid16 0x1235)).
Definition count_type (u : bytes) (d : dbt) : nat := length (filter (fun a => beq_bytes (a_typ a) u) (db_attrs d)).
Theorem C70_duplicate_cccd_refuted : count_type u_cccd (g_db g1) = 2%nat /\ count_type u_cccd (g_db g3) = 6%nat /\
  option_map a_h (find (fun a => beq_bytes (a_typ a) (uuid16 0x2A19)) (db_attrs (g_db g1))) = Some 20 /\
  option_map a_h (find (fun a => beq_bytes (a_typ a) (uuid16 0x2A19)) (db_attrs (g_db g3))) = Some 22.
Proof. repeat split; reflexivity. Qed.
Print Assumptions C70_duplicate_cccd_refuted.
(** REFUTED: the notification handler given to the constructor is not in the table served until another service is added. *)
Definition uses_handler (n : nat) (a : attr) : bool :=
  match a_wh a with Some (ACccd ci) => match ci_ih ci with Some k => Nat.eqb k n | None => false end | _ => false end.
Theorem C71_custom_handler_ignored_refuted : existsb (uses_handler 7) (db_attrs (g_db (new_gserver [71] 7))) = false /\
  existsb (uses_handler 7) (db_attrs (g_db (add_service (new_gserver [71] 7) ex_svc))) = true.
Proof. split; reflexivity. Qed.
Print Assumptions C71_custom_handler_ignored_refuted.
(** REFUTED: RemoveAllServices and SetServices go back to the built-in handler. *)
Theorem C71_remove_all_loses_handler_refuted :
  existsb (uses_handler 7) (db_attrs (g_db (remove_all (add_service (new_gserver [71] 7) ex_svc)))) = false.
Proof. reflexivity. Qed.
Print Assumptions C71_remove_all_loses_handler_refuted.

(** C49: after any configuration calls that did not panic: never both a static value and a read handler; the properties are exactly
    those of what is installed; descriptors have distinct UUIDs. *)
Theorem C49_configuration : forall u l c, cfg_run (new_char u) l = Ret c ->
  (c_value c = None \/ c_rh c = None) /\ c_prop c = deserved c /\ NoDup (map d_uuid (c_descs c)).
Proof. intros u l c E. apply (cfg_run_inv l (new_char u) c (new_char_inv u) E). Qed.
Print Assumptions C49_configuration.
(** the conflicting calls, and only those, panic *)
Theorem C49_conflicts_panic : forall c o, cfg_step c o = Panic <->
  (exists b h, o = SetValue b /\ c_rh c = Some h) \/ (exists h b, o = HandleRead h /\ c_value c = Some b) \/
  (exists d, o = AddDescriptor d /\ In (d_uuid d) (map d_uuid (c_descs c))).
Proof.
  intros c o. split.
  - destruct o; cbn [cfg_step]; unfold c_set_value, c_handle_read, add_desc; try discriminate.
    + destruct (c_rh c); [intros _; left; eauto|discriminate].
    + destruct (c_value c); [intros _; right; left; eauto|discriminate].
    + destruct (existsb _ _) eqn:X; [|discriminate]. intros _. right. right. apply existsb_uuid_desc in X. eauto.
  - intros [(b & h & -> & E)|[(h & b & -> & E)|(d & -> & E)]]; cbn; unfold c_set_value, c_handle_read, add_desc.
    + now rewrite E. + now rewrite E. + apply existsb_uuid_desc in E. now rewrite E.
Qed.
Print Assumptions C49_conflicts_panic.
(** a configured value or handler is what is served *)
Theorem C49_last_setting_wins : forall c b h, (c_rh c = None -> exists c', c_set_value c b = Ret c' /\ c_value c' = Some b) /\
  (c_value c = None -> exists c', c_handle_read c h = Ret c' /\ c_rh c' = Some h) /\ c_wh (c_handle_write c h) = Some h /\
  c_nh (c_handle_notify c h) = Some h /\ c_ih (c_handle_indicate c h) = Some h.
Proof.
  intros c b h. unfold c_set_value, c_handle_read. split; [intros ->; eexists; split; reflexivity|].
  split; [intros ->; eexists; split; reflexivity|]. repeat split.
Qed.
Print Assumptions C49_last_setting_wins.
(** configuration keeps the UUID and gives no handles: a characteristic that is not published has the handles 0 *)
Theorem C49_unpublished : forall u l c, cfg_run (new_char u) l = Ret c -> c_uuid c = u /\ c_handle c = 0 /\ c_vhandle c = 0.
Proof.
  intros u l. assert (X : forall l c0 c, cfg_run c0 l = Ret c -> c_uuid c = c_uuid c0 /\ c_handle c = c_handle c0 /\ c_vhandle c = c_vhandle c0); [|exact (X l (new_char u))]. clear.
  induction l as [|o l IH]; intros c0 c E; cbn [cfg_run] in E; [injection E as <-; auto|]. destruct (cfg_step c0 o) as [c1|] eqn:S1; [|discriminate E]. destruct (IH _ _ E) as (-> & -> & ->). clear - S1.
  destruct o; cbn [cfg_step] in S1; unfold c_set_value, c_handle_read, add_desc in S1; try destruct (c_rh c0); try destruct (c_value c0); try destruct (existsb _ _); try discriminate S1; injection S1 as <-; repeat split; reflexivity.
Qed.
Print Assumptions C49_unpublished.
(** adding characteristics one after the other panics exactly when two have the same UUID, and otherwise keeps them all in order *)
Theorem C49_unique_characteristics : forall u l,
  (NoDup (map c_uuid l) /\ add_chars (new_service u) l = Ret (mkSvc u l)) \/ (~ NoDup (map c_uuid l) /\ add_chars (new_service u) l = Panic).
Proof.
  intros u l. rewrite add_chars_spec by constructor. cbn [new_service s_chars s_uuid app].
  destruct (list_eq_dec _ _ _) as [E|E]; [left|right]; split; auto.
  - rewrite <- E. apply NoDup_nodup.
  - intro C. apply E. now apply nodup_fixed_point.
Qed.
Print Assumptions C49_unique_characteristics.
Example C49_ex : exists c, cfg_run (new_char (uuid16 0x2A19)) [HandleRead 1; HandleWrite 2; HandleNotify 3; AddDescriptor (new_desc (uuid16 0x2901))] = Ret c /\ c_prop c = 30.
Proof. eexists. split; reflexivity. Qed.
(** Descriptors: after any configuration calls that did not panic never both a static value and a read handler; the properties are those of
    what is installed; the last setting is the one kept. *)
Theorem C49_descriptor : forall u l d, dcfg_run (new_desc u) l = Ret d ->
  d_uuid d = u /\ (d_value d = None \/ d_rh d = None) /\ d_prop d = (if is_some (d_value d) || is_some (d_rh d) then 2 else 0) + (if is_some (d_wh d) then 12 else 0).
Proof.
  intros u l. assert (G : forall l d0 d, dcfg_run d0 l = Ret d -> (d_uuid d0 = u /\ (d_value d0 = None \/ d_rh d0 = None) /\ d_prop d0 = (if is_some (d_value d0) || is_some (d_rh d0) then 2 else 0) + (if is_some (d_wh d0) then 12 else 0)) ->
    d_uuid d = u /\ (d_value d = None \/ d_rh d = None) /\ d_prop d = (if is_some (d_value d) || is_some (d_rh d) then 2 else 0) + (if is_some (d_wh d) then 12 else 0)).
  { clear. induction l as [|o l IH]; intros d0 d H I; cbn [dcfg_run] in H; [injection H as <-; exact I|]. destruct (dcfg_step d0 o) as [d1|] eqn:E; [|discriminate]. cbn [gbind] in H. apply (IH d1 d H). clear IH H.
    destruct d0 as [u0 p v rh wh]. cbn [d_uuid d_prop d_value d_rh d_wh] in I. destruct I as (I1 & I2 & I3). destruct o; cbn [dcfg_step] in E; unfold d_set_value, d_handle_read, d_handle_write in E; cbn [d_uuid d_prop d_value d_rh d_wh] in E.
    - destruct rh; [discriminate|]. injection E as <-. cbn [d_uuid d_prop d_value d_rh d_wh is_some orb] in *. split; [exact I1|]. split; [now right|]. subst p. destruct v, wh; reflexivity.
    - destruct v; [discriminate|]. injection E as <-. cbn [d_uuid d_prop d_value d_rh d_wh is_some orb] in *. split; [exact I1|]. split; [now left|]. subst p. destruct rh, wh; reflexivity.
    - injection E as <-. cbn [d_uuid d_prop d_value d_rh d_wh is_some orb] in *. split; [exact I1|]. split; [exact I2|]. subst p. destruct v, rh, wh; reflexivity. }
  intros d H. apply (G l (new_desc u) d H). split; [reflexivity|]. split; [now left|reflexivity].
Qed.
Print Assumptions C49_descriptor.
Theorem C49_descriptor_settings : forall d b h,
  (dcfg_step d (DSetValue b) = Panic <-> d_rh d <> None) /\ (dcfg_step d (DHandleRead h) = Panic <-> d_value d <> None) /\ dcfg_step d (DHandleWrite h) <> Panic /\
  (forall d', dcfg_step d (DSetValue b) = Ret d' -> d_value d' = Some b /\ d_wh d' = d_wh d) /\
  (forall d', dcfg_step d (DHandleRead h) = Ret d' -> d_rh d' = Some (DUser h) /\ d_wh d' = d_wh d) /\
  (forall d', dcfg_step d (DHandleWrite h) = Ret d' -> d_wh d' = Some (DUser h) /\ d_value d' = d_value d /\ d_rh d' = d_rh d).
Proof.
  intros [u p v rh wh] b h. cbn [dcfg_step]. unfold d_set_value, d_handle_read, d_handle_write. cbn [d_uuid d_prop d_value d_rh d_wh].
  split; [destruct rh; split; congruence|]. split; [destruct v; split; congruence|]. split; [discriminate|].
  split; [destruct rh; [discriminate|]; intros d' E; injection E as <-; split; reflexivity|]. split; [destruct v; [discriminate|]; intros d' E; injection E as <-; split; reflexivity|].
  intros d' E. injection E as <-. repeat split.
Qed.
Print Assumptions C49_descriptor_settings.
Example C49_descriptor_ex : exists d, dcfg_run (new_desc (uuid16 0x2901)) [DSetValue [65]; DHandleWrite 3; DSetValue [66]] = Ret d /\ d_value d = Some [66] /\ d_prop d = 14.
Proof. eexists. split; [reflexivity|]. split; reflexivity. Qed.
(** REFUTED: publishing adds a client configuration descriptor even if the application already added one: the table then holds two. *)
Theorem C70_duplicate_descriptor_refuted : exists c, cfg_run (new_char (uuid16 0x2A19)) [HandleNotify 3; AddDescriptor (new_desc u_cccd)] = Ret c /\
  count_type u_cccd (snd (new_db [mkSvc (uuid16 0x180F) [c]] 1)) = 2%nat.
Proof. eexists. split; reflexivity. Qed.
Print Assumptions C70_duplicate_descriptor_refuted.

(** C51: lookups in a profile return the first match in declaration order, and nothing exactly when there is none. *)
Theorem C51_find_service : forall ss u,
  match find_service ss u with
  | Some s => s_uuid s = u /\ exists a b, ss = a ++ s :: b /\ Forall (fun x => s_uuid x <> u) a
  | None => Forall (fun x => s_uuid x <> u) ss
  end.
Proof.
  induction ss as [|x ss IH]; intro u; [constructor|]. unfold find_service in *. cbn [find]. unfold uuid_equal at 1.
  destruct (beq_bytes (s_uuid x) u) eqn:E.
  - apply beq_bytes_eq in E. split; [exact E|]. exists [], ss. split; [reflexivity|constructor].
  - apply beq_bytes_neq in E. specialize (IH u). destruct (find _ ss) as [s|].
    + destruct IH as (A & a & b & -> & B). split; [exact A|]. exists (x :: a), b. split; [reflexivity|now constructor].
    + now constructor.
Qed.
Print Assumptions C51_find_service.
Theorem C51_find_characteristic : forall ss u,
  match find_char ss u with
  | Some c => c_uuid c = u /\ exists a b, flat_map s_chars ss = a ++ c :: b /\ Forall (fun x => c_uuid x <> u) a
  | None => Forall (fun x => c_uuid x <> u) (flat_map s_chars ss)
  end.
Proof.
  assert (F : forall cs u, match find (fun c => uuid_equal (c_uuid c) u) cs with
     | Some c => c_uuid c = u /\ exists a b, cs = a ++ c :: b /\ Forall (fun x => c_uuid x <> u) a
     | None => Forall (fun x => c_uuid x <> u) cs end).
  { induction cs as [|x ss IH]; intro u; [constructor|]. cbn [find]. unfold uuid_equal at 1. destruct (beq_bytes (c_uuid x) u) eqn:E.
    - apply beq_bytes_eq in E. split; [exact E|]. exists [], ss. split; [reflexivity|constructor].
    - apply beq_bytes_neq in E. specialize (IH u). destruct (find _ ss) as [s|].
      + destruct IH as (A & a & b & -> & B). split; [exact A|]. exists (x :: a), b. split; [reflexivity|now constructor].
      + now constructor. }
  induction ss as [|s ss IH]; intro u; [constructor|]. cbn [find_char flat_map]. specialize (F (s_chars s) u). specialize (IH u).
  destruct (find _ (s_chars s)) as [c|].
  - destruct F as (A & a & b & -> & B). split; [exact A|]. exists a, (b ++ flat_map s_chars ss). split; [now rewrite <- app_assoc|exact B].
  - destruct (find_char ss u) as [c|].
    + destruct IH as (A & a & b & E & B). split; [exact A|]. exists (s_chars s ++ a), b. split; [now rewrite E, app_assoc|]. apply Forall_app. auto.
    + apply Forall_app. auto.
Qed.
Print Assumptions C51_find_characteristic.
Theorem C51_find_descriptor : forall ss u,
  match find_desc ss u with
  | Some c => d_uuid c = u /\ exists a b, flat_map c_descs (flat_map s_chars ss) = a ++ c :: b /\ Forall (fun x => d_uuid x <> u) a
  | None => Forall (fun x => d_uuid x <> u) (flat_map c_descs (flat_map s_chars ss))
  end.
Proof.
  assert (F : forall cs u, match find (fun c => uuid_equal (d_uuid c) u) cs with
     | Some c => d_uuid c = u /\ exists a b, cs = a ++ c :: b /\ Forall (fun x => d_uuid x <> u) a
     | None => Forall (fun x => d_uuid x <> u) cs end).
  { induction cs as [|x ss IH]; intro u; [constructor|]. cbn [find]. unfold uuid_equal at 1. destruct (beq_bytes (d_uuid x) u) eqn:E.
    - apply beq_bytes_eq in E. split; [exact E|]. exists [], ss. split; [reflexivity|constructor].
    - apply beq_bytes_neq in E. specialize (IH u). destruct (find _ ss) as [s|].
      + destruct IH as (A & a & b & -> & B). split; [exact A|]. exists (x :: a), b. split; [reflexivity|now constructor].
      + now constructor. }
  assert (G : forall cs u, match find_desc_chars cs u with
     | Some c => d_uuid c = u /\ exists a b, flat_map c_descs cs = a ++ c :: b /\ Forall (fun x => d_uuid x <> u) a
     | None => Forall (fun x => d_uuid x <> u) (flat_map c_descs cs) end).
  { induction cs as [|s ss IH]; intro u; [constructor|]. cbn [find_desc_chars flat_map]. specialize (F (c_descs s) u). specialize (IH u).
    destruct (find _ (c_descs s)) as [c|].
    - destruct F as (A & a & b & -> & B). split; [exact A|]. exists a, (b ++ flat_map c_descs ss). split; [now rewrite <- app_assoc|exact B].
    - destruct (find_desc_chars ss u) as [c|].
      + destruct IH as (A & a & b & E & B). split; [exact A|]. exists (c_descs s ++ a), b. split; [now rewrite E, app_assoc|]. apply Forall_app. auto.
      + apply Forall_app. auto. }
  induction ss as [|s ss IH]; intro u; [constructor|]. cbn [find_desc flat_map]. rewrite flat_map_app. specialize (G (s_chars s) u). specialize (IH u).
  destruct (find_desc_chars (s_chars s) u) as [c|].
  - destruct G as (A & a & b & -> & B). split; [exact A|]. exists a, (b ++ flat_map c_descs (flat_map s_chars ss)). split; [now rewrite <- app_assoc|exact B].
  - destruct (find_desc ss u) as [c|].
    + destruct IH as (A & a & b & E & B). split; [exact A|]. exists (flat_map c_descs (s_chars s) ++ a), b. split; [now rewrite E, app_assoc|]. apply Forall_app. auto.
    + apply Forall_app. auto.
Qed.
Print Assumptions C51_find_descriptor.
Example C51_ex : option_map c_uuid (find_char (default_services [71] 0) (uuid16 0x2A05)) = Some (uuid16 0x2A05).
Proof. reflexivity. Qed.
