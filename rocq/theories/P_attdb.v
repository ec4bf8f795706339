Require Import Verif.Base Verif.M_uuid Verif.M_attdb Verif.S_attdb.

Lemma u16_small : forall x, 0 <= x < 65536 -> u16 x = x.
Proof. intros x H. unfold u16. now apply Z.mod_small. Qed.
Lemma u16_add : forall x k, u16 (u16 x + k) = u16 (x + k).
Proof. intros x k. unfold u16. now rewrite Zplus_mod_idemp_l. Qed.
Lemma consecutive_nil : forall b, consecutive b [].
Proof. intros b [|i] a H; discriminate. Qed.
Lemma consecutive_cons : forall b a l, a_h a = b -> consecutive (b + 1) l -> consecutive b (a :: l).
Proof.
  intros b a l Ha H [|i] x Hx; cbn in Hx.
  - injection Hx as <-. lia.
  - rewrite (H i x Hx). lia.
Qed.
Lemma consecutive_app : forall l m b, consecutive b l -> consecutive (b + Z.of_nat (length l)) m -> consecutive b (l ++ m).
Proof.
  intros l m b Hl Hm i x Hx. destruct (Nat.ltb i (length l)) eqn:E.
  - rewrite nth_error_app1 in Hx by lia. now apply Hl.
  - rewrite nth_error_app2 in Hx by lia. rewrite (Hm _ _ Hx). lia.
Qed.

Lemma gen_descs_spec : forall ci ds H l h', 0 <= H -> H + Z.of_nat (length ds) <= 65536 -> gen_descs ci ds (u16 H) = (l, h') ->
  map a_typ l = map d_uuid ds /\ consecutive H l /\ h' = u16 (H + Z.of_nat (length ds)) /\
  l = map (fun p => gen_desc ci (snd p) (H + Z.of_nat (fst p))) (combine (seq 0 (length ds)) ds).
Proof.
  intros ci ds. induction ds as [|d ds IH]; intros H l h' H0 H1 E.
  - cbn in *. injection E as <- <-. rewrite Z.add_0_r. repeat split; auto. apply consecutive_nil.
  - cbn [gen_descs length] in *. rewrite u16_add in E. destruct (gen_descs ci ds (u16 (H + 1))) as [l1 h1] eqn:E1.
    injection E as <- <-. destruct (IH (H + 1) l1 h1) as (A & B & C & D); [lia|lia|exact E1|].
    assert (HH : u16 H = H) by (apply u16_small; lia).
    split; [cbn; now rewrite A|]. split; [apply consecutive_cons; [cbn; exact HH|exact B]|]. split; [rewrite C; f_equal; lia|].
    cbn [seq combine map fst snd]. rewrite HH, Z.add_0_r. f_equal. rewrite D.
    rewrite <- seq_shift. clear. generalize 0%nat as k. induction ds as [|x ds IH]; intro k; [reflexivity|].
    cbn [length seq map combine fst snd]. f_equal; [f_equal; lia|]. apply IH.
Qed.

(** the attributes of one characteristic declared at handle H *)
Definition char_attrs (c : char) (H : Z) : list attr :=
  mkAttr H (H + Z.of_nat (length (char_types c)) - 1) u_char (Some ([u8 (c_prop c); u8 (H + 1); u8 ((H + 1) / 256)] ++ c_uuid c)) None None
  :: mkAttr (H + 1) 0 (c_uuid c) (c_value c) (option_map AUser (c_rh c)) (option_map AUser (c_wh c))
  :: map (fun p => gen_desc (mkCI H (H + 1) (c_prop c) (c_nh c) (c_ih c)) (snd p) (H + 2 + Z.of_nat (fst p)))
         (combine (seq 0 (length (own_descs c))) (own_descs c)).
Lemma combine_seq_length : forall {A} (l : list A), length (combine (seq 0 (length l)) l) = length l.
Proof. intros A l. rewrite combine_length, seq_length. lia. Qed.
Lemma char_attrs_length : forall c H, length (char_attrs c H) = length (char_types c).
Proof.
  intros c H. unfold char_attrs, char_types. cbn [length]. now rewrite !map_length, combine_seq_length.
Qed.
(** the characteristic as NewDB leaves it *)
Definition placed (c : char) (H : Z) : char :=
  mkChar (c_uuid c) (c_prop c) (own_descs c) (c_value c) (c_rh c) (c_wh c) (c_nh c) (c_ih c) H (H + 1).
Lemma map_combine_typ : forall ci (ds : list desc) f k, map a_typ (map (fun p => gen_desc ci (snd p) (f (fst p))) (combine (seq k (length ds)) ds)) = map d_uuid ds.
Proof. intros ci ds f. induction ds as [|d ds IH]; intro k; [reflexivity|]. cbn [length seq combine map fst snd]. f_equal. apply IH. Qed.
Lemma char_attrs_types : forall c H, map a_typ (char_attrs c H) = char_types c.
Proof.
  intros c H. unfold char_attrs, char_types. cbn [map a_typ]. do 2 f_equal.
  apply (map_combine_typ _ (own_descs c) (fun i => H + 2 + Z.of_nat i) 0).
Qed.
Lemma gen_char_spec : forall c H, 0 <= H -> H + Z.of_nat (length (char_types c)) <= 65536 ->
  gen_char c (u16 H) = (placed c H, char_attrs c H, u16 (H + Z.of_nat (length (char_types c)))).
Proof.
  intros c H H0 H1. assert (L : length (char_types c) = S (S (length (own_descs c)))) by (unfold char_types; cbn; now rewrite map_length).
  assert (HH : u16 H = H) by (apply u16_small; lia). assert (HV : u16 (H + 1) = H + 1) by (apply u16_small; lia).
  unfold gen_char. rewrite HH, HV.
  assert (DS : match c_nh c with Some _ => c_descs c ++ [new_cccd] | None => match c_ih c with Some _ => c_descs c ++ [new_cccd] | None => c_descs c end end = own_descs c).
  { unfold own_descs, notifying. destruct (c_nh c), (c_ih c); cbn; now rewrite ?app_nil_r. }
  rewrite DS. destruct (gen_descs (mkCI H (H + 1) (c_prop c) (c_nh c) (c_ih c)) (own_descs c) (u16 (H + 2))) as [ds h'] eqn:E.
  destruct (gen_descs_spec (mkCI H (H + 1) (c_prop c) (c_nh c) (c_ih c)) (own_descs c) (H + 2) ds h') as (_ & _ & C & D); [lia|lia|exact E|].
  rewrite C, D. rewrite L. unfold placed, char_attrs. rewrite L.
  replace (H + 2 + Z.of_nat (length (own_descs c))) with (H + Z.of_nat (S (S (length (own_descs c))))) by lia.
  replace (u16 (u16 (H + Z.of_nat (S (S (length (own_descs c))))) - 1)) with (H + Z.of_nat (S (S (length (own_descs c)))) - 1);
  [reflexivity|]. change (u16 ?a - 1) with (u16 a + -1). rewrite u16_add. rewrite u16_small; lia.
Qed.
Lemma char_attrs_consecutive : forall c H, consecutive H (char_attrs c H).
Proof.
  intros c H. unfold char_attrs. apply consecutive_cons; [reflexivity|]. apply consecutive_cons; [cbn; lia|].
  intros i a Hi. rewrite nth_error_map in Hi. destruct (nth_error (combine (seq 0 (length (own_descs c))) (own_descs c)) i) as [[j d]|] eqn:E; [|discriminate].
  injection Hi as <-. cbn.
  assert (j = i).
  { assert (F := f_equal (option_map fst) E). cbn in F. rewrite <- nth_error_map in F.
    assert (G : map fst (combine (seq 0 (length (own_descs c))) (own_descs c)) = seq 0 (length (own_descs c))).
    { generalize (own_descs c). intros l. generalize 0%nat as k. induction l as [|x l IH]; intro k; [reflexivity|]. cbn. f_equal. apply IH. }
    rewrite G in F. assert (LT : (i < length (own_descs c))%nat).
    { rewrite <- combine_seq_length. apply nth_error_Some. congruence. }
    rewrite (nth_error_nth' _ 0%nat) in F by (rewrite seq_length; lia). rewrite seq_nth in F by lia. injection F as <-. lia. }
  subst. lia.
Qed.

Definition csize (cs : list char) : Z := Z.of_nat (length (flat_map char_types cs)).
Lemma csize_cons : forall c cs, csize (c :: cs) = Z.of_nat (length (char_types c)) + csize cs.
Proof. intros. unfold csize. cbn [flat_map]. rewrite app_length. lia. Qed.
Fixpoint chars_attrs (cs : list char) (H : Z) : list attr :=
  match cs with [] => [] | c :: r => char_attrs c H ++ chars_attrs r (H + Z.of_nat (length (char_types c))) end.
Fixpoint placed_chars (cs : list char) (H : Z) : list char :=
  match cs with [] => [] | c :: r => placed c H :: placed_chars r (H + Z.of_nat (length (char_types c))) end.
Lemma gen_chars_spec : forall cs H, 0 <= H -> H + csize cs <= 65536 ->
  gen_chars cs (u16 H) = (placed_chars cs H, chars_attrs cs H, u16 (H + csize cs)).
Proof.
  induction cs as [|c cs IH]; intros H H0 H1.
  - cbn. unfold csize. cbn. now rewrite Z.add_0_r.
  - rewrite csize_cons in *. assert (0 <= csize cs) by (unfold csize; lia). cbn [gen_chars].
    rewrite gen_char_spec by lia. rewrite IH by lia. cbn [placed_chars chars_attrs].
    do 2 f_equal. lia.
Qed.
Lemma chars_attrs_types : forall cs H, map a_typ (chars_attrs cs H) = flat_map char_types cs.
Proof. induction cs as [|c cs IH]; intro H; [reflexivity|]. cbn [chars_attrs flat_map]. now rewrite map_app, char_attrs_types, IH. Qed.
Lemma chars_attrs_consecutive : forall cs H, consecutive H (chars_attrs cs H).
Proof.
  induction cs as [|c cs IH]; intro H; [apply consecutive_nil|]. cbn [chars_attrs].
  apply consecutive_app; [apply char_attrs_consecutive|]. rewrite char_attrs_length. apply IH.
Qed.
Lemma chars_attrs_app : forall a b H, chars_attrs (a ++ b) H = chars_attrs a H ++ chars_attrs b (H + csize a).
Proof.
  induction a as [|c a IH]; intros b H.
  - cbn. unfold csize. cbn. now rewrite Z.add_0_r.
  - cbn [app chars_attrs]. rewrite IH, csize_cons, <- app_assoc. do 3 f_equal. lia.
Qed.

Definition svc_attrs (s : service) (H : Z) (last : bool) : list attr :=
  mkAttr H (if last then 65535 else H + Z.of_nat (length (svc_types s)) - 1) u_primary (Some (s_uuid s)) None None :: chars_attrs (s_chars s) (H + 1).
Lemma svc_attrs_types : forall s H b, map a_typ (svc_attrs s H b) = svc_types s.
Proof. intros. unfold svc_attrs, svc_types. cbn [map a_typ]. now rewrite chars_attrs_types. Qed.
Lemma svc_attrs_length : forall s H b, length (svc_attrs s H b) = length (svc_types s).
Proof. intros. rewrite <- (svc_attrs_types s H b). now rewrite map_length. Qed.
Lemma svc_types_length : forall s, Z.of_nat (length (svc_types s)) = 1 + csize (s_chars s).
Proof. intros. unfold svc_types, csize. cbn [length]. lia. Qed.
Definition placed_svc (s : service) (H : Z) : service := mkSvc (s_uuid s) (placed_chars (s_chars s) (H + 1)).
Lemma gen_svc_spec : forall s H b, 0 <= H -> H + Z.of_nat (length (svc_types s)) <= 65536 ->
  gen_svc s (u16 H) b = (placed_svc s H, svc_attrs s H b, u16 (H + Z.of_nat (length (svc_types s)))).
Proof.
  intros s H b H0 H1. assert (L := svc_types_length s). assert (0 <= csize (s_chars s)) by (unfold csize; lia).
  unfold gen_svc. rewrite u16_add, gen_chars_spec by lia. unfold svc_attrs, placed_svc.
  rewrite u16_small by lia.
  replace (u16 (u16 (H + 1 + csize (s_chars s)) - 1)) with (H + Z.of_nat (length (svc_types s)) - 1).
  - do 2 f_equal. lia.
  - change (u16 ?a - 1) with (u16 a + -1). rewrite u16_add, u16_small; lia.
Qed.
Fixpoint svcs_attrs (ss : list service) (H : Z) : list attr :=
  match ss with [] => [] | s :: r => svc_attrs s H (match r with [] => true | _ => false end) ++ svcs_attrs r (H + Z.of_nat (length (svc_types s))) end.
Fixpoint placed_svcs (ss : list service) (H : Z) : list service :=
  match ss with [] => [] | s :: r => placed_svc s H :: placed_svcs r (H + Z.of_nat (length (svc_types s))) end.
Lemma table_size_cons : forall s ss, table_size (s :: ss) = Z.of_nat (length (svc_types s)) + table_size ss.
Proof. intros. unfold table_size, table_types. cbn [flat_map]. rewrite app_length. lia. Qed.
Lemma gen_svcs_spec : forall ss H, 0 <= H -> H + table_size ss <= 65536 ->
  gen_svcs ss (u16 H) = (placed_svcs ss H, svcs_attrs ss H, u16 (H + table_size ss)).
Proof.
  induction ss as [|s ss IH]; intros H H0 H1.
  - cbn. unfold table_size. cbn. now rewrite Z.add_0_r.
  - rewrite table_size_cons in *. assert (0 <= table_size ss) by (unfold table_size; lia). cbn [gen_svcs].
    rewrite gen_svc_spec by lia. rewrite IH by lia. cbn [svcs_attrs placed_svcs]. do 2 f_equal. lia.
Qed.
Lemma svcs_attrs_types : forall ss H, map a_typ (svcs_attrs ss H) = table_types ss.
Proof. induction ss as [|s ss IH]; intro H; [reflexivity|]. unfold table_types in *. cbn [svcs_attrs flat_map]. now rewrite map_app, svc_attrs_types, IH. Qed.
Lemma svcs_attrs_length : forall ss H, length (svcs_attrs ss H) = length (table_types ss).
Proof. intros. rewrite <- (svcs_attrs_types ss H). now rewrite map_length. Qed.
Lemma svcs_attrs_consecutive : forall ss H, consecutive H (svcs_attrs ss H).
Proof.
  induction ss as [|s ss IH]; intro H; [apply consecutive_nil|]. cbn [svcs_attrs].
  apply consecutive_app; [|rewrite svc_attrs_length; apply IH].
  unfold svc_attrs. apply consecutive_cons; [reflexivity|]. apply chars_attrs_consecutive.
Qed.
Lemma new_db_spec : forall ss base, 0 <= base < 65536 -> base + table_size ss <= 65536 ->
  new_db ss base = (placed_svcs ss base, mkDB (svcs_attrs ss base) base).
Proof.
  intros ss base H0 H1. unfold new_db. rewrite <- (u16_small base) at 1 by lia. rewrite gen_svcs_spec by lia. reflexivity.
Qed.

(** ---- lookups ---- *)
Lemma db_at_spec : forall d h, wf_db d -> db_at d h = Ret (if (db_base d <=? h) && (h <? db_base d + Z.of_nat (length (db_attrs d)))
   then nth_error (db_attrs d) (Z.to_nat (h - db_base d)) else None).
Proof.
  intros d h (H0 & H1 & H2). unfold db_at, db_idx.
  destruct (h <? db_base d) eqn:E1; [replace (db_base d <=? h) with false by lia; reflexivity|].
  replace (db_base d <=? h) with true by lia.
  destruct (h >=? db_base d + Z.of_nat (length (db_attrs d))) eqn:E2.
  - replace (h <? db_base d + Z.of_nat (length (db_attrs d))) with false by lia. reflexivity.
  - replace (h <? db_base d + Z.of_nat (length (db_attrs d))) with true by lia.
    replace (h - db_base d <? 0) with false by lia. cbn [andb]. unfold gidx.
    destruct (nth_error (db_attrs d) (Z.to_nat (h - db_base d))) eqn:E; [reflexivity|].
    apply nth_error_None in E. lia.
Qed.
Lemma db_at_find : forall d h, wf_db d -> db_at d h = Ret (find (fun a => a_h a =? h) (db_attrs d)).
Proof.
  intros d h W. rewrite db_at_spec by exact W. destruct W as (H0 & H1 & H2). f_equal.
  generalize dependent (db_base d). intros b H0 H1 H2. clear H0 H1. revert b H2.
  induction (db_attrs d) as [|a l IH]; intros b H2.
  - cbn. destruct ((b <=? h) && (h <? b + 0)) eqn:E; [lia|reflexivity].
  - assert (Ha : a_h a = b) by (specialize (H2 0%nat a eq_refl); lia).
    assert (Hl : consecutive (b + 1) l) by (intros i x Hx; rewrite (H2 (S i) x Hx); lia).
    specialize (IH (b + 1) Hl). cbn [find length].
    destruct (a_h a =? h) eqn:E.
    + replace ((b <=? h) && (h <? b + Z.of_nat (S (length l)))) with true by lia. replace (h - b) with 0 by lia. reflexivity.
    + rewrite <- IH. destruct ((b + 1 <=? h) && (h <? b + 1 + Z.of_nat (length l))) eqn:E2.
      * replace ((b <=? h) && (h <? b + Z.of_nat (S (length l)))) with true by lia.
        replace (Z.to_nat (h - b)) with (S (Z.to_nat (h - (b + 1)))) by lia. reflexivity.
      * replace ((b <=? h) && (h <? b + Z.of_nat (S (length l)))) with false by lia. reflexivity.
Qed.
Lemma filter_none : forall s e l b, consecutive b l -> e < b \/ b + Z.of_nat (length l) <= s -> filter (in_range s e) l = [].
Proof.
  intros s e l. induction l as [|a l IH]; intros b Hc H; [reflexivity|]. cbn [filter].
  assert (Ha : a_h a = b) by (specialize (Hc 0%nat a eq_refl); lia).
  cbn [length] in H. unfold in_range at 1. replace ((s <=? a_h a) && (a_h a <=? e)) with false by lia.
  apply (IH (b + 1)); [|lia]. intros i x Hx. rewrite (Hc (S i) x Hx). lia.
Qed.
Lemma consecutive_tl : forall b a l, consecutive b (a :: l) -> a_h a = b /\ consecutive (b + 1) l.
Proof.
  intros b a l H. split; [specialize (H 0%nat a eq_refl); lia|]. intros i x Hx. rewrite (H (S i) x Hx). lia.
Qed.
Lemma filter_prefix : forall e l b, consecutive b l -> forall s, s <= b -> filter (in_range s e) l = firstn (Z.to_nat (e + 1 - b)) l.
Proof.
  intros e l. induction l as [|a l IH]; intros b Hc s H0; [now rewrite firstn_nil|].
  destruct (consecutive_tl b a l Hc) as [Ha Hl]. cbn [filter]. unfold in_range at 1.
  destruct (b <=? e) eqn:E.
  - replace ((s <=? a_h a) && (a_h a <=? e)) with true by lia.
    replace (Z.to_nat (e + 1 - b)) with (S (Z.to_nat (e + 1 - (b + 1)))) by lia. cbn [firstn]. f_equal. apply IH; [exact Hl|lia].
  - replace ((s <=? a_h a) && (a_h a <=? e)) with false by lia.
    replace (Z.to_nat (e + 1 - b)) with 0%nat by lia. cbn [firstn]. apply (filter_none s e l (b + 1) Hl). lia.
Qed.
Lemma filter_slice : forall s e l b, consecutive b l -> b <= s ->
  filter (in_range s e) l = firstn (Z.to_nat (e + 1 - s)) (skipn (Z.to_nat (s - b)) l).
Proof.
  intros s e l. induction l as [|a l IH]; intros b Hc H0.
  - now rewrite skipn_nil, firstn_nil.
  - destruct (Z.eq_dec b s) as [->|Hne].
    + rewrite Z.sub_diag. change (skipn (Z.to_nat 0) (a :: l)) with (a :: l). apply filter_prefix; [exact Hc|lia].
    + destruct (consecutive_tl b a l Hc) as [Ha Hl]. cbn [filter]. unfold in_range at 1.
      replace ((s <=? a_h a) && (a_h a <=? e)) with false by lia.
      rewrite (IH (b + 1) Hl) by lia. replace (Z.to_nat (s - b)) with (S (Z.to_nat (s - (b + 1)))) by lia. reflexivity.
Qed.
Lemma firstn_min : forall {A} (l : list A) n, firstn n l = firstn (Nat.min n (length l)) l.
Proof.
  intros A l n. destruct (Nat.leb n (length l)) eqn:E.
  - replace (Nat.min n (length l)) with n by lia. reflexivity.
  - replace (Nat.min n (length l)) with (length l) by lia. rewrite firstn_all, firstn_all2 by lia. reflexivity.
Qed.
Lemma db_subrange_spec : forall d s e, wf_db d -> s <= e -> db_subrange d s e = Ret (filter (in_range s e) (db_attrs d)).
Proof.
  intros d s e (H0 & H1 & H2) Hse. unfold db_subrange, db_idx. set (n := length (db_attrs d)) in *.
  destruct (s <? db_base d) eqn:E1.
  - change (-1 =? -2) with false. change (-1 =? -1) with true. cbv iota zeta.
    destruct (e + 1 <? db_base d) eqn:E2.
    + change (-1 =? -1) with true. cbv iota. rewrite (filter_none s e _ (db_base d) H2) by lia. reflexivity.
    + destruct (e + 1 >=? db_base d + Z.of_nat n) eqn:E3.
      * change (-2 =? -1) with false. change (-2 =? -2) with true. cbv iota.
        rewrite gslice_ok by lia. rewrite (filter_prefix e _ (db_base d) H2) by lia. cbn [skipn Z.to_nat].
        rewrite (firstn_min _ (Z.to_nat (e + 1 - db_base d))). fold n. rewrite (firstn_min _ (Z.to_nat (Z.of_nat n) - 0)). fold n. do 2 f_equal. lia.
      * replace (e + 1 - db_base d =? -1) with false by lia. replace (e + 1 - db_base d =? -2) with false by lia.
        rewrite gslice_ok by lia. rewrite (filter_prefix e _ (db_base d) H2) by lia. cbn [skipn Z.to_nat]. do 2 f_equal. lia.
  - destruct (s >=? db_base d + Z.of_nat n) eqn:E2.
    + change (-2 =? -2) with true. cbv iota. rewrite (filter_none s e _ (db_base d) H2) by lia. reflexivity.
    + replace (s - db_base d =? -2) with false by lia. replace (s - db_base d =? -1) with false by lia. cbv iota zeta.
      replace (e + 1 <? db_base d) with false by lia. rewrite (filter_slice s e _ (db_base d) H2) by lia.
      destruct (e + 1 >=? db_base d + Z.of_nat n) eqn:E3.
      * change (-2 =? -1) with false. change (-2 =? -2) with true. cbv iota.
        rewrite gslice_ok by lia. f_equal.
        rewrite (firstn_min _ (Z.to_nat (e + 1 - s))). rewrite (firstn_min _ (Z.to_nat (Z.of_nat n) - Z.to_nat (s - db_base d))).
        rewrite skipn_length. fold n. f_equal. lia.
      * replace (e + 1 - db_base d =? -1) with false by lia. replace (e + 1 - db_base d =? -2) with false by lia.
        rewrite gslice_ok by lia. do 2 f_equal. lia.
Qed.
