Require Import Verif.Base Verif.M_uuid Verif.M_attdb Verif.S_attdb Verif.P_attdb Verif.M_attsrv Verif.S_attsrv Verif.P_attsrv Verif.P_attsrv2 Verif.P_attsrv3 Verif.P_attsrv4 Verif.P_attsrv5 Verif.P_attsrv7.
Require Import Verif.M_attcli Verif.S_attcli Verif.M_gattcli Verif.S_gattcli Verif.S_e2e Verif.Props_attsrv Verif.P_attcli Verif.P_attcli2 Verif.P_gattcli Verif.P_gattcli2 Verif.P_gattcli3 Verif.P_e2e.

(** ---- fuel ---- *)
Lemma lay_len : forall ss h, length (lay ss h) = length ss.
Proof. induction ss as [|s l IH]; intro h; cbn [lay length]; [reflexivity|]. now rewrite IH. Qed.
Lemma lay_chars_len : forall cs h, length (lay_chars cs h) = length cs.
Proof. induction cs as [|s l IH]; intro h; cbn [lay_chars length]; [reflexivity|]. now rewrite IH. Qed.
Lemma lay_in : forall ss h x, In x (lay ss h) -> exists sv z, In sv ss /\ ds_chars x = lay_chars (s_chars sv) z.
Proof.
  induction ss as [|s l IH]; intros h x I; [destruct I|]. cbn [lay] in I. destruct I as [<-|I]; [exists s; eexists; split; [now left|reflexivity]|].
  destruct (IH _ _ I) as (sv & z & A & B). exists sv, z. split; [now right|exact B].
Qed.
Lemma lay_chars_in : forall cs h x, In x (lay_chars cs h) -> exists c z, In c cs /\ dc_descs x = lay_descs (own_descs c) z.
Proof.
  induction cs as [|s l IH]; intros h x I; [destruct I|]. cbn [lay_chars] in I. destruct I as [<-|I]; [exists s; eexists; split; [now left|reflexivity]|].
  destruct (IH _ _ I) as (sv & z & A & B). exists sv, z. split; [now right|exact B].
Qed.
Lemma flat_len_in : forall {A B} (f : A -> list B) l x, In x l -> (length (f x) <= length (flat_map f l))%nat.
Proof. intros A B f l x I. induction l as [|y l IH]; [destruct I|]. cbn [flat_map]. rewrite app_length. destruct I as [<-|I]; [lia|]. specialize (IH I). lia. Qed.
Lemma flat_len_all : forall {A B} (f : A -> list B) l, (forall x, (1 <= length (f x))%nat) -> (length l <= length (flat_map f l))%nat.
Proof. intros A B f l H. induction l as [|y l IH]; cbn [flat_map length]; [lia|]. rewrite app_length. specialize (H y). lia. Qed.
Lemma lay_fits : forall ss h fuel, table_size ss < Z.of_nat fuel -> fits fuel (lay ss h).
Proof.
  intros ss h fuel F. unfold table_size, table_types in F. split.
  - rewrite lay_len. pose proof (flat_len_all svc_types ss svc_types_pos). lia.
  - intros s I. apply lay_in in I. destruct I as (sv & z & I & E). rewrite E, lay_chars_len. pose proof (flat_len_in svc_types ss sv I) as L1.
    unfold svc_types in L1 at 1. cbn [length] in L1. split.
    + pose proof (flat_len_all char_types (s_chars sv) (fun c => ltac:(rewrite char_types_len; lia))). lia.
    + intros c J. apply lay_chars_in in J. destruct J as (c' & z' & J & E'). rewrite E', lay_descs_len. pose proof (flat_len_in char_types (s_chars sv) c' J) as L2. rewrite char_types_len in L2. lia.
Qed.

(** ---- outline ---- *)
Lemma outline_descs : forall ds h, map gd_uuid (map found_desc (lay_descs ds h)) = map d_uuid ds.
Proof. induction ds as [|x l IH]; intro h; cbn [lay_descs map found_desc gd_uuid dd_uuid]; [reflexivity|]. now rewrite IH. Qed.
Lemma outline_lay : forall ss h, map outline_found (map full_svc (lay ss h)) = map outline ss.
Proof.
  induction ss as [|s l IH]; intro h; cbn [lay map]; [reflexivity|]. rewrite IH. f_equal. unfold outline_found, full_svc, outline. cbn [gv_uuid gv_chars ds_uuid ds_end ds_chars]. f_equal.
  generalize (match l with [] => 65535 | _ => h + Z.of_nat (length (svc_types s)) - 1 end). intro en. generalize (h + 1). clear. induction (s_chars s) as [|c cs IH]; intro z; cbn [lay_chars full_chars map]; [reflexivity|].
  rewrite IH. cbn [gc_uuid gc_prop gc_descs dc_uuid dc_prop dc_descs]. now rewrite outline_descs.
Qed.

(** ---- positions ---- *)
Definition val_attr (c : char) (v : Z) : attr := mkAttr v 0 (c_uuid c) (c_value c) (option_map AUser (c_rh c)) (option_map AUser (c_wh c)).
Definition ci_at (c : char) (h : Z) : cinfo := mkCI h (h + 1) (c_prop c) (c_nh c) (c_ih c).
Definition cccd_attr (c : char) (h z : Z) : attr := mkAttr z 0 u_cccd None (Some (ACccd (ci_at c h))) (Some (ACccd (ci_at c h))).
Lemma nth_app_mid : forall {A} (a : list A) x b, nth_error (a ++ x :: b) (length a) = Some x.
Proof. intros A a x b. rewrite nth_error_app2 by lia. now rewrite Nat.sub_diag. Qed.
Lemma find_mid : forall A a C base, consecutive base (A ++ a :: C) -> find (fun x => a_h x =? a_h a) (A ++ a :: C) = Some a.
Proof.
  intros A a C base Cn. pose proof (Cn (length A) a (nth_app_mid A a C)) as HA. assert (X : find (fun x => a_h x =? a_h a) A = None).
  { destruct (find _ A) as [y|] eqn:F; [|reflexivity]. apply find_some in F. destruct F as [I Q]. apply In_nth_error in I. destruct I as [n I]. assert (n < length A)%nat by (apply nth_error_Some; congruence).
    specialize (Cn n y). rewrite nth_error_app1 in Cn by lia. specialize (Cn I). lia. }
  assert (G : forall l, find (fun x => a_h x =? a_h a) l = None -> find (fun x => a_h x =? a_h a) (l ++ a :: C) = Some a).
  { induction l as [|y l IH]; cbn [app find]; [now rewrite Z.eqb_refl|]. destruct (a_h y =? a_h a); [discriminate|exact IH]. }
  now apply G.
Qed.
Lemma lay_nth : forall before sv after h, exists en, nth_error (lay (before ++ sv :: after) h) (length before) = Some (mkDS (h + table_size before) en (s_uuid sv) (lay_chars (s_chars sv) (h + table_size before + 1))).
Proof.
  induction before as [|b l IH]; intros sv after h.
  - cbn [app lay length nth_error]. unfold table_size. cbn. rewrite Z.add_0_r. eexists. reflexivity.
  - cbn [app lay length nth_error]. rewrite table_size_cons, Z.add_assoc. apply IH.
Qed.
Lemma csize_app : forall a b, csize (a ++ b) = csize a + csize b.
Proof. intros a b. unfold csize. rewrite flat_map_app, app_length. lia. Qed.
Lemma lay_chars_nth : forall cb c ca h en, exists e, nth_error (full_chars en (lay_chars (cb ++ c :: ca) h)) (length cb) =
  Some (mkGC (c_uuid c) (c_prop c) (h + csize cb) (h + csize cb + 1) e (map found_desc (lay_descs (own_descs c) (h + csize cb + 2))) (last_cccd (lay_descs (own_descs c) (h + csize cb + 2)) None)).
Proof.
  induction cb as [|b l IH]; intros c ca h en.
  - cbn [app lay_chars full_chars length nth_error]. unfold csize. cbn. rewrite Z.add_0_r. eexists. reflexivity.
  - cbn [app lay_chars full_chars length nth_error]. rewrite csize_cons, char_types_len. replace (h + (Z.of_nat (S (S (length (own_descs b)))) + csize l)) with (h + 2 + Z.of_nat (length (own_descs b)) + csize l) by lia. apply IH.
Qed.
Lemma last_cccd_app : forall a x acc, is_cccd_uuid x = true -> last_cccd (a ++ [x]) acc = Some (found_desc x).
Proof. induction a as [|y a IH]; intros x acc H; cbn [app last_cccd]; [now rewrite H|now apply IH]. Qed.
Lemma lay_descs_app : forall a b h, lay_descs (a ++ b) h = lay_descs a h ++ lay_descs b (h + Z.of_nat (length a)).
Proof. induction a as [|y a IH]; intros b h; cbn [app lay_descs length]; [now rewrite Z.add_0_r|]. rewrite IH. f_equal. f_equal. f_equal. lia. Qed.
Lemma last_cccd_lay : forall c h, notifying c = true -> last_cccd (lay_descs (own_descs c) h) None = Some (mkGD u_cccd (h + Z.of_nat (length (c_descs c)))).
Proof. intros c h N. unfold own_descs. rewrite N, lay_descs_app. cbn [lay_descs]. rewrite last_cccd_app by reflexivity. reflexivity. Qed.
Lemma gen_app : forall ci (l : list desc) (x : desc) h,
  map (fun p => gen_desc ci (snd p) (h + Z.of_nat (fst p))) (combine (seq 0 (length (l ++ [x]))) (l ++ [x])) =
  map (fun p => gen_desc ci (snd p) (h + Z.of_nat (fst p))) (combine (seq 0 (length l)) l) ++ [gen_desc ci x (h + Z.of_nat (length l))].
Proof.
  intros ci l x h. enough (G : forall k, map (fun p => gen_desc ci (snd p) (h + Z.of_nat (fst p))) (combine (seq k (length (l ++ [x]))) (l ++ [x])) =
  map (fun p => gen_desc ci (snd p) (h + Z.of_nat (fst p))) (combine (seq k (length l)) l) ++ [gen_desc ci x (h + Z.of_nat (k + length l))]) by exact (G O).
  induction l as [|y l IH]; intro k; cbn [app length seq combine map]; [cbn [fst snd]; now rewrite Nat.add_0_r|]. f_equal. rewrite IH. now rewrite Nat.add_succ_r.
Qed.

Lemma some_eq : forall {A} (x y : A), Some x = Some y -> x = y.
Proof. intros A x y H. now injection H. Qed.
Section Where.
Variables (ss : list service).
Hypothesis Hne : ss <> [].
Hypothesis Hpl : Forall plain_svc ss.
Hypothesis Hsz : 1 + table_size ss <= 65535.
Let d := snd (new_db ss 1).
Let prof := map full_svc (lay ss 1).
(** the attributes behind a reported characteristic *)
Lemma where_is : forall c fc, reported ss prof c fc ->
  gc_uuid fc = c_uuid c /\ gc_prop fc = c_prop c /\ 1 <= gc_h fc /\ gc_vh fc = gc_h fc + 1 /\ gc_vh fc < 65535 /\ plain_char c /\
  attr_at d (gc_vh fc) = Some (val_attr c (gc_vh fc)) /\
  (notifying c = true -> exists z, gc_cccd fc = Some (mkGD u_cccd z) /\ 1 <= z < 65535 /\ attr_at d z = Some (cccd_attr c (gc_h fc) z)).
Proof.
  intros c fc (i & j & sv & fs & I & J & K & L). apply nth_error_split in I. destruct I as (before & after & EQ & <-). apply nth_error_split in J. destruct J as (cb & ca & CE & <-).
  unfold prof in K. rewrite nth_error_map, EQ in K. destruct (lay_nth before sv after 1) as [en N]. rewrite N in K. cbn [option_map] in K. apply some_eq in K. subst fs.
  cbn [full_svc gv_chars ds_chars ds_end] in L. rewrite CE in L. destruct (lay_chars_nth cb c ca (1 + table_size before + 1) en) as [e M]. rewrite M in L. clear M N. apply some_eq in L. subst fc.
  cbn [gc_uuid gc_prop gc_h gc_vh gc_cccd]. pose proof (table_size_nonneg before) as B0. assert (B1 : 0 <= csize cb) by (unfold csize; lia). set (H := 1 + table_size before + 1 + csize cb).
  assert (SZ : H + 2 + Z.of_nat (length (own_descs c)) <= 65535).
  { pose proof Hsz as X. rewrite EQ, table_size_app, table_size_cons, svc_types_length, CE, csize_app, csize_cons, char_types_len in X. pose proof (table_size_nonneg after). assert (0 <= csize ca) by (unfold csize; lia). unfold H. lia. }
  assert (PC : plain_char c).
  { rewrite EQ in Hpl. apply Forall_app in Hpl. destruct Hpl as [_ Q]. apply Forall_cons_iff in Q. destruct Q as [[_ Q] _]. rewrite CE in Q. apply Forall_app in Q. destruct Q as [_ Q]. now apply Forall_cons_iff in Q. }
  pose proof (svcs_attrs_consecutive ss 1) as Cn. assert (DS : db_attrs d = svcs_attrs ss 1) by (unfold d; rewrite new_db_spec by lia; reflexivity).
  destruct (svcs_split before sv after 1) as (A & CC & X & LA & LC). rewrite <- EQ in X.
  unfold svc_attrs in X. rewrite CE, chars_attrs_app in X. cbn [chars_attrs] in X. unfold char_attrs in X. fold H in X.
  split; [reflexivity|]. split; [reflexivity|]. split; [unfold H; lia|]. split; [lia|]. split; [lia|]. split; [exact PC|]. split.
  - unfold attr_at. rewrite DS. rewrite X in Cn |- *. repeat (rewrite <- ?app_assoc in *; cbn [app] in * ).
    match type of Cn with consecutive 1 (A ++ ?x :: chars_attrs cb ?z ++ ?y :: ?w :: ?r) =>
      assert (Q : A ++ x :: chars_attrs cb z ++ y :: w :: r = (A ++ x :: chars_attrs cb z ++ [y]) ++ w :: r) by (repeat (rewrite <- ?app_assoc; cbn [app]); reflexivity) end.
    rewrite Q in Cn |- *. exact (find_mid _ _ _ _ Cn).
  - intro NO. exists (H + 2 + Z.of_nat (length (c_descs c))). split; [now apply last_cccd_lay|].
    assert (LO : length (own_descs c) = S (length (c_descs c))) by (unfold own_descs; rewrite NO, app_length; cbn; lia). split; [unfold H in *; lia|].
    unfold own_descs in X. rewrite NO in X. rewrite gen_app in X. unfold attr_at. rewrite DS. rewrite X in Cn |- *. repeat (rewrite <- ?app_assoc in *; cbn [app] in * ).
    match type of Cn with consecutive 1 (A ++ ?x :: chars_attrs cb ?z ++ ?y :: ?w :: ?m ++ ?q :: ?r) =>
      assert (Q : A ++ x :: chars_attrs cb z ++ y :: w :: m ++ q :: r = (A ++ x :: chars_attrs cb z ++ y :: w :: m) ++ q :: r) by (repeat (rewrite <- ?app_assoc; cbn [app]); reflexivity) end.
    rewrite Q in Cn |- *. exact (find_mid _ _ _ _ Cn).
Qed.
Lemma all_reported : forall sv c, In sv ss -> In c (s_chars sv) -> exists fc, reported ss prof c fc.
Proof.
  intros sv c I J. apply In_nth_error in I. destruct I as [i I]. apply In_nth_error in J. destruct J as [j J].
  pose proof I as I'. pose proof J as J'. apply nth_error_split in I'. destruct I' as (before & after & EQ & Li). apply nth_error_split in J'. destruct J' as (cb & ca & CE & Lj).
  destruct (lay_nth before sv after 1) as [en N]. destruct (lay_chars_nth cb c ca (1 + table_size before + 1) en) as [e M].
  eexists. exists i, j, sv. eexists. split; [exact I|]. split; [exact J|]. split.
  - unfold prof. rewrite nth_error_map, EQ, <- Li, N. reflexivity.
  - cbn [full_svc gv_chars ds_chars ds_end]. rewrite CE, <- Lj. exact M.
Qed.
End Where.

(** ---- one request of the client at this server ---- *)
Lemma srv_answer : forall E s0 log o s' rsp cs, handle (serve E s0 [] log) (E (log ++ [wire o])) (wire o) = Ret (s', Some rsp, cs) ->
  srv_peer E s0 (log ++ [wire o]) = Some [rsp] /\ srv_calls E s0 (log ++ [wire o]) = cs.
Proof. intros E s0 log o s' rsp cs H. unfold srv_peer, srv_calls. rewrite rev_unit, rev_involutive, H. split; reflexivity. Qed.
Lemma after_one : forall p c o tx' A (k : bytes -> go (cres A)) rsp, p (clog c ++ [wire o]) = Some [rsp] -> answers_op o rsp = true ->
  after p c o (wire o) tx' k = let! x := k rsp in Ret (mkCli tx' (cmtu c) (cserved c) (clog c ++ [wire o]), x).
Proof.
  intros p c o tx' A k rsp P AN. unfold after. rewrite P. assert (B : before o [rsp] = []) by (cbn [before]; now rewrite AN). destruct (before_cases o [rsp]) as [F|F]; [|rewrite B in F; destruct F].
  cbn [find]. rewrite AN, B. cbn [map]. rewrite app_nil_r. reflexivity.
Qed.
Lemma read_at : forall p c h rsp, p (clog c ++ [wire (ORead h)]) = Some [rsp] -> answers_op (ORead h) rsp = true -> usable c ->
  exists c', same_cli c c' /\ clog c' = clog c ++ [wire (ORead h)] /\ read p c h = let! x := check rsp (fun r => let! v := gfrom r 1 in Ret (COk v)) in Ret (c', x).
Proof.
  intros p c h rsp P A U. assert (L : (3 <= length (ctx c))%nat) by (unfold usable in U; lia). eexists. split; [|split; [|unfold read;
    rewrite (transact_spec _ _ _ _ _ _ (ORead h) (le16 h) _ (build_ok _ 3 _ (10 :: le16 h) L eq_refl (f_mtu 10 h))) by reflexivity; exact (after_one p c (ORead h) _ _ _ rsp P A)]]; [|reflexivity].
  split; [|split; reflexivity]. cbn [ctx]. now apply build_len.
Qed.
Lemma write_at : forall p c h v rsp, p (clog c ++ [wire (OWrite h v)]) = Some [rsp] -> answers_op (OWrite h v) rsp = true ->
  (3 + length v <= length (ctx c))%nat -> Z.of_nat (length v) <= cmtu c - 3 ->
  exists c', same_cli c c' /\ clog c' = clog c ++ [wire (OWrite h v)] /\ write p c h v = let! x := check rsp (fun _ => Ret (COk tt)) in Ret (c', x).
Proof.
  intros p c h v rsp P A L M. eexists. split; [|split; [|unfold write; replace (Z.of_nat (length v) >? cmtu c - 3) with false by lia;
    rewrite (transact_spec _ _ _ _ _ _ (OWrite h v) (le16 h ++ v) _ (build_ok _ _ _ (18 :: le16 h ++ v) L eq_refl (fun b H => eq_trans (f_write 18 h v b 0 ltac:(lia)) ltac:(rewrite skipn_all2 by lia; rewrite app_nil_r; reflexivity)))) by reflexivity;
    exact (after_one p c (OWrite h v) _ _ _ rsp P A)]]; [|reflexivity].
  split; [|split; reflexivity]. cbn [ctx]. apply build_len; [cbn [length]; rewrite app_length, le16_length; lia|exact L].
Qed.
Lemma command_at : forall p c h v inc, p (clog c ++ [wire (OWriteCmd h v)]) = Some inc ->
  (3 + length v <= length (ctx c))%nat -> Z.of_nat (length v) <= cmtu c - 3 ->
  exists c', same_cli c c' /\ clog c' = clog c ++ [wire (OWriteCmd h v)] /\ write_command p c h v = Ret (c', COk tt).
Proof.
  intros p c h v inc P L M. unfold write_command. replace (Z.of_nat (length v) >? cmtu c - 3) with false by lia.
  rewrite (build_ok _ _ _ (82 :: le16 h ++ v) L eq_refl (fun b H => eq_trans (f_write 82 h v b 0 ltac:(lia)) ltac:(rewrite skipn_all2 by lia; rewrite app_nil_r; reflexivity))).
  cbn [gbind]. unfold send_cmd. change (wire (OWriteCmd h v)) with (82 :: le16 h ++ v) in P. rewrite P. eexists. split; [|split; [|reflexivity]]; [|reflexivity].
  split; [|split; reflexivity]. cbn [ctx]. apply build_len; [cbn [length]; rewrite app_length, le16_length; lia|exact L].
Qed.
