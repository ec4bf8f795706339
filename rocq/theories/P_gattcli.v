(** Discovery of services against a conforming peer. *)
Require Import Verif.Base Verif.M_uuid Verif.M_attdb Verif.S_attsrv Verif.M_attcli Verif.S_attcli Verif.M_gattcli Verif.S_gattcli Verif.P_attcli Verif.P_attcli2.

(** the client after a request, with everything that matters unchanged *)
Definition same_cli (c c' : cli) : Prop := length (ctx c') = length (ctx c) /\ cmtu c' = cmtu c /\ cserved c' = cserved c.
Lemma same_cli_refl : forall c, same_cli c c. Proof. intro c. split; [|split]; reflexivity. Qed.
Lemma same_cli_trans : forall a b c, same_cli a b -> same_cli b c -> same_cli a c.
Proof. intros a b c (A1 & A2 & A3) (B1 & B2 & B3). split; [|split]; congruence. Qed.
Lemma after_says : forall p c o tx' A (k : bytes -> go (cres A)) rsp, says p (clog c) o rsp -> length tx' = length (ctx c) ->
  exists c', same_cli c c' /\ after p c o (wire o) tx' k = let! x := k rsp in Ret (c', x).
Proof.
  intros p c o tx' A k rsp (inc & P & N & F) L. unfold after. rewrite P. destruct (before_cases o inc) as [B|B]; [|contradiction].
  rewrite F. eexists. split; [|reflexivity]. split; [exact L|split; reflexivity].
Qed.
Lemma build_len : forall (l : bytes) (tx : bytes) n, length l = n -> (n <= length tx)%nat -> length (l ++ skipn n tx) = length tx.
Proof. intros l tx n E L. rewrite app_length, skipn_length. lia. Qed.
Lemma ask_group : forall p c st en u rsp, says p (clog c) (OReadByGroup st en u) rsp -> st <= en -> uuid_size u -> (5 + length u <= length (ctx c))%nat ->
  exists c', same_cli c c' /\ read_by_group_type p c st en u = let! x := check rsp data_list in Ret (c', x).
Proof.
  intros p c st en u rsp S A U L. unfold read_by_group_type. rewrite (proj2 (orb_false_iff _ _)) by (unfold uuid_len_ok, uuid_size in *; lia).
  rewrite (transact_spec _ _ _ _ _ _ (OReadByGroup st en u) (le16 st ++ le16 en ++ u) _ (build_ok _ _ _ (16 :: le16 st ++ le16 en ++ u) L eq_refl (f_range_u 16 st en u))) by reflexivity.
  refine (after_says p c (OReadByGroup st en u) _ _ (fun r => check r _) rsp S _). now apply build_len.
Qed.
Lemma ask_type : forall p c st en u rsp, says p (clog c) (OReadByType st en u) rsp -> st <= en -> uuid_size u -> (5 + length u <= length (ctx c))%nat ->
  exists c', same_cli c c' /\ read_by_type p c st en u = let! x := check rsp data_list in Ret (c', x).
Proof.
  intros p c st en u rsp S A U L. unfold read_by_type. rewrite (proj2 (orb_false_iff _ _)) by (unfold uuid_len_ok, uuid_size in *; lia).
  rewrite (transact_spec _ _ _ _ _ _ (OReadByType st en u) (le16 st ++ le16 en ++ u) _ (build_ok _ _ _ (8 :: le16 st ++ le16 en ++ u) L eq_refl (f_range_u 8 st en u))) by reflexivity.
  refine (after_says p c (OReadByType st en u) _ _ (fun r => check r _) rsp S _). now apply build_len.
Qed.
Definition info_list (r : bytes) : go (cres (Z * bytes)) :=
  if Nat.ltb (length r) 6 then Ret CInvalid else
       let! f := gidx r 1 in
       if (f =? 1) && negb (Nat.eqb ((length r - 2) mod 4) 0) then Ret CInvalid
       else if (f =? 2) && negb (Nat.eqb ((length r - 2) mod 18) 0) then Ret CInvalid
       else let! d := gfrom r 2 in Ret (COk (f, d)).
Lemma ask_info : forall p c st en rsp, says p (clog c) (OFindInfo st en) rsp -> 1 <= st <= en -> (5 <= length (ctx c))%nat ->
  exists c', same_cli c c' /\ find_information p c st en = let! x := check rsp info_list in Ret (c', x).
Proof.
  intros p c st en rsp S A L. unfold find_information. rewrite (proj2 (orb_false_iff _ _)) by lia.
  rewrite (transact_spec _ _ _ _ _ _ (OFindInfo st en) (le16 st ++ le16 en) _ (build_ok _ 5 _ (4 :: le16 st ++ le16 en) L eq_refl (fun b H => eq_trans (f_range 4 st en b 0 H) ltac:(rewrite skipn_all2 by lia; rewrite app_nil_r; reflexivity)))) by reflexivity.
  refine (after_says p c (OFindInfo st en) _ _ (fun r => check r _) rsp S _). now apply build_len.
Qed.
Lemma ask_read : forall p c h rsp, says p (clog c) (ORead h) rsp -> (3 <= length (ctx c))%nat ->
  exists c', same_cli c c' /\ read p c h = let! x := check rsp (fun r => let! v := gfrom r 1 in Ret (COk v)) in Ret (c', x).
Proof.
  intros p c h rsp S L. unfold read. rewrite (transact_spec _ _ _ _ _ _ (ORead h) (le16 h) _ (build_ok _ 3 _ (10 :: le16 h) L eq_refl (f_mtu 10 h))) by reflexivity.
  refine (after_says p c (ORead h) _ _ (fun r => check r _) rsp S _). now apply build_len.
Qed.
Lemma ask_blob : forall p c h off rsp, says p (clog c) (OReadBlob h off) rsp -> (5 <= length (ctx c))%nat ->
  exists c', same_cli c c' /\ read_blob p c h off = let! x := check rsp (fun r => let! v := gfrom r 1 in Ret (COk v)) in Ret (c', x).
Proof.
  intros p c h off rsp S L. unfold read_blob.
  rewrite (transact_spec _ _ _ _ _ _ (OReadBlob h off) (le16 h ++ le16 off) _ (build_ok _ 5 _ (12 :: le16 h ++ le16 off) L eq_refl (fun b H => eq_trans (f_range 12 h off b 0 H) ltac:(rewrite skipn_all2 by lia; rewrite app_nil_r; reflexivity)))) by reflexivity.
  refine (after_says p c (OReadBlob h off) _ _ (fun r => check r _) rsp S _). now apply build_len.
Qed.
Lemma check_nf : forall A (ok : bytes -> go (cres A)) op h1 h2, check [1; op; h1; h2; 10] ok = Ret (CAtt 10).
Proof. reflexivity. Qed.
Lemma flat_len : forall A (enc : A -> bytes) k l, Forall (fun x => length (enc x) = k) l -> length (flat_map enc l) = (k * length l)%nat.
Proof. intros A enc k l F. induction F as [|x l H F IH]; cbn [flat_map length]; [lia|]. rewrite app_length, H, IH. lia. Qed.
Lemma check_list : forall A (enc : A -> bytes) op k l, op <> 1 -> (2 <= k)%nat -> l <> [] -> Forall (fun x => length (enc x) = k) l ->
  check ([op; Z.of_nat k] ++ flat_map enc l) data_list = Ret (COk (Z.of_nat k, flat_map enc l)).
Proof.
  intros A enc op k l O K N F. cbn [app]. rewrite (check_op _ _ _ op (Z.of_nat k :: flat_map enc l)) by (auto). unfold data_list.
  assert (E := flat_len _ _ _ _ F). assert (1 <= length l)%nat by (destruct l; [congruence|cbn; lia]).
  replace (Nat.ltb (length (op :: Z.of_nat k :: flat_map enc l)) 4) with false by (cbn [length]; symmetry; apply Nat.ltb_ge; rewrite E; nia).
  cbn [gidx nth_error gbind gfrom Nat.leb length skipn]. rewrite Nat2Z.id. unfold gmod. destruct k as [|k']; [lia|]. cbn [gbind].
  rewrite E. rewrite (mult_mod _ (S k') (length l)) by lia. reflexivity.
Qed.
Lemma s16_0 : forall x t, 0 <= x < 65536 -> s16 (le16 x ++ t) 0 = Ret x.
Proof. intros x t H. unfold s16. rewrite gslice_ok by (cbn [le16 app length]; lia). cbn [Nat.add Nat.sub skipn firstn app le16 gbind gle16]. now rewrite de16_le16. Qed.
Lemma s16_at : forall a x t n, length a = n -> 0 <= x < 65536 -> s16 (a ++ le16 x ++ t) n = Ret x.
Proof.
  intros a x t n <- H. unfold s16. rewrite gslice_ok by (rewrite ?app_length, ?le16_length; lia). rewrite skipn_app_exact. replace (length a + 2 - length a)%nat with 2%nat by lia.
  cbn [firstn app le16 gbind gle16]. now rewrite de16_le16.
Qed.
Lemma gslice_mid : forall {A} (a b c : list A) i j, length a = i -> (i + length b)%nat = j -> gslice (a ++ b ++ c) i j = Ret b.
Proof. intros A a b c i j <- <-. apply gslice_app. Qed.
Lemma gfrom_app : forall {A} (a b : list A) n, length a = n -> gfrom (a ++ b) n = Ret b.
Proof. intros A a b n <-. rewrite gfrom_ok by (rewrite app_length; lia). now rewrite skipn_app_exact. Qed.

(** ---- services ---- *)
Definition kept (flt : option (list bytes)) (s : dsvc) : list gsvc := if keep flt (ds_uuid s) then [found_svc s] else [].
Fixpoint walk (flt : option (list bytes)) (acc : list gsvc) (l : list dsvc) : list gsvc * bool :=
  match l with
  | [] => (acc, false)
  | s :: r => let acc' := acc ++ kept flt s in
              if (ds_end s =? 65535) || Nat.eqb (length acc') (flt_len flt) then (acc', true) else walk flt acc' r
  end.
Lemma walk_app : forall flt a b acc, walk flt acc (a ++ b) = if snd (walk flt acc a) then walk flt acc a else walk flt (fst (walk flt acc a)) b.
Proof. intros flt a. induction a as [|s a IH]; intros b acc; cbn [app walk]; [reflexivity|]. destruct (_ || _); [reflexivity|apply IH]. Qed.
Definition next_start (st : Z) (l : list dsvc) : Z := fold_left (fun _ s => u16 (ds_end s + 1)) l st.
Definition wf_svc (s : dsvc) : Prop := 0 <= ds_h s < 65536 /\ 0 <= ds_end s < 65536.
Lemma svc_entry_len : forall s, length (svc_entry s) = (4 + length (ds_uuid s))%nat.
Proof. intro s. unfold svc_entry. rewrite !app_length, !le16_length. lia. Qed.
Lemma svc_entries_ok : forall flt k l n st acc, Forall wf_svc l -> Forall (fun s => length (ds_uuid s) = k) l -> (length l <= n)%nat ->
  exists st', svc_entries n flt (4 + k) (flat_map svc_entry l) st acc = Ret (fst (walk flt acc l), st', snd (walk flt acc l)) /\ (snd (walk flt acc l) = false -> st' = next_start st l).
Proof.
  intros flt k l. induction l as [|s l IH]; intros n st acc W F L.
  - exists st. split; [|reflexivity]. destruct n; reflexivity.
  - apply Forall_cons_iff in W. destruct W as [[W1 W2] W]. apply Forall_cons_iff in F. destruct F as [F1 F]. destruct n as [|n]; [cbn in L; lia|]. cbn [length] in L.
    cbn [flat_map]. set (t := flat_map svc_entry l).
    assert (E : exists z zs, svc_entry s ++ t = z :: zs) by (unfold svc_entry; cbn; eauto). destruct E as (z & zs & E).
    cbn [svc_entries walk]. rewrite E. rewrite <- E. clear E z zs.
    assert (A0 : s16 (svc_entry s ++ t) 0 = Ret (ds_h s)) by (unfold svc_entry; rewrite <- !app_assoc; now apply s16_0).
    assert (A2 : s16 (svc_entry s ++ t) 2 = Ret (ds_end s)) by (unfold svc_entry; rewrite <- !app_assoc; now apply s16_at).
    assert (A4 : gslice (svc_entry s ++ t) 4 (4 + k) = Ret (ds_uuid s)).
    { unfold svc_entry. rewrite app_assoc. rewrite <- app_assoc. apply gslice_mid; [reflexivity|lia]. }
    assert (A5 : gfrom (svc_entry s ++ t) (4 + k) = Ret t) by (apply gfrom_app; rewrite svc_entry_len; lia).
    rewrite A0, A2, A4. cbn [gbind]. rewrite A5. cbn [gbind].
    replace (if keep flt (ds_uuid s) then acc ++ [mkGV (ds_uuid s) (ds_h s) (ds_end s) []] else acc) with (acc ++ kept flt s)
      by (unfold kept, found_svc; destruct (keep flt (ds_uuid s)); [reflexivity|apply app_nil_r]).
    destruct (ds_end s =? 65535); cbn [orb]; [exists st; split; [reflexivity|discriminate]|].
    destruct (Nat.eqb _ _); [exists st; split; [reflexivity|discriminate]|].
    destruct (IH n (u16 (ds_end s + 1)) (acc ++ kept flt s) W F ltac:(lia)) as (st' & I1 & I2). exists st'. split; [exact I1|exact I2].
Qed.
Lemma svcs_from_wf : forall l k, 0 <= k -> svcs_from k l -> Forall wf_svc l.
Proof. induction l as [|s l IH]; intros k K H; cbn in H; constructor; [unfold wf_svc; lia|]. apply (IH (ds_end s + 1)); [lia|tauto]. Qed.
Lemma svcs_from_app : forall a b k, svcs_from k (a ++ b) -> svcs_from k a /\ svcs_from (match rev a with [] => k | s :: _ => ds_end s + 1 end) b.
Proof.
  induction a as [|s a IH]; intros b k H; cbn [app svcs_from rev] in *; [auto|]. destruct H as (H1 & H2 & H3). destruct (IH _ _ H3) as [I1 I2]. split; [tauto|].
  destruct (rev a) as [|z zs]; cbn [app]; exact I2.
Qed.
Lemma svcs_ge : forall l k s, svcs_from k l -> In s l -> k <= ds_h s.
Proof. induction l as [|x l IH]; intros k s H I; [destruct I|]. cbn in H. destruct I as [->|I]; [lia|]. destruct H as (H1 & H2 & H3). specialize (IH _ _ H3 I). lia. Qed.
Lemma svcs_lt : forall l k s, svcs_from k l -> In s l -> forall m, (forall x, In x l -> ds_end x < m) -> ds_h s < m.
Proof. induction l as [|x l IH]; intros k s H I m M; [destruct I|]. cbn in H. destruct I as [->|I]; [specialize (M _ (or_introl eq_refl)); lia|]. destruct H as (H1 & H2 & H3). apply (IH _ _ H3 I). intros y Y. apply M. now right. Qed.
(** the services from the end of one of them on *)
Lemma svcs_split : forall a s b k, svcs_from k (a ++ s :: b) -> filter (fun x => ds_end s + 1 <=? ds_h x) (a ++ s :: b) = b.
Proof.
  induction a as [|x a IH]; intros s b k H; cbn [app svcs_from filter] in *.
  - replace (ds_end s + 1 <=? ds_h s) with false by lia. destruct H as (H1 & H2 & H3).
    clear k H1 H2. assert (G : forall y, In y b -> (ds_end s + 1 <=? ds_h y) = true) by (intros y Y; assert (Q := svcs_ge _ _ _ H3 Y); lia).
    clear H3. induction b as [|y b IH]; cbn [filter]; [reflexivity|]. rewrite (G y (or_introl eq_refl)). f_equal. apply IH. intros z Z. apply G. now right.
  - destruct H as (H1 & H2 & H3). assert (Q := svcs_ge _ _ s H3 ltac:(apply in_or_app; right; now left)). 
    assert (E : ds_h s <= ds_end s).
    { clear - H3. revert H3. generalize (ds_end x + 1). induction a as [|y a IH]; intros z H; cbn in H; [lia|]. apply (IH (ds_end y + 1)). tauto. }
    replace (ds_end s + 1 <=? ds_h x) with false by lia. apply (IH _ _ _ H3).
Qed.
Lemma svcs_all : forall l, svcs_from 1 l -> filter (fun x => 1 <=? ds_h x) l = l.
Proof.
  intros l H. assert (G : forall y, In y l -> (1 <=? ds_h y) = true) by (intros y Y; assert (Q := svcs_ge _ _ _ H Y); lia).
  clear H. induction l as [|y b IH]; cbn [filter]; [reflexivity|]. rewrite (G y (or_introl eq_refl)). f_equal. apply IH. intros z Z. apply G. now right.
Qed.
Lemma walk_last : forall flt l acc s, In s l -> ds_end s = 65535 -> snd (walk flt acc l) = true.
Proof.
  induction l as [|x l IH]; intros acc s I E; [destruct I|]. cbn [walk]. destruct (_ || _) eqn:Q; [reflexivity|]. destruct I as [->|I]; [rewrite E in Q; discriminate|]. now apply (IH _ s).
Qed.
Lemma next_start_last : forall l s st, next_start st (l ++ [s]) = u16 (ds_end s + 1).
Proof. intros l s st. unfold next_start. rewrite fold_left_app. reflexivity. Qed.
Lemma svc_loop_ok : forall p flt l, svcs_from 1 l -> Forall (fun s => uuid_size (ds_uuid s)) l -> serves_services p l ->
  forall fuel done todo c st acc, l = done ++ todo -> (length todo < fuel)%nat -> usable c ->
  (done = [] /\ st = 1 \/ exists d s, done = d ++ [s] /\ st = ds_end s + 1) -> st <= 65535 ->
  exists c', same_cli c c' /\ svc_loop fuel p flt c st acc = Ret (Some (c', fst (walk flt acc todo), COk tt)).
Proof.
  intros p flt l SF US SV fuel. induction fuel as [|fuel IH]; intros done todo c st acc E L U ST LE; [lia|].
  assert (FT : filter (fun x => st <=? ds_h x) l = todo).
  { destruct ST as [[-> ->]|(d & s & -> & ->)]; [cbn [app] in E; subst l; now apply svcs_all|]. rewrite <- app_assoc in E. cbn [app] in E. rewrite E in SF |- *. now apply svcs_split with 1. }
  assert (IN : st = 1 \/ In st (map (fun s => ds_end s + 1) l)).
  { destruct ST as [[-> ->]|(d & s & -> & ->)]; [now left|right]. rewrite E. apply in_map_iff. exists s. split; [reflexivity|]. apply in_or_app. left. apply in_or_app. right. now left. }
  destruct (SV (clog c) st IN LE) as (rsp & SA & BA). unfold usable in U.
  destruct (ask_group p c st 65535 _ rsp SA LE (or_introl eq_refl) ltac:(cbn; lia)) as (c' & SC & R).
  cbn [svc_loop]. change u_primary with (uuid16 0x2800). rewrite R. unfold group_answer, batch in BA. rewrite FT in BA.
  destruct BA as [[-> (h1 & h2 & ->)]|(now & later & n & -> & NE & SZ & ->)].
  { rewrite check_nf. cbn [gbind]. exists c'. split; [exact SC|reflexivity]. }
  assert (FL : Forall (fun x => length (svc_entry x) = (4 + n)%nat) now) by (eapply Forall_impl; [|exact SZ]; intros x X; rewrite svc_entry_len; cbn beta in X; lia).
  change (16 + 1) with 17. rewrite (check_list _ svc_entry 17 (4 + n) now) by (try assumption; lia). cbn [gbind]. rewrite Nat2Z.id.
  assert (WN : Forall wf_svc now).
  { assert (WL := svcs_from_wf l 1 ltac:(lia) SF). rewrite E in WL. apply Forall_app in WL. destruct WL as [_ WL]. apply Forall_app in WL. tauto. }
  destruct (svc_entries_ok flt n now (length (flat_map svc_entry now)) st acc WN SZ ltac:(rewrite (flat_len _ _ _ _ FL); nia)) as (st' & EN & ES).
  rewrite EN. cbn [gbind]. rewrite walk_app. destruct (snd (walk flt acc now)) eqn:SN.
  { exists c'. split; [exact SC|]. reflexivity. }
  destruct (exists_last NE) as (now' & s & ->).
  assert (SE : ds_end s < 65535).
  { assert (X : wf_svc s) by (apply Forall_app in WN; destruct WN as [_ WN]; apply Forall_cons_iff in WN; tauto). unfold wf_svc in X.
    destruct (Z.eq_dec (ds_end s) 65535) as [Y|Y]; [|lia]. rewrite (walk_last flt _ acc s) in SN; [discriminate| |exact Y]. apply in_or_app. right. now left. }
  assert (SP : 0 <= ds_end s) by (apply Forall_app in WN; destruct WN as [_ WN]; apply Forall_cons_iff in WN; unfold wf_svc in WN; lia).
  specialize (ES eq_refl). rewrite next_start_last in ES. unfold u16 in ES. rewrite Z.mod_small in ES by lia. subst st'.
  destruct (IH (done ++ now' ++ [s]) later c' (ds_end s + 1) (fst (walk flt acc (now' ++ [s])))) as (c2 & SC2 & R2).
  - rewrite E. now rewrite !app_assoc.
  - rewrite !app_length in L. cbn [length] in L. lia.
  - unfold usable. destruct SC as [-> _]. exact U.
  - right. exists (done ++ now'), s. split; [now rewrite app_assoc|reflexivity].
  - lia.
  - exists c2. split; [eapply same_cli_trans; eassumption|exact R2].
Qed.
(** the walk over all services *)
Lemma walk_all : forall l k acc, svcs_from k l -> fst (walk None acc l) = acc ++ map found_svc l.
Proof.
  induction l as [|s l IH]; intros k acc H; cbn [walk map svcs_from flt_len] in *; [now rewrite app_nil_r|].
  assert (K : kept None s = [found_svc s]) by reflexivity. rewrite K.
  replace (Nat.eqb (length (acc ++ [found_svc s])) 0) with false by (rewrite app_length; cbn; symmetry; apply Nat.eqb_neq; lia).
  destruct (ds_end s =? 65535) eqn:E; cbn [orb].
  - destruct l as [|x l]; [reflexivity|]. destruct H as (H1 & H2 & H3). cbn in H3. lia.
  - rewrite (IH (ds_end s + 1)) by tauto. rewrite <- app_assoc. reflexivity.
Qed.
Lemma walk_filter : forall f l k acc, svcs_from k l -> (length acc < length f \/ length acc = 0)%nat ->
  fst (walk (Some f) acc l) = firstn (Nat.max (length f) (length acc)) (acc ++ map found_svc (filter (fun s => contains (Some f) (ds_uuid s)) l)).
Proof.
  intros f l. induction l as [|s l IH]; intros k acc H L; cbn [walk map svcs_from filter flt_len] in *.
  - rewrite app_nil_r. rewrite firstn_all2 by lia. reflexivity.
  - destruct H as (H1 & H2 & H3).
    assert (K : kept (Some f) s = map found_svc (filter (fun s => contains (Some f) (ds_uuid s)) [s])) by (unfold kept, keep; cbn [filter]; destruct (contains (Some f) (ds_uuid s)); reflexivity).
    assert (T : (if contains (Some f) (ds_uuid s) then s :: filter (fun s => contains (Some f) (ds_uuid s)) l else filter (fun s => contains (Some f) (ds_uuid s)) l)
       = filter (fun s => contains (Some f) (ds_uuid s)) [s] ++ filter (fun s => contains (Some f) (ds_uuid s)) l) by (cbn [filter]; destruct (contains (Some f) (ds_uuid s)); reflexivity).
    rewrite T, map_app, app_assoc, <- K. clear T.
    assert (F0 : length f = 0%nat -> kept (Some f) s = []) by (intro Z; destruct f; [reflexivity|discriminate]).
    assert (KL : (length (kept (Some f) s) <= 1)%nat) by (unfold kept; destruct (keep (Some f) (ds_uuid s)); cbn; lia).
    set (acc' := acc ++ kept (Some f) s) in *. assert (AL : length acc' = (length acc + length (kept (Some f) s))%nat) by (unfold acc'; now rewrite app_length).
    destruct (Nat.eqb (length acc') (length f)) eqn:Q; [rewrite orb_true_r|rewrite orb_false_r].
    + apply Nat.eqb_eq in Q. replace (Nat.max (length f) (length acc)) with (length acc') by lia. now rewrite firstn_app_exact.
    + apply Nat.eqb_neq in Q. destruct (ds_end s =? 65535) eqn:E.
      * destruct l as [|x l]; [|cbn in H3; lia]. cbn [filter map]. rewrite app_nil_r, firstn_all2; [reflexivity|].
        destruct (Nat.eq_dec (length f) 0) as [Z|Z]; [rewrite (F0 Z) in AL; cbn in AL|]; lia.
      * rewrite (IH (ds_end s + 1) acc') by (first [assumption|destruct (Nat.eq_dec (length f) 0) as [Z|Z]; [rewrite (F0 Z) in AL; cbn in AL; lia|lia]]).
        f_equal. destruct (Nat.eq_dec (length f) 0) as [Z|Z]; [rewrite (F0 Z) in AL; cbn in AL|]; lia.
Qed.
