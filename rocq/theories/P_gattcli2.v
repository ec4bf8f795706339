(** Discovery of characteristics and descriptors, of whole profiles, long reads. *)
Require Import Verif.Base Verif.M_uuid Verif.M_attdb Verif.S_attsrv Verif.M_attcli Verif.S_attcli Verif.M_gattcli Verif.S_gattcli Verif.P_attcli Verif.P_attcli2 Verif.P_gattcli.

(** ---- characteristics ---- *)
Definition kept_chars (flt : option (list bytes)) (e : Z) (l : list dchar) : list gchar := filter (fun g => keep flt (gc_uuid g)) (found_chars e l).
Definition bare (c : dchar) (e : Z) : gchar := mkGC (dc_uuid c) (dc_prop c) (dc_h c) (dc_vh c) e [] None.
Lemma found_snoc : forall l c e, found_chars e (l ++ [c]) = found_chars (dc_h c - 1) l ++ [bare c e].
Proof. induction l as [|a l IH]; intros c e; cbn [app found_chars]; [reflexivity|]. rewrite IH. f_equal. destruct l; reflexivity. Qed.
Lemma kept_snoc : forall flt l c e, kept_chars flt e (l ++ [c]) = kept_chars flt (dc_h c - 1) l ++ (if keep flt (dc_uuid c) then [bare c e] else []).
Proof. intros flt l c e. unfold kept_chars. rewrite found_snoc, filter_app. reflexivity. Qed.
Definition last_idx (flt : option (list bytes)) (base : list gchar) (e : Z) (l : list dchar) : option nat :=
  match rev l with [] => None | a :: _ => if keep flt (dc_uuid a) then Some (length base + length (kept_chars flt e l) - 1)%nat else None end.
Lemma set_end_app : forall cs x i e, (match i with None => True | Some k => k < length cs end)%nat -> set_end (cs ++ x) i e = set_end cs i e ++ x.
Proof.
  intros cs x [k|] e H; [|reflexivity]. cbn [set_end]. rewrite nth_error_app1 by exact H. destruct (nth_error cs k) eqn:E; [|reflexivity].
  clear E. revert k H. induction cs as [|y cs IH]; intros k H; [cbn in H; lia|]. destruct k; cbn [upd app]; [reflexivity|]. rewrite IH; [reflexivity|cbn in H; lia].
Qed.
Lemma set_end_kept : forall flt base l e e', set_end (base ++ kept_chars flt e l) (last_idx flt base e l) e' = base ++ kept_chars flt e' l.
Proof.
  intros flt base l e e'. destruct l as [|a0 l0] eqn:EL; [reflexivity|]. assert (NE : l <> []) by (rewrite EL; discriminate). rewrite <- EL. clear EL a0 l0.
  destruct (exists_last NE) as (d & a & ->). unfold last_idx. rewrite rev_app_distr. cbn [rev app]. rewrite !kept_snoc. destruct (keep flt (dc_uuid a)).
  - rewrite !app_assoc. set (q := base ++ kept_chars flt (dc_h a - 1) d). rewrite !app_length. cbn [length].
    replace (length base + (length (kept_chars flt (dc_h a - 1) d) + 1) - 1)%nat with (length q) by (unfold q; rewrite app_length; lia).
    cbn [set_end]. rewrite nth_error_app2, Nat.sub_diag by lia. cbn [nth_error]. rewrite upd_app_r. reflexivity.
  - cbn [set_end]. reflexivity.
Qed.
Lemma last_idx_lt : forall flt base e l, match last_idx flt base e l with None => True | Some k => (k < length (base ++ kept_chars flt e l))%nat end.
Proof.
  intros flt base e l. destruct l as [|a0 l0] eqn:EL; [exact I|]. assert (NE : l <> []) by (rewrite EL; discriminate). rewrite <- EL. clear EL a0 l0.
  destruct (exists_last NE) as (d & a & ->). unfold last_idx. rewrite rev_app_distr. cbn [rev app]. rewrite kept_snoc. destruct (keep flt (dc_uuid a)); [|exact I].
  rewrite !app_length. cbn [length]. lia.
Qed.
Definition wf_chr (c : dchar) : Prop := 1 <= dc_h c < 65536 /\ 0 <= dc_vh c < 65536.
Definition next_chr (st : Z) (l : list dchar) : Z := fold_left (fun _ c => u16 (dc_vh c + 1)) l st.
Lemma chr_entry_len : forall s, length (chr_entry s) = (5 + length (dc_uuid s))%nat.
Proof. intro s. unfold chr_entry. rewrite !app_length, !le16_length. cbn [length]. lia. Qed.
Lemma chr_entries_ok : forall flt k e base l n st done, Forall wf_chr l -> Forall (fun s => length (dc_uuid s) = k) l -> (length l <= n)%nat ->
  chr_entries n flt (5 + k) (flat_map chr_entry l) e st (base ++ kept_chars flt e done) (last_idx flt base e done)
  = Ret (base ++ kept_chars flt e (done ++ l), next_chr st l, last_idx flt base e (done ++ l)).
Proof.
  intros flt k e base l. induction l as [|s l IH]; intros n st done W F L.
  - rewrite app_nil_r. destruct n; reflexivity.
  - apply Forall_cons_iff in W. destruct W as [[W1 W2] W]. apply Forall_cons_iff in F. destruct F as [F1 F]. destruct n as [|n]; [cbn in L; lia|]. cbn [length] in L.
    cbn [flat_map]. set (t := flat_map chr_entry l).
    assert (E : exists z zs, chr_entry s ++ t = z :: zs) by (unfold chr_entry; cbn; eauto). destruct E as (z & zs & E).
    cbn [chr_entries]. rewrite E. rewrite <- E. clear E z zs.
    assert (A0 : s16 (chr_entry s ++ t) 0 = Ret (dc_h s)) by (unfold chr_entry; rewrite <- !app_assoc; apply s16_0; lia).
    assert (A2 : gidx (chr_entry s ++ t) 2 = Ret (dc_prop s)) by reflexivity.
    assert (A3 : s16 (chr_entry s ++ t) 3 = Ret (dc_vh s)).
    { unfold chr_entry. rewrite <- !app_assoc. rewrite (app_assoc (le16 (dc_h s))). apply s16_at; [reflexivity|lia]. }
    assert (A4 : gslice (chr_entry s ++ t) 5 (5 + k) = Ret (dc_uuid s)).
    { unfold chr_entry. rewrite !app_assoc. rewrite <- (app_assoc _ (dc_uuid s)). apply gslice_mid; [reflexivity|lia]. }
    assert (A5 : gfrom (chr_entry s ++ t) (5 + k) = Ret t) by (apply gfrom_app; rewrite chr_entry_len; lia).
    rewrite A0, A2, A3, A4. cbn [gbind]. rewrite A5. cbn [gbind].
    replace (u16 (dc_h s - 1)) with (dc_h s - 1) by (unfold u16; rewrite Z.mod_small; lia).
    match goal with |- chr_entries _ _ _ _ _ _ (set_end ?x _ _) ?y = _ =>
      replace x with ((base ++ kept_chars flt e done) ++ (if keep flt (dc_uuid s) then [bare s e] else [])) by (unfold bare; destruct (keep flt (dc_uuid s)); [reflexivity|now rewrite app_nil_r]);
      replace y with (last_idx flt base e (done ++ [s]))
    end.
    2:{ unfold last_idx at 1. rewrite rev_app_distr. cbn [rev app]. destruct (keep flt (dc_uuid s)) eqn:K; [|reflexivity]. rewrite kept_snoc, K, !app_length. cbn [length]. f_equal.
        assert (Q : forall e1 e2, length (kept_chars flt e1 done) = length (kept_chars flt e2 done)).
        { clear. intros e1 e2. unfold kept_chars. revert e1 e2. induction done as [|a d IH]; intros e1 e2; [reflexivity|]. cbn [found_chars filter gc_uuid].
          destruct (keep flt (dc_uuid a)); cbn [length]; [f_equal|]; apply IH. }
        rewrite (Q e (dc_h s - 1)). lia. }
    rewrite set_end_app by apply last_idx_lt. rewrite set_end_kept. rewrite <- app_assoc, <- kept_snoc.
    rewrite IH by (try assumption; lia). rewrite <- app_assoc. reflexivity.
Qed.
Lemma chars_wf : forall l k e, 1 <= k -> e <= 65535 -> chars_from k e l -> Forall wf_chr l.
Proof. induction l as [|s l IH]; intros k e K E H; cbn in H; constructor; [unfold wf_chr; lia|]. apply (IH (dc_vh s + 1) e); [lia|lia|tauto]. Qed.
Lemma chars_ge : forall l k e s, chars_from k e l -> In s l -> k <= dc_h s.
Proof. induction l as [|x l IH]; intros k e s H I; [destruct I|]. cbn in H. destruct I as [->|I]; [lia|]. destruct H as (H1 & H2 & H3). specialize (IH _ _ _ H3 I). lia. Qed.
Lemma filter_all : forall A (f : A -> bool) l, (forall x, In x l -> f x = true) -> filter f l = l.
Proof. intros A f l. induction l as [|x l IH]; intro H; cbn [filter]; [reflexivity|]. rewrite (H x (or_introl eq_refl)). f_equal. apply IH. intros y Y. apply H. now right. Qed.
Lemma chars_split : forall a s b k e, chars_from k e (a ++ s :: b) -> filter (fun x => dc_vh s + 1 <=? dc_h x) (a ++ s :: b) = b.
Proof.
  induction a as [|x a IH]; intros s b k e H; cbn [app chars_from filter] in *.
  - replace (dc_vh s + 1 <=? dc_h s) with false by lia. apply filter_all. intros y Y. assert (Q := chars_ge _ _ _ _ (proj2 (proj2 H)) Y). lia.
  - destruct H as (H1 & H2 & H3). assert (Q := chars_ge _ _ _ s H3 ltac:(apply in_or_app; right; now left)).
    assert (E : dc_h s < dc_vh s).
    { clear - H3. revert H3. generalize (dc_vh x + 1). induction a as [|y a IH]; intros z H; cbn in H; [lia|]. apply (IH (dc_vh y + 1)). tauto. }
    replace (dc_vh s + 1 <=? dc_h x) with false by lia. apply (IH _ _ _ _ H3).
Qed.
Lemma chars_app_r : forall a b k e, chars_from k e (a ++ b) -> a = [] /\ chars_from k e b \/ exists d s, a = d ++ [s] /\ chars_from (dc_vh s + 1) e b.
Proof.
  induction a as [|x a IH]; intros b k e H; [left; auto|right]. cbn [app chars_from] in H. destruct H as (_ & _ & H3). destruct (IH _ _ _ H3) as [[-> C]|(d & s & -> & C)].
  - exists [], x. auto.
  - exists (x :: d), s. auto.
Qed.
Lemma next_chr_last : forall l s st, next_chr st (l ++ [s]) = u16 (dc_vh s + 1).
Proof. intros l s st. unfold next_chr. rewrite fold_left_app. reflexivity. Qed.
Lemma chr_loop_ok : forall p flt st0 e base l, 1 <= st0 -> e <= 65535 -> chars_from st0 e l -> Forall (fun c => uuid_size (dc_uuid c)) l -> Forall (fun c => dc_vh c < 65535) l -> serves_chars p st0 e l ->
  forall fuel done todo c st, l = done ++ todo -> (length todo < fuel)%nat -> usable c ->
  (done = [] /\ st = st0 \/ exists d s, done = d ++ [s] /\ st = dc_vh s + 1) ->
  exists c', same_cli c c' /\ chr_loop fuel p flt c e st (base ++ kept_chars flt e done) (last_idx flt base e done) = Ret (Some (c', base ++ kept_chars flt e l, COk tt)).
Proof.
  intros p flt st0 e base l S1 E1 CF US VH SV fuel. induction fuel as [|fuel IH]; intros done todo c st E L U ST; [lia|].
  cbn [chr_loop]. destruct (st <=? e) eqn:LE.
  2:{ assert (todo = []).
      { rewrite E in CF. destruct (chars_app_r _ _ _ _ CF) as [[-> C]|(d & s & -> & C)].
        - destruct ST as [[_ ->]|(d & s & D & _)]; [|destruct d; discriminate]. destruct todo; [reflexivity|]. cbn in C. lia.
        - destruct ST as [[D _]|(d' & s' & D & ->)]; [destruct d; discriminate|]. apply app_inj_tail in D. destruct D as [_ ->]. destruct todo; [reflexivity|]. cbn in C. lia. }
      subst todo. rewrite app_nil_r in E. subst done. exists c. split; [apply same_cli_refl|reflexivity]. }
  assert (FT : filter (fun x => st <=? dc_h x) l = todo).
  { destruct ST as [[-> ->]|(d & s & -> & ->)].
    - cbn [app] in E; subst l. apply filter_all. intros y Y. assert (Q := chars_ge _ _ _ _ CF Y). lia.
    - rewrite <- app_assoc in E. cbn [app] in E. rewrite E in CF |- *. now apply chars_split with st0 e. }
  assert (IN : st = st0 \/ In st (map (fun s => dc_vh s + 1) l)).
  { destruct ST as [[-> ->]|(d & s & -> & ->)]; [now left|right]. rewrite E. apply in_map_iff. exists s. split; [reflexivity|]. apply in_or_app. left. apply in_or_app. right. now left. }
  destruct (SV (clog c) st IN ltac:(lia)) as (rsp & SA & BA). assert (U' := U). unfold usable in U.
  destruct (ask_type p c st e _ rsp SA ltac:(lia) (or_introl eq_refl) ltac:(cbn; lia)) as (c' & SC & R).
  change u_char with (uuid16 0x2803). rewrite R. unfold type_answer, batch in BA. rewrite FT in BA.
  destruct BA as [[-> (h1 & h2 & ->)]|(now & later & n & -> & NE & SZ & ->)].
  { rewrite check_nf. cbn [gbind]. exists c'. split; [exact SC|]. rewrite app_nil_r in E. subst done. reflexivity. }
  assert (FL : Forall (fun x => length (chr_entry x) = (5 + n)%nat) now) by (eapply Forall_impl; [|exact SZ]; intros x X; rewrite chr_entry_len; cbn beta in X; lia).
  change (8 + 1) with 9. rewrite (check_list _ chr_entry 9 (5 + n) now) by (try assumption; lia). cbn [gbind]. rewrite Nat2Z.id.
  assert (WN : Forall wf_chr now).
  { assert (WL := chars_wf l st0 e S1 E1 CF). rewrite E in WL. apply Forall_app in WL. destruct WL as [_ WL]. apply Forall_app in WL. tauto. }
  rewrite chr_entries_ok by (try assumption; rewrite (flat_len _ _ _ _ FL); nia). cbn [gbind].
  destruct (exists_last NE) as (now' & s & ->). rewrite next_chr_last.
  assert (VS : dc_vh s < 65535).
  { rewrite E in VH. apply Forall_app in VH. destruct VH as [_ VH]. apply Forall_app in VH. destruct VH as [VH _]. apply Forall_app in VH. destruct VH as [_ VH]. now apply Forall_cons_iff in VH. }
  assert (VP : 0 <= dc_vh s) by (apply Forall_app in WN; destruct WN as [_ WN]; apply Forall_cons_iff in WN; unfold wf_chr in WN; lia).
  replace (u16 (dc_vh s + 1)) with (dc_vh s + 1) by (unfold u16; rewrite Z.mod_small; lia).
  destruct (IH (done ++ now' ++ [s]) later c' (dc_vh s + 1)) as (c2 & SC2 & R2).
  - rewrite E. now rewrite !app_assoc.
  - rewrite !app_length in L. cbn [length] in L. lia.
  - unfold usable. destruct SC as [-> _]. exact U.
  - right. exists (done ++ now'), s. split; [now rewrite app_assoc|reflexivity].
  - exists c2. split; [eapply same_cli_trans; eassumption|exact R2].
Qed.

(** ---- descriptors ---- *)
Definition kept_descs (flt : option (list bytes)) (l : list ddesc) : list gdesc := map found_desc (filter (fun d => keep flt (dd_uuid d)) l).
Lemma kept_descs_app : forall flt a b, kept_descs flt (a ++ b) = kept_descs flt a ++ kept_descs flt b.
Proof. intros flt a b. unfold kept_descs. rewrite filter_app. apply map_app. Qed.
Lemma last_cccd_app : forall a b acc, last_cccd (a ++ b) acc = last_cccd b (last_cccd a acc).
Proof. induction a as [|d a IH]; intros b acc; cbn [app last_cccd]; [reflexivity|apply IH]. Qed.
Definition next_dsc (st : Z) (l : list ddesc) : Z := fold_left (fun _ c => u16 (dd_h c + 1)) l st.
Lemma dsc_entry_len : forall s, length (dsc_entry s) = (2 + length (dd_uuid s))%nat.
Proof. intro s. unfold dsc_entry. rewrite !app_length, !le16_length. lia. Qed.
Lemma dsc_entries_ok : forall flt k l n st ds cc, Forall (fun d => 0 <= dd_h d < 65536) l -> Forall (fun s => length (dd_uuid s) = k) l -> (length l <= n)%nat ->
  dsc_entries n flt (2 + k) (flat_map dsc_entry l) st ds cc = Ret (ds ++ kept_descs flt l, next_dsc st l, last_cccd l cc).
Proof.
  intros flt k l. induction l as [|s l IH]; intros n st ds cc W F L.
  - unfold kept_descs. cbn [filter map]. rewrite app_nil_r. destruct n; reflexivity.
  - apply Forall_cons_iff in W. destruct W as [W1 W]. apply Forall_cons_iff in F. destruct F as [F1 F]. destruct n as [|n]; [cbn in L; lia|]. cbn [length] in L.
    cbn [flat_map]. set (t := flat_map dsc_entry l).
    assert (E : exists z zs, dsc_entry s ++ t = z :: zs) by (unfold dsc_entry; cbn; eauto). destruct E as (z & zs & E).
    cbn [dsc_entries]. rewrite E. rewrite <- E. clear E z zs.
    assert (A0 : s16 (dsc_entry s ++ t) 0 = Ret (dd_h s)) by (unfold dsc_entry; rewrite <- !app_assoc; now apply s16_0).
    assert (A4 : gslice (dsc_entry s ++ t) 2 (2 + k) = Ret (dd_uuid s)) by (unfold dsc_entry; rewrite <- app_assoc; apply gslice_mid; [reflexivity|lia]).
    assert (A5 : gfrom (dsc_entry s ++ t) (2 + k) = Ret t) by (apply gfrom_app; rewrite dsc_entry_len; lia).
    rewrite A0, A4. cbn [gbind]. rewrite A5. cbn [gbind]. rewrite IH by (try assumption; lia). f_equal. f_equal. f_equal.
    change (s :: l) with ([s] ++ l). rewrite kept_descs_app, app_assoc. f_equal. unfold kept_descs. cbn [filter map].
    destruct (keep flt (dd_uuid s)); [reflexivity|now rewrite app_nil_r].
Qed.
Lemma descs_ge : forall l k e s, descs_from k e l -> In s l -> k <= dd_h s <= e.
Proof. induction l as [|x l IH]; intros k e s H I; [destruct I|]. cbn in H. destruct I as [->|I]; [lia|]. destruct H as (H1 & H3). specialize (IH _ _ _ H3 I). lia. Qed.
Lemma descs_split : forall a s b k e, descs_from k e (a ++ s :: b) -> filter (fun x => dd_h s + 1 <=? dd_h x) (a ++ s :: b) = b.
Proof.
  induction a as [|x a IH]; intros s b k e H; cbn [app descs_from filter] in *.
  - replace (dd_h s + 1 <=? dd_h s) with false by lia. apply filter_all. intros y Y. assert (Q := descs_ge _ _ _ _ (proj2 H) Y). lia.
  - destruct H as (H1 & H3). assert (Q := descs_ge _ _ _ s H3 ltac:(apply in_or_app; right; now left)).
    replace (dd_h s + 1 <=? dd_h x) with false by lia. apply (IH _ _ _ _ H3).
Qed.
Lemma descs_app_r : forall a b k e, descs_from k e (a ++ b) -> a = [] /\ descs_from k e b \/ exists d s, a = d ++ [s] /\ descs_from (dd_h s + 1) e b.
Proof.
  induction a as [|x a IH]; intros b k e H; [left; auto|right]. cbn [app descs_from] in H. destruct H as (_ & H3). destruct (IH _ _ _ H3) as [[-> C]|(d & s & -> & C)].
  - exists [], x. auto.
  - exists (x :: d), s. auto.
Qed.
Lemma next_dsc_last : forall l s st, next_dsc st (l ++ [s]) = u16 (dd_h s + 1).
Proof. intros l s st. unfold next_dsc. rewrite fold_left_app. reflexivity. Qed.
Lemma check_info : forall l n, n = 2%nat \/ n = 16%nat -> l <> [] -> Forall (fun x => length (dsc_entry x) = (2 + n)%nat) l ->
  check ([5; if Nat.eqb n 16 then 2 else 1] ++ flat_map dsc_entry l) info_list = Ret (COk (if Nat.eqb n 16 then 2 else 1, flat_map dsc_entry l)).
Proof.
  intros l n N NE F. assert (E := flat_len _ _ _ _ F). assert (1 <= length l)%nat by (destruct l; [congruence|cbn; lia]).
  cbn [app]. set (f := if Nat.eqb n 16 then 2 else 1). rewrite (check_op _ _ _ 5 (f :: flat_map dsc_entry l)) by (auto; lia). unfold info_list.
  replace (Nat.ltb (length (5 :: f :: flat_map dsc_entry l)) 6) with false by (cbn [length]; symmetry; apply Nat.ltb_ge; rewrite E; nia).
  cbn [gidx nth_error gbind]. cbn [length]. replace (S (S (length (flat_map dsc_entry l))) - 2)%nat with (length (flat_map dsc_entry l)) by lia. rewrite E.
  assert (G : gfrom (5 :: f :: flat_map dsc_entry l) 2 = Ret (flat_map dsc_entry l)) by (rewrite gfrom_ok by (cbn [length]; lia); reflexivity). rewrite G. cbn [gbind].
  destruct N as [-> | ->]; unfold f; cbn [Nat.eqb Z.eqb Pos.eqb andb Nat.add]; rewrite (mult_mod _ _ (length l)) by lia; reflexivity.
Qed.
Lemma dsc_loop_ok : forall p flt st0 e base cc l, 1 <= st0 -> e <= 65535 -> descs_from st0 e l -> Forall desc_wf l -> Forall (fun c => dd_h c < 65535) l -> serves_descs p st0 e l ->
  forall fuel done todo c st, l = done ++ todo -> (length todo < fuel)%nat -> usable c ->
  (done = [] /\ st = st0 \/ exists d s, done = d ++ [s] /\ st = dd_h s + 1) ->
  exists c', same_cli c c' /\ dsc_loop fuel p flt c e st (base ++ kept_descs flt done) (last_cccd done cc) = Ret (Some (c', base ++ kept_descs flt l, last_cccd l cc, COk tt)).
Proof.
  intros p flt st0 e base cc l S1 E1 CF US VH SV fuel. induction fuel as [|fuel IH]; intros done todo c st E L U ST; [lia|].
  cbn [dsc_loop]. destruct (st <=? e) eqn:LE.
  2:{ assert (todo = []).
      { rewrite E in CF. destruct (descs_app_r _ _ _ _ CF) as [[-> C]|(d & s & -> & C)].
        - destruct ST as [[_ ->]|(d & s & D & _)]; [|destruct d; discriminate]. destruct todo; [reflexivity|]. cbn in C. lia.
        - destruct ST as [[D _]|(d' & s' & D & ->)]; [destruct d; discriminate|]. apply app_inj_tail in D. destruct D as [_ ->]. destruct todo; [reflexivity|]. cbn in C. lia. }
      subst todo. rewrite app_nil_r in E. subst done. exists c. split; [apply same_cli_refl|reflexivity]. }
  assert (FT : filter (fun x => st <=? dd_h x) l = todo).
  { destruct ST as [[-> ->]|(d & s & -> & ->)].
    - cbn [app] in E; subst l. apply filter_all. intros y Y. assert (Q := descs_ge _ _ _ _ CF Y). lia.
    - rewrite <- app_assoc in E. cbn [app] in E. rewrite E in CF |- *. now apply descs_split with st0 e. }
  assert (IN : st = st0 \/ In st (map (fun s => dd_h s + 1) l)).
  { destruct ST as [[-> ->]|(d & s & -> & ->)]; [now left|right]. rewrite E. apply in_map_iff. exists s. split; [reflexivity|]. apply in_or_app. left. apply in_or_app. right. now left. }
  assert (S0 : 1 <= st).
  { destruct ST as [[_ ->]|(d & s & -> & ->)]; [lia|]. rewrite E in CF. assert (Q := descs_ge _ _ _ s CF ltac:(apply in_or_app; left; apply in_or_app; right; now left)). lia. }
  destruct (SV (clog c) st IN ltac:(lia)) as (rsp & SA & BA). assert (U' := U). unfold usable in U.
  destruct (ask_info p c st e rsp SA ltac:(lia) ltac:(lia)) as (c' & SC & R).
  rewrite R. unfold info_answer, batch in BA. rewrite FT in BA.
  destruct BA as [[-> (h1 & h2 & ->)]|(now & later & n & -> & NE & SZ & ->)].
  { rewrite check_nf. cbn [gbind]. exists c'. split; [exact SC|]. rewrite app_nil_r in E. subst done. reflexivity. }
  assert (FL : Forall (fun x => length (dsc_entry x) = (2 + n)%nat) now) by (eapply Forall_impl; [|exact SZ]; intros x X; rewrite dsc_entry_len; cbn beta in X; lia).
  destruct (exists_last NE) as (now' & s & EN).
  assert (SIN : In s l) by (rewrite E, EN; apply in_or_app; right; apply in_or_app; left; apply in_or_app; right; now left).
  assert (N2 : n = 2%nat \/ n = 16%nat).
  { rewrite Forall_forall in US, SZ. specialize (US s SIN). unfold desc_wf, uuid_size in US. rewrite <- (SZ s) by (rewrite EN; apply in_or_app; right; now left). exact US. }
  change (4 + 1) with 5. rewrite (check_info now n N2 NE FL). cbn [gbind].
  replace (if (if Nat.eqb n 16 then 2 else 1) =? 2 then 18%nat else 4%nat) with (2 + n)%nat by (destruct N2 as [-> | ->]; reflexivity).
  assert (WN : Forall (fun d => 0 <= dd_h d < 65536) now).
  { rewrite Forall_forall. intros y Y. assert (Q := descs_ge _ _ _ y CF ltac:(rewrite E; apply in_or_app; right; apply in_or_app; left; exact Y)). lia. }
  rewrite dsc_entries_ok by (try assumption; rewrite (flat_len _ _ _ _ FL); nia). cbn [gbind].
  rewrite <- app_assoc, <- kept_descs_app, <- last_cccd_app. subst now. rewrite next_dsc_last.
  assert (VS : dd_h s < 65535) by (rewrite Forall_forall in VH; now apply VH).
  assert (VP := descs_ge _ _ _ s CF SIN).
  replace (u16 (dd_h s + 1)) with (dd_h s + 1) by (unfold u16; rewrite Z.mod_small; lia).
  destruct (IH (done ++ now' ++ [s]) later c' (dd_h s + 1)) as (c2 & SC2 & R2).
  - rewrite E. now rewrite !app_assoc.
  - rewrite !app_length in L. cbn [length] in L. lia.
  - unfold usable. destruct SC as [-> _]. exact U.
  - right. exists (done ++ now'), s. split; [now rewrite app_assoc|reflexivity].
  - exists c2. split; [eapply same_cli_trans; eassumption|exact R2].
Qed.

(** ---- profiles ---- *)
Lemma usable_same : forall c c', same_cli c c' -> usable c -> usable c'.
Proof. intros c c' (H & _) U. unfold usable in *. lia. Qed.
Lemma kept_none : forall e l, kept_chars None e l = found_chars e l.
Proof. intros e l. unfold kept_chars. apply filter_all. reflexivity. Qed.
Lemma kept_descs_none : forall l, kept_descs None l = map found_desc l.
Proof. intro l. unfold kept_descs. f_equal. apply filter_all. reflexivity. Qed.
Lemma char_end_le : forall l k e, chars_from k e l -> char_end l e <= e.
Proof. intros [|x l] k e H; cbn in *; lia. Qed.
Lemma profile_chars_ok : forall p e l fuel c k, 1 <= k -> e <= 65535 -> chars_from k e l -> serves_all_descs p e l -> (forall x, In x l -> (length (dc_descs x) < fuel)%nat) -> usable c ->
  exists c', same_cli c c' /\ profile_chars fuel p c (found_chars e l) = Ret (Some (c', full_chars e l, COk tt)).
Proof.
  intros p e l. induction l as [|x l IH]; intros fuel c k K E CF SD FU U.
  - exists c. split; [apply same_cli_refl|reflexivity].
  - cbn [chars_from] in CF. destruct CF as (C1 & C2 & C3). cbn [serves_all_descs] in SD. destruct SD as (D1 & D2 & D3 & D4 & D5 & D6).
    cbn [found_chars profile_chars]. unfold discover_descs. cbn [gc_endh gc_vh gc_descs gc_cccd gc_uuid gc_prop gc_h].
    replace (u16 (dc_vh x + 1)) with (dc_vh x + 1) by (unfold u16; rewrite Z.mod_small; lia).
    destruct (dsc_loop_ok p None (dc_vh x + 1) (char_end l e) [] None (dc_descs x) ltac:(lia) ltac:(assert (Q := char_end_le _ _ _ C3); lia) D1 D2 D3 D5 fuel [] (dc_descs x) c (dc_vh x + 1) eq_refl (FU x (or_introl eq_refl)) U (or_introl (conj eq_refl eq_refl))) as (c1 & SC1 & R1).
    cbn [app kept_descs last_cccd filter map] in R1. rewrite R1. cbn [gbind].
    destruct (IH fuel c1 (dc_vh x + 1) ltac:(lia) E C3 D6 (fun y Y => FU y (or_intror Y)) (usable_same _ _ SC1 U)) as (c2 & SC2 & R2). rewrite R2. cbn [gbind].
    exists c2. split; [eapply same_cli_trans; eassumption|]. cbn [full_chars]. now rewrite kept_descs_none.
Qed.
(** rounds that suffice *)
Definition fits (fuel : nat) (l : list dsvc) : Prop :=
  (length l < fuel)%nat /\ forall s, In s l -> (length (ds_chars s) < fuel)%nat /\ forall c, In c (ds_chars s) -> (length (dc_descs c) < fuel)%nat.
Lemma profile_svcs_ok : forall p l fuel c k, 1 <= k -> svcs_from k l -> Forall (serves_service p) l ->
  (forall s, In s l -> (length (ds_chars s) < fuel)%nat /\ forall c, In c (ds_chars s) -> (length (dc_descs c) < fuel)%nat) -> usable c ->
  exists c', same_cli c c' /\ profile_svcs fuel p c (map found_svc l) = Ret (Some (c', map full_svc l, COk tt)).
Proof.
  intros p l. induction l as [|s l IH]; intros fuel c k K SF SV FU U.
  - exists c. split; [apply same_cli_refl|reflexivity].
  - cbn [svcs_from] in SF. destruct SF as (C1 & C2 & C3). apply Forall_cons_iff in SV. destruct SV as [(S1 & S2 & S3 & S4 & S5 & S6) SV].
    cbn [map profile_svcs]. unfold discover_chars. cbn [found_svc gv_endh gv_h gv_chars gv_uuid].
    destruct (FU s (or_introl eq_refl)) as [F1 F2].
    destruct (chr_loop_ok p None (ds_h s) (ds_end s) [] (ds_chars s) ltac:(lia) C2 S2 ltac:(eapply Forall_impl; [|exact S3]; intros y Y; exact (proj1 Y)) S4 S5 fuel [] (ds_chars s) c (ds_h s) eq_refl F1 U (or_introl (conj eq_refl eq_refl))) as (c1 & SC1 & R1).
    change (chr_loop fuel p None c (ds_end s) (ds_h s) [] None = Ret (Some (c1, kept_chars None (ds_end s) (ds_chars s), COk tt))) in R1. rewrite R1. cbn [gbind]. rewrite kept_none.
    destruct (profile_chars_ok p (ds_end s) (ds_chars s) fuel c1 (ds_h s) ltac:(lia) C2 S2 S6 F2 (usable_same _ _ SC1 U)) as (c2 & SC2 & R2). rewrite R2. cbn [gbind].
    destruct (IH fuel c2 (ds_end s + 1) ltac:(lia) C3 SV (fun y Y => FU y (or_intror Y)) (usable_same _ _ SC2 (usable_same _ _ SC1 U))) as (c3 & SC3 & R3). rewrite R3. cbn [gbind].
    exists c3. split; [eapply same_cli_trans; [exact SC1|eapply same_cli_trans; eassumption]|]. reflexivity.
Qed.
