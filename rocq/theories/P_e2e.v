Require Import Verif.Base Verif.M_uuid Verif.M_attdb Verif.S_attdb Verif.P_attdb Verif.M_attsrv Verif.S_attsrv Verif.P_attsrv Verif.P_attsrv2 Verif.P_attsrv3 Verif.P_attsrv4 Verif.P_attsrv5 Verif.P_attsrv7.
Require Import Verif.M_attcli Verif.S_attcli Verif.M_gattcli Verif.S_gattcli Verif.S_e2e Verif.Props_attsrv.

Lemma byte_b_all : forall r, forallb byte_b r = true <-> all_bytes r.
Proof.
  intro r. unfold all_bytes. rewrite forallb_forall, Forall_forall. unfold byte_b, is_byte. split; intros H x I; specialize (H x I); lia.
Qed.
Lemma serve_reach : forall E d log s done, reach d s -> reach d (serve E s done log).
Proof.
  intros E d log. induction log as [|r t IH]; intros s done R; [exact R|]. cbn [serve]. apply IH.
  destruct (forallb byte_b r) eqn:B; [|exact R]. destruct (handle s (E (done ++ [r])) r) as [[[s' o] cs]|] eqn:H; [|exact R].
  eapply reach_step; [exact R|apply byte_b_all; exact B|exact H].
Qed.
Lemma srv_says : forall E s0 log o s' rsp cs, handle (serve E s0 [] log) (E (log ++ [wire o])) (wire o) = Ret (s', Some rsp, cs) ->
  answers_op o rsp = true -> says (srv_peer E s0) log o rsp.
Proof.
  intros E s0 log o s' rsp cs H A. exists [rsp]. split; [|split].
  - unfold srv_peer. rewrite rev_unit, rev_involutive, H. reflexivity.
  - cbn [before]. rewrite A. intros [].
  - cbn [find]. now rewrite A.
Qed.

(** ---- the table as a whole ---- *)
Lemma svcs_split : forall before sv after base, exists A C,
  svcs_attrs (before ++ sv :: after) base = A ++ svc_attrs sv (base + table_size before) (match after with [] => true | _ => false end) ++ C /\
  length A = length (table_types before) /\ (after = [] -> C = []).
Proof.
  induction before as [|b before IH]; intros sv after base.
  - exists [], (svcs_attrs after (base + Z.of_nat (length (svc_types sv)))). cbn [app svcs_attrs table_types flat_map length].
    unfold table_size. cbn. rewrite Z.add_0_r. split; [reflexivity|]. split; [reflexivity|]. intros ->. reflexivity.
  - destruct (IH sv after (base + Z.of_nat (length (svc_types b)))) as (A & C & E & L & N).
    exists (svc_attrs b base false ++ A), C. cbn [app svcs_attrs]. rewrite E, table_size_cons, <- app_assoc, Z.add_assoc.
    split; [destruct before; reflexivity|]. split; [|exact N]. rewrite app_length, svc_attrs_length, L. unfold table_types. cbn [flat_map]. rewrite app_length. reflexivity.
Qed.
Lemma filter_upper : forall st en l b, consecutive b l -> b + Z.of_nat (length l) - 1 <= en -> filter (in_range st en) l = filter (fun a => st <=? a_h a) l.
Proof.
  intros st en l b Cn H. apply filter_ext_in. intros a I. apply In_nth_error in I. destruct I as [i I]. pose proof (Cn i a I).
  assert (i < length l)%nat by (apply nth_error_Some; congruence). unfold in_range. replace (a_h a <=? en) with true by lia. apply andb_true_r.
Qed.
Lemma consecutive_app_r : forall a b base, consecutive base (a ++ b) -> consecutive (base + Z.of_nat (length a)) b.
Proof. intros a b base H i x X. specialize (H (length a + i)%nat x). rewrite nth_error_app2 in H by lia. replace (length a + i - length a)%nat with i in H by lia. specialize (H X). lia. Qed.
Lemma consecutive_app_l : forall a b base, consecutive base (a ++ b) -> consecutive base a.
Proof. intros a b base H i x X. apply H. rewrite nth_error_app1; [exact X|]. apply nth_error_Some. congruence. Qed.
Lemma between_mid : forall A B C base st en, consecutive base (A ++ B ++ C) -> base + Z.of_nat (length A) <= st ->
  (en = base + Z.of_nat (length A + length B) - 1 \/ C = [] /\ base + Z.of_nat (length A + length B) - 1 <= en) ->
  filter (in_range st en) (A ++ B ++ C) = filter (fun a => st <=? a_h a) B.
Proof.
  intros A B C base st en Cn S D. rewrite !filter_app. pose proof (consecutive_app_r _ _ _ Cn) as CB.
  rewrite (filter_none st en A base (consecutive_app_l _ _ _ Cn)) by (right; lia).
  rewrite (filter_upper st en B _ (consecutive_app_l _ _ _ CB)) by (destruct D as [->|[_ D]]; lia).
  assert (X : filter (in_range st en) C = []).
  { destruct D as [->|[-> _]]; [|reflexivity]. eapply filter_none; [exact (consecutive_app_r _ _ _ CB)|]. left. lia. }
  rewrite X, app_nil_r. reflexivity.
Qed.

(** ---- layout lemmas ---- *)
Lemma char_types_len : forall c, length (char_types c) = S (S (length (own_descs c))).
Proof. intro c. unfold char_types. cbn [length]. now rewrite map_length. Qed.
Lemma svc_types_pos : forall s, (1 <= length (svc_types s))%nat.
Proof. intro s. unfold svc_types. cbn [length]. lia. Qed.
Lemma table_size_app : forall a b, table_size (a ++ b) = table_size a + table_size b.
Proof. intros. unfold table_size, table_types. rewrite flat_map_app, app_length. lia. Qed.
Lemma table_size_nonneg : forall a, 0 <= table_size a.
Proof. intros. unfold table_size. lia. Qed.
Lemma lay_app : forall before sv after h, exists l, lay (before ++ sv :: after) h = l ++ lay (sv :: after) (h + table_size before) /\
  Forall (fun s => ds_h s < h + table_size before) l.
Proof.
  induction before as [|b before IH]; intros sv after h.
  - exists []. split; [unfold table_size; cbn [app table_types flat_map length]; now rewrite Z.add_0_r|constructor].
  - destruct (IH sv after (h + Z.of_nat (length (svc_types b)))) as (l & E & F). eexists (_ :: l). cbn [app lay]. rewrite E, table_size_cons, Z.add_assoc.
    split; [reflexivity|]. constructor; [cbn [ds_h]; pose proof (svc_types_pos b); pose proof (table_size_nonneg before); lia|exact F].
Qed.
Lemma lay_ge : forall ss h, Forall (fun s => h <= ds_h s) (lay ss h).
Proof.
  induction ss as [|s ss IH]; intro h; cbn [lay]; constructor; [cbn [ds_h]; lia|].
  eapply Forall_impl; [|apply IH]. cbv beta. intros a H. lia.
Qed.
Lemma filter_all_true : forall {A} (f : A -> bool) l, Forall (fun x => f x = true) l -> filter f l = l.
Proof. intros A f l H. induction H as [|x l H1 H2 IH]; [reflexivity|]. cbn [filter]. now rewrite H1, IH. Qed.
Lemma filter_all_false : forall {A} (f : A -> bool) l, Forall (fun x => f x = false) l -> filter f l = [].
Proof. intros A f l H. induction H as [|x l H1 H2 IH]; [reflexivity|]. cbn [filter]. now rewrite H1, IH. Qed.
Lemma lay_from : forall before sv after h, let st := h + table_size before in
  filter (fun s => st <=? ds_h s) (lay (before ++ sv :: after) h) = lay (sv :: after) st.
Proof.
  intros before sv after h st. destruct (lay_app before sv after h) as (l & E & F). rewrite E, filter_app. fold st in F |- *.
  rewrite (filter_all_false _ l) by (eapply Forall_impl; [|exact F]; cbv beta; intros; lia).
  apply filter_all_true. eapply Forall_impl; [|apply lay_ge]. cbv beta. intros a H. lia.
Qed.
Lemma lay_starts : forall ss h st, In st (map (fun s => ds_end s + 1) (lay ss h)) -> st <= 65535 ->
  exists before sv after, ss = before ++ sv :: after /\ st = h + table_size before.
Proof.
  induction ss as [|s ss IH]; intros h st I L; [destruct I|]. cbn [lay map ds_end] in I. destruct I as [I|I].
  - destruct ss as [|t ss]; [lia|]. exists [s], t, ss. split; [reflexivity|]. rewrite table_size_cons. unfold table_size. cbn [table_types flat_map length]. lia.
  - destruct (IH _ _ I L) as (before & sv & after & -> & ->). exists (s :: before), sv, after. split; [reflexivity|]. rewrite table_size_cons. lia.
Qed.
Lemma ranges_lay : forall ss h, service_ranges ss h = map (fun s => (ds_h s, ds_end s, ds_uuid s)) (lay ss h).
Proof. induction ss as [|s ss IH]; intro h; [reflexivity|]. cbn [service_ranges lay map ds_h ds_end ds_uuid]. rewrite IH. reflexivity. Qed.
Lemma flat_map_map : forall {A B C} (f : A -> B) (g : B -> list C) l, flat_map g (map f l) = flat_map (fun x => g (f x)) l.
Proof. intros. induction l as [|x l IH]; [reflexivity|]. cbn [map flat_map]. now rewrite IH. Qed.
Lemma svcs_from_lay : forall ss h, 0 <= h -> h + table_size ss <= 65535 -> svcs_from h (lay ss h).
Proof.
  induction ss as [|s ss IH]; intros h H0 H1; [exact I|]. cbn [lay svcs_from ds_h ds_end]. rewrite table_size_cons in H1.
  pose proof (svc_types_pos s). pose proof (table_size_nonneg ss). split; [destruct ss; lia|]. split; [destruct ss; lia|].
  destruct ss as [|t ss]; [exact I|]. replace (h + Z.of_nat (length (svc_types s)) - 1 + 1) with (h + Z.of_nat (length (svc_types s))) by lia. apply IH; lia.
Qed.
Lemma u8u8 : forall x, [u8 x; u8 (x / 256)] = le16 x.
Proof. reflexivity. Qed.

Lemma filter_comm : forall {A} (f g : A -> bool) l, filter f (filter g l) = filter g (filter f l).
Proof.
  intros A f g l. induction l as [|x l IH]; [reflexivity|]. cbn [filter]. destruct (f x) eqn:F, (g x) eqn:G; cbn [filter]; rewrite ?F, ?G; now rewrite ?IH.
Qed.
Lemma has_type_true : forall ty a, has_type ty a = true <-> a_typ a = ty.
Proof. intros ty a. unfold has_type. destruct (list_eq_dec Z.eq_dec (a_typ a) ty); split; intro H; congruence || discriminate. Qed.
Lemma has_type_false : forall ty a, a_typ a <> ty -> has_type ty a = false.
Proof. intros ty a H. destruct (has_type ty a) eqn:E; [|reflexivity]. apply has_type_true in E. contradiction. Qed.
Definition chr_rel (a : attr) (c : dchar) : Prop := a_h a = dc_h c /\ a_v a = Some ([dc_prop c] ++ le16 (dc_vh c) ++ dc_uuid c).
Lemma own_plain : forall c, plain_char c -> Forall (fun x => plain_uuid (d_uuid x)) (own_descs c).
Proof.
  intros c (_ & _ & D). unfold own_descs. apply Forall_app. split; [exact D|]. destruct (notifying c); [|constructor]. constructor; [|constructor].
  split; [left; reflexivity|]. cbn. intro X. discriminate X.
Qed.
Lemma typ_other : forall l t u, map a_typ l = t -> Forall (fun x => x <> u) t -> filter (has_type u) l = [].
Proof.
  intros l t u M F. apply filter_all_false. subst t. rewrite Forall_forall in *. intros a I. apply has_type_false, F, in_map, I.
Qed.
Definition decl_attr (c : char) (H : Z) : attr :=
  mkAttr H (H + Z.of_nat (length (char_types c)) - 1) u_char (Some ([u8 (c_prop c); u8 (H + 1); u8 ((H + 1) / 256)] ++ c_uuid c)) None None.
Lemma char_decl : forall c H, plain_char c -> filter (has_type u_char) (char_attrs c H) = [decl_attr c H].
Proof.
  intros c H PC. pose proof (char_attrs_types c H) as T. unfold char_types in T. unfold char_attrs in *. cbn [map a_typ] in T. injection T as T.
  cbn [filter]. rewrite (proj2 (has_type_true _ _)) by reflexivity. rewrite (has_type_false _ (mkAttr (H + 1) _ _ _ _ _)) by (cbn; exact (proj2 (proj1 PC))).
  rewrite (typ_other _ _ _ T); [reflexivity|]. pose proof (own_plain c PC) as O. rewrite Forall_forall in *. intros u I. apply in_map_iff in I. destruct I as (x & <- & I). exact (proj2 (O x I)).
Qed.
Lemma api_prop_byte : forall c, api_char c -> is_byte (c_prop c).
Proof. intros c H. unfold api_char in H. rewrite H. unfold deserved, is_byte. destruct (is_some (c_value c) || is_some (c_rh c)), (is_some (c_wh c)), (is_some (c_nh c)), (is_some (c_ih c)); lia. Qed.
Lemma chars_decls : forall st cs H, Forall plain_char cs ->
  Forall2 chr_rel (filter (has_type u_char) (filter (fun a => st <=? a_h a) (chars_attrs cs H))) (filter (fun c => st <=? dc_h c) (lay_chars cs H)).
Proof.
  intros st cs. induction cs as [|c cs IH]; intros H F; [constructor|]. apply Forall_cons_iff in F. destruct F as [F1 F2].
  cbn [chars_attrs lay_chars]. rewrite !filter_app. rewrite (filter_comm (has_type u_char)), char_decl by exact F1.
  specialize (IH (H + Z.of_nat (length (char_types c))) F2). rewrite char_types_len in IH. rewrite char_types_len.
  replace (H + Z.of_nat (S (S (length (own_descs c))))) with (H + 2 + Z.of_nat (length (own_descs c))) in * by lia.
  cbn [filter decl_attr a_h dc_h]. destruct (st <=? H); [|exact IH]. cbn [app]. constructor; [|exact IH].
  split; [reflexivity|]. cbn [a_v decl_attr dc_prop dc_vh dc_uuid le16 app]. pose proof (api_prop_byte c (proj1 (proj2 F1))) as B. unfold u8 at 1. rewrite Z.mod_small by exact B. reflexivity.
Qed.
Lemma take_prefix : forall {A} (f : A -> bool) l, exists t, l = take_while f l ++ t.
Proof. intros A f l. induction l as [|x l [t IH]]; [now exists []|]. cbn [take_while]. destruct (f x); [exists t; cbn [app]; congruence|now exists (x :: l)]. Qed.
Lemma take_all : forall {A} (f : A -> bool) l, Forall (fun x => f x = true) (take_while f l).
Proof. intros A f l. induction l as [|x l IH]; [constructor|]. cbn [take_while]. destruct (f x) eqn:E; [constructor; auto|constructor]. Qed.
Lemma Forall_firstn : forall {A} (Q : A -> Prop) n l, Forall Q l -> Forall Q (firstn n l).
Proof. intros A Q n. induction n as [|n IH]; intros l F; [constructor|]. destruct F; [constructor|]. cbn [firstn]. constructor; auto. Qed.
Lemma batch_run : forall {A} (f : A -> bool) n x l, (1 <= n)%nat -> exists now later, x :: l = now ++ later /\ now <> [] /\ now = firstn n (x :: take_while f l).
Proof.
  intros A f n x l H. destruct (take_prefix f l) as [t T]. exists (firstn n (x :: take_while f l)), (skipn n (x :: take_while f l) ++ t).
  split; [rewrite app_assoc, firstn_skipn; cbn [app]; congruence|]. split; [|reflexivity]. destruct n; [lia|discriminate].
Qed.
Lemma Forall2_firstn : forall {A B} (Q : A -> B -> Prop) n l m, Forall2 Q l m -> Forall2 Q (firstn n l) (firstn n m).
Proof. intros A B Q n. induction n as [|n IH]; intros l m F; [constructor|]. destruct F; [constructor|]. cbn [firstn]. constructor; auto. Qed.
Lemma Forall2_take : forall {A B} (Q : A -> B -> Prop) f g l m, (forall a b, Q a b -> f a = g b) -> Forall2 Q l m -> Forall2 Q (take_while f l) (take_while g m).
Proof. intros A B Q f g l m H F. induction F as [|a b l m X F IH]; [constructor|]. cbn [take_while]. rewrite (H _ _ X). destruct (g b); [constructor; auto|constructor]. Qed.
Lemma Forall2_flat : forall {A B C} (Q : A -> B -> Prop) (f : A -> list C) g l m, (forall a b, Q a b -> f a = g b) -> Forall2 Q l m -> flat_map f l = flat_map g m.
Proof. intros A B C Q f g l m H F. induction F as [|a b l m X F IH]; [reflexivity|]. cbn [flat_map]. now rewrite (H _ _ X), IH. Qed.
Lemma Forall2_map_l : forall {A B C} (Q : C -> B -> Prop) (f : A -> C) l m, Forall2 (fun a b => Q (f a) b) l m -> Forall2 Q (map f l) m.
Proof. intros A B C Q f l m F. induction F; constructor; auto. Qed.
Lemma Forall2_weaken : forall {A B} (Q R : A -> B -> Prop) l m, (forall a b, Q a b -> R a b) -> Forall2 Q l m -> Forall2 R l m.
Proof. intros A B Q R l m H F. induction F; constructor; auto. Qed.

Lemma Forall2_filter : forall {A B} (Q : A -> B -> Prop) f g l m, (forall a b, Q a b -> f a = g b) -> Forall2 Q l m -> Forall2 Q (filter f l) (filter g m).
Proof. intros A B Q f g l m H F. induction F as [|a b l m X F IH]; [constructor|]. cbn [filter]. rewrite (H _ _ X). destruct (g b); [constructor; auto|exact IH]. Qed.
Lemma lay_chars_ge : forall cs H, Forall (fun c => H <= dc_h c /\ dc_vh c = dc_h c + 1) (lay_chars cs H).
Proof.
  induction cs as [|c cs IH]; intro H; cbn [lay_chars]; constructor; [cbn [dc_h dc_vh]; lia|].
  eapply Forall_impl; [|apply IH]. cbv beta. intros a X. lia.
Qed.
Lemma lay_chars_bound : forall cs H, Forall (fun c => dc_h c + 1 + Z.of_nat (length (dc_descs c)) < H + csize cs) (lay_chars cs H).
Proof.
  induction cs as [|c cs IH]; intro H; cbn [lay_chars]; constructor.
  - cbn [dc_h dc_descs]. rewrite csize_cons, char_types_len. assert (L : forall ds h, length (lay_descs ds h) = length ds) by (induction ds as [|x ds J]; intro h; [reflexivity|]; cbn [lay_descs length]; now rewrite J).
    rewrite L. unfold csize. lia.
  - eapply Forall_impl; [|apply IH]. cbv beta. intros a X. rewrite csize_cons, char_types_len. lia.
Qed.
Lemma lay_descs_len : forall ds h, length (lay_descs ds h) = length ds.
Proof. induction ds as [|x ds J]; intro h; [reflexivity|]. cbn [lay_descs length]. now rewrite J. Qed.
Lemma chars_from_lay : forall cs H e, H + csize cs - 1 <= e -> chars_from H e (lay_chars cs H).
Proof.
  induction cs as [|c cs IH]; intros H e L; [exact I|]. rewrite csize_cons, char_types_len in L. cbn [lay_chars chars_from dc_h dc_vh]. assert (0 <= csize cs) by (unfold csize; lia).
  split; [lia|]. split; [lia|]. assert (X : chars_from (H + 2 + Z.of_nat (length (own_descs c))) e (lay_chars cs (H + 2 + Z.of_nat (length (own_descs c))))) by (apply IH; lia).
  destruct cs as [|c2 cs]; [exact I|]. cbn [lay_chars chars_from dc_h dc_vh] in *. destruct X as (X1 & X2 & X3). split; [lia|]. split; [exact X2|exact X3].
Qed.
Lemma chars_from_weaken : forall l k k' e, chars_from k e l -> k' <= k -> chars_from k' e l.
Proof. intros [|c l] k k' e C L; [exact I|]. cbn [chars_from] in *. destruct C as (A & B & C). split; [lia|]. auto. Qed.
Lemma descs_from_lay : forall ds H e, H + Z.of_nat (length ds) - 1 <= e -> descs_from H e (lay_descs ds H).
Proof. induction ds as [|x ds IH]; intros H e L; [exact I|]. cbn [lay_descs descs_from dd_h length] in *. split; [lia|]. apply IH. lia. Qed.
Lemma lay_descs_ge : forall ds H, Forall (fun x => H <= dd_h x < H + Z.of_nat (length ds)) (lay_descs ds H).
Proof.
  induction ds as [|x ds IH]; intro H; cbn [lay_descs]; constructor; [cbn [dd_h length]; lia|].
  eapply Forall_impl; [|apply IH]. cbv beta. intros a X. cbn [length]. lia.
Qed.
Definition dsc_rel (a : attr) (x : ddesc) : Prop := a_h a = dd_h x /\ a_typ a = dd_uuid x.
Lemma descs_rel : forall ci ds H k, Forall2 dsc_rel (map (fun p => gen_desc ci (snd p) (H + Z.of_nat (fst p))) (combine (seq k (length ds)) ds)) (lay_descs ds (H + Z.of_nat k)).
Proof.
  intros ci ds H. induction ds as [|x ds IH]; intro k; [constructor|]. cbn [length seq combine map fst snd lay_descs]. constructor; [split; reflexivity|].
  replace (H + Z.of_nat k + 1) with (H + Z.of_nat (S k)) by lia. apply IH.
Qed.
Definition static_len (u : bytes) : nat := 3 + length u.
Lemma rbt_batch : forall s e mtu a al c L, (23 <= mtu)%nat -> Forall2 chr_rel (a :: al) (c :: L) -> Forall (fun x => uuid_size (dc_uuid x)) (c :: L) ->
  exists now later, c :: L = now ++ later /\ now <> [] /\ Forall (fun x => length (dc_uuid x) = length (dc_uuid c)) now /\
    fst (rbt_val s e a) = 0 /\
    read_by_type_spec mtu (a, snd (rbt_val s e a)) (map (rbt_opt s e) al) = [9; Z.of_nat (5 + length (dc_uuid c))] ++ flat_map chr_entry now.
Proof.
  intros s e mtu a al c L M F U. inversion F as [|a' c' al' L' (Ah & Av) F2]; subst. apply Forall_cons_iff in U. destruct U as [U1 U2].
  assert (RV : forall a c, chr_rel a c -> rbt_val s e a = (0, [dc_prop c] ++ le16 (dc_vh c) ++ dc_uuid c)) by (intros x y [_ V]; unfold rbt_val; now rewrite V).
  rewrite (RV a c) by (now split). cbn [fst snd].
  set (d := (5 + length (dc_uuid c))%nat).
  assert (DV : entry_len 2 mtu (length ([dc_prop c] ++ le16 (dc_vh c) ++ dc_uuid c)) = d) by (unfold entry_len, d; cbn [app le16 length]; unfold uuid_size in U1; lia).
  set (same := fun x : dchar => Nat.eqb (length (dc_uuid x)) (length (dc_uuid c))).
  assert (N1 : (1 <= (mtu - 2) / d)%nat) by (apply Nat.div_le_lower_bound; unfold d, uuid_size in *; lia).
  destruct (batch_run same ((mtu - 2) / d) c L N1) as (now & later & E1 & E2 & E3).
  exists now, later. split; [exact E1|]. split; [exact E2|]. split; [|split; [reflexivity|]].
  - subst now. apply Forall_firstn. constructor; [reflexivity|]. eapply Forall_impl; [|apply take_all]. cbv beta. unfold same. intros x X. now apply Nat.eqb_eq in X.
  - unfold read_by_type_spec. cbn [snd]. rewrite DV. cbn [app]. do 2 f_equal. rewrite E3. symmetry.
    set (get := fun x : attr * option bytes => (fst x, match snd x with Some v => v | None => [] end)).
    set (same' := fun x : attr * option bytes => match snd x with Some v => Nat.eqb (2 + length v) d | None => false end).
    set (rel := fun (x : attr * bytes) (y : dchar) => a_h (fst x) = dc_h y /\ snd x = [dc_prop y] ++ le16 (dc_vh y) ++ dc_uuid y /\ length (dc_uuid y) = length (dc_uuid c)).
    assert (G : Forall2 rel ((a, [dc_prop c] ++ le16 (dc_vh c) ++ dc_uuid c) :: map get (take_while same' (map (rbt_opt s e) al))) (c :: take_while same L)).
    { constructor; [now split|]. apply Forall2_map_l. set (rel2 := fun (x : attr * option bytes) y => a_h (fst x) = dc_h y /\ snd x = Some ([dc_prop y] ++ le16 (dc_vh y) ++ dc_uuid y)).
      assert (G2 : Forall2 rel2 (map (rbt_opt s e) al) L).
      { apply Forall2_map_l. eapply Forall2_weaken; [|exact F2]. cbv beta. intros x y X. unfold rel2, rbt_opt. rewrite (RV x y X). cbn [fst snd Z.eqb]. split; [exact (proj1 X)|reflexivity]. }
      clear - G2. induction G2 as [|x y l m (X1 & X2) G2 IH]; [constructor|]. cbn [take_while]. unfold same' at 1, same at 1. rewrite X2. cbn [app le16 length Nat.add Nat.eqb].
      unfold d at 1. cbn [Nat.add Nat.eqb]. destruct (Nat.eqb (length (dc_uuid y)) (length (dc_uuid c))) eqn:Q; [|constructor]. constructor; [|exact IH].
      unfold rel, get. cbn [fst snd]. rewrite X2. split; [exact X1|]. split; [reflexivity|now apply Nat.eqb_eq]. }
    apply (Forall2_firstn _ ((mtu - 2) / d)) in G. symmetry. eapply Forall2_flat; [|exact G]. intros x y (X1 & X2 & X3). unfold value_entry, chr_entry. rewrite X1, X2. f_equal.
    apply firstn_all2. unfold d. cbn [app le16 length]. lia.
Qed.
Lemma info_batch : forall mtu al L, (23 <= mtu)%nat -> Forall2 dsc_rel al L -> Forall (fun x => uuid_size (dd_uuid x)) L ->
  match find_info_spec mtu al with
  | None => L = []
  | Some rsp => exists now later n, L = now ++ later /\ now <> [] /\ Forall (fun x => length (dd_uuid x) = n) now /\ rsp = [5; if Nat.eqb n 16 then 2 else 1] ++ flat_map dsc_entry now
  end.
Proof.
  intros mtu al L M F U. destruct F as [|a x al L (X1 & X2) F]; [reflexivity|]. cbn [find_info_spec]. apply Forall_cons_iff in U. destruct U as [U1 U2].
  set (sz := length (a_typ a)). assert (SZ : sz = length (dd_uuid x)) by (unfold sz; now rewrite X2).
  set (same := fun y : ddesc => Nat.eqb (length (dd_uuid y)) sz).
  assert (N1 : (1 <= (mtu - 2) / (2 + sz))%nat) by (apply Nat.div_le_lower_bound; rewrite SZ; unfold uuid_size in *; lia).
  destruct (batch_run same ((mtu - 2) / (2 + sz)) x L N1) as (now & later & E1 & E2 & E3).
  exists now, later, sz. split; [exact E1|]. split; [exact E2|]. split.
  - subst now. apply Forall_firstn. constructor; [congruence|]. eapply Forall_impl; [|apply take_all]. cbv beta. unfold same. intros y Y. now apply Nat.eqb_eq in Y.
  - f_equal. rewrite E3. eapply (Forall2_flat dsc_rel).
    + intros b y (Y1 & Y2). unfold info_entry, dsc_entry. congruence.
    + apply Forall2_firstn. cbn [take_while]. unfold sz at 1. rewrite Nat.eqb_refl. constructor; [now split|]. eapply Forall2_take; [|exact F].
      intros b y (Y1 & Y2). unfold same. now rewrite Y2.
Qed.

Section Server.
Variables (ss : list service).
Hypothesis Hne : ss <> [].
Hypothesis Hpl : Forall plain_svc ss.
Hypothesis Hsz : 1 + table_size ss <= 65535.
Let d := snd (new_db ss 1).
Lemma tsize_pos : 0 < table_size ss.
Proof. destruct ss as [|s l]; [contradiction|]. rewrite table_size_cons. pose proof (svc_types_pos s). pose proof (table_size_nonneg l). lia. Qed.
Lemma dshape : d = mkDB (svcs_attrs ss 1) 1.
Proof. unfold d. now rewrite new_db_spec by lia. Qed.
Lemma Hoks : Forall oks ss.
Proof. eapply Forall_impl; [|exact Hpl]. intros s [A B]. split; [exact A|]. eapply Forall_impl; [|exact B]. intros c C. exact (proj1 (proj1 C)). Qed.
Lemma Hapi : Forall (fun x => Forall api_char (s_chars x)) ss.
Proof. eapply Forall_impl; [|exact Hpl]. intros s [A B]. eapply Forall_impl; [|exact B]. intros c C. exact (proj1 (proj2 C)). Qed.
Lemma table_good : wf_db d /\ table_ok d.
Proof. apply api_table_ok; [lia|lia|exact tsize_pos|exact Hapi]. Qed.

Variables (E : list bytes -> env) (s0 : srv).
Hypothesis R0 : reach d s0.
Let P := srv_peer E s0.
Lemma st_mtu : forall s, reach d s -> (23 <= txlen s)%nat.
Proof. intros s R. destruct table_good as [W T]. destruct (reach_sinv d s W T R) as (_ & M & _). exact M. Qed.

Lemma e2e_services : serves_services P (lay ss 1).
Proof.
  intros log st C L.
  assert (X : exists before sv after, ss = before ++ sv :: after /\ st = 1 + table_size before).
  { destruct C as [->|C]; [|exact (lay_starts ss 1 st C L)]. destruct ss as [|sv after]; [contradiction|]. exists [], sv, after. split; [reflexivity|]. reflexivity. }
  clear C. destruct X as (before & sv & after & EQ & ->).
  set (s := serve E s0 [] log). assert (R : reach d s) by (apply serve_reach; exact R0).
  set (e := E (log ++ [wire (OReadByGroup (1 + table_size before) 65535 (uuid16 0x2800))])).
  assert (MT := st_mtu s R). destruct table_good as [W T]. destruct (reach_sinv d s W T R) as (D & _ & _).
  unfold d in D. rewrite EQ in D. pose proof Hoks as OK. rewrite EQ in OK. pose proof Hsz as SZ. rewrite EQ in SZ.
  destruct (group_services s before sv after 65535 1 u_primary ltac:(lia) ltac:(lia) OK D MT (or_introl eq_refl)) as (H & K1 & K2); [cbn zeta; lia|].
  cbn zeta in H. set (k := Nat.min _ _) in *.
  eexists. split.
  - apply (srv_says E s0 log (OReadByGroup (1 + table_size before) 65535 (uuid16 0x2800)) s
      ([17; Z.of_nat (4 + length (s_uuid sv))] ++ flat_map range_entry (firstn k (service_ranges (sv :: after) (1 + table_size before)))) []); [|reflexivity].
    fold s. change (wire (OReadByGroup (1 + table_size before) 65535 (uuid16 10240))) with (req_range 16 (1 + table_size before) 65535 u_primary).
    unfold handle. unfold req_range at 1. cbn [app Z.eqb Pos.eqb]. rewrite H. reflexivity.
  - unfold group_answer. rewrite EQ, lay_from. right.
    exists (firstn k (lay (sv :: after) (1 + table_size before))), (skipn k (lay (sv :: after) (1 + table_size before))), (length (s_uuid sv)).
    split; [symmetry; apply firstn_skipn|]. split; [destruct k; [lia|]; cbn [lay firstn]; discriminate|]. split.
    + clear - K2. revert K2. generalize (1 + table_size before), (length (s_uuid sv)), (sv :: after). clear. intros h n l. revert h l. induction k as [|k IH]; intros h l F; [constructor|].
      destruct l as [|x l]; [constructor|]. cbn [lay firstn] in *. apply Forall_cons_iff in F. destruct F as [F1 F2]. constructor; [exact F1|]. apply IH. exact F2.
    + cbn [app]. rewrite ranges_lay, firstn_map, flat_map_map. reflexivity.
Qed.

Section Service.
Variables (before : list service) (sv : service) (after : list service).
Hypothesis Hss : ss = before ++ sv :: after.
Let h := 1 + table_size before.
Let en := match after with [] => 65535 | _ => h + Z.of_nat (length (svc_types sv)) - 1 end.
Lemma sv_plain : plain_svc sv.
Proof. rewrite Hss in Hpl. apply Forall_app in Hpl. destruct Hpl as [_ X]. now apply Forall_cons_iff in X. Qed.
Lemma sv_size : h + Z.of_nat (length (svc_types sv)) <= 65535 /\ 1 <= h.
Proof. pose proof Hsz as X. rewrite Hss, table_size_app, table_size_cons in X. pose proof (table_size_nonneg after). pose proof (table_size_nonneg before). unfold h. lia. Qed.
Lemma svc_len : Z.of_nat (length (svc_types sv)) = 1 + csize (s_chars sv).
Proof. unfold svc_types, csize. cbn [length]. lia. Qed.
Lemma mid : forall A B C st en', svcs_attrs ss 1 = A ++ B ++ C -> 1 + Z.of_nat (length A) <= st ->
  (en' = 1 + Z.of_nat (length A + length B) - 1 \/ C = [] /\ 1 + Z.of_nat (length A + length B) - 1 <= en') ->
  between d st en' = filter (fun a => st <=? a_h a) B.
Proof.
  intros A B C st en' X L D. unfold between. rewrite dshape. cbn [db_attrs]. rewrite X. apply (between_mid A B C 1); [|exact L|exact D].
  rewrite <- X. apply svcs_attrs_consecutive.
Qed.
Lemma e2e_chars : serves_chars P h en (lay_chars (s_chars sv) (h + 1)).
Proof.
  intros log st C L. pose proof sv_size as [SZ1 SZ2]. pose proof svc_len as SL.
  assert (HS : h <= st).
  { destruct C as [->|C]; [lia|]. apply in_map_iff in C. destruct C as (c & <- & I). pose proof (lay_chars_ge (s_chars sv) (h + 1)) as G. rewrite Forall_forall in G. specialize (G c I). cbv beta in G. lia. }
  assert (EN : en <= 65535) by (unfold en; destruct after; lia).
  destruct (svcs_split before sv after 1) as (A & CC & X & LA & LC). rewrite <- Hss in X.
  assert (BW : between d st en = filter (fun a => st <=? a_h a) (svc_attrs sv h (match after with [] => true | _ => false end))).
  { apply (mid A _ CC); [exact X|rewrite LA; unfold h, table_size in HS; lia|]. rewrite LA, svc_attrs_length. unfold en, h, table_size. destruct after; [right; split; [auto|]|left]; unfold h, table_size in *; lia. }
  pose proof sv_plain as [US PC].
  pose proof (chars_decls st (s_chars sv) (h + 1) PC) as REL.
  assert (FT : filter (has_type u_char) (between d st en) = filter (has_type u_char) (filter (fun a => st <=? a_h a) (chars_attrs (s_chars sv) (h + 1)))).
  { rewrite BW. unfold svc_attrs. cbn [filter a_h]. destruct (st <=? h); [|reflexivity]. cbn [filter]. rewrite (has_type_false _ (mkAttr h _ _ _ _ _)) by (cbn; intro Q; discriminate Q). reflexivity. }
  rewrite <- FT in REL.
  set (s := serve E s0 [] log). assert (R : reach d s) by (apply serve_reach; exact R0). assert (MT := st_mtu s R). destruct table_good as [W T].
  set (e := E (log ++ [wire (OReadByType st en (uuid16 0x2803))])).
  assert (OR : ok_range st en) by (unfold ok_range; lia).
  destruct (C16_read_by_type d s e st en u_char W T R OR (or_introl eq_refl)) as (cs & H).
  set (items := filter (fun c => st <=? dc_h c) (lay_chars (s_chars sv) (h + 1))) in *.
  assert (UI : Forall (fun x => uuid_size (dc_uuid x)) items).
  { unfold items. apply Forall_forall. intros x I. apply filter_In in I. destruct I as [I _]. clear - I PC. revert I. generalize (h + 1). induction (s_chars sv) as [|c l IH]; intros z I; [destruct I|].
    apply Forall_cons_iff in PC. destruct PC as [PC1 PC2]. cbn [lay_chars] in I. destruct I as [<-|I]; [exact (proj1 (proj1 PC1))|]. eapply IH; eauto. }
  destruct (filter (has_type u_char) (between d st en)) as [|a al] eqn:FE.
  - assert (Q : items = []) by (destruct items; [reflexivity|inversion REL]). eexists. split.
    + eapply srv_says; [fold s; exact H|reflexivity].
    + unfold type_answer. fold items. rewrite Q. left. split; [reflexivity|]. exists (u8 st), (u8 (st / 256)). reflexivity.
  - assert (NE : exists c L', items = c :: L') by (destruct items as [|c L']; [inversion REL|eauto]). destruct NE as (c & L' & NE). rewrite NE in REL, UI.
    destruct (rbt_batch s e (txlen s) a al c L' MT REL UI) as (now & later & E1 & E2 & E3 & E4 & E5). rewrite E4 in H. cbn [Z.eqb] in H. rewrite E5 in H.
    eexists. split.
    + eapply srv_says; [fold s; exact H|reflexivity].
    + unfold type_answer. fold items. rewrite NE. right. exists now, later, (length (dc_uuid c)). split; [|split; [exact E2|split; [exact E3|reflexivity]]]. exact E1.
Qed.
Lemma e2e_descs : forall cb c ca, s_chars sv = cb ++ c :: ca -> let H := h + 1 + csize cb in
  let e := char_end (lay_chars ca (H + 2 + Z.of_nat (length (own_descs c)))) en in
  serves_descs P (H + 2) e (lay_descs (own_descs c) (H + 2)) /\ H + 1 + Z.of_nat (length (own_descs c)) <= e <= 65535.
Proof.
  intros cb c ca CE H e. pose proof sv_size as [SZ1 SZ2]. pose proof svc_len as SL. rewrite CE in SL. unfold csize in SL. rewrite flat_map_app, app_length in SL. cbn [flat_map] in SL. rewrite app_length, char_types_len in SL.
  fold (csize cb) in SL. 
  assert (HE : Z.of_nat (length (svc_types sv)) = 1 + csize cb + 2 + Z.of_nat (length (own_descs c)) + csize ca) by (unfold csize; lia). clear SL.
  assert (C0 : 0 <= csize ca) by (unfold csize; lia). assert (C1 : 0 <= csize cb) by (unfold csize; lia).
  assert (EV : H + 1 + Z.of_nat (length (own_descs c)) <= e <= 65535).
  { unfold e, H, en. destruct ca as [|c2 ca]; cbn [lay_chars char_end dc_h]; [destruct after; lia|]. rewrite csize_cons, char_types_len in HE. unfold csize in HE |- *. destruct after; lia. }
  split; [|exact EV]. intros log st C L.
  assert (HS : H + 2 <= st).
  { destruct C as [->|C]; [lia|]. apply in_map_iff in C. destruct C as (x & <- & I). pose proof (lay_descs_ge (own_descs c) (H + 2)) as G. rewrite Forall_forall in G. specialize (G x I). cbv beta in G. lia. }
  destruct (svcs_split before sv after 1) as (A & CC & X & LA & LC). rewrite <- Hss in X. fold h in X.
  set (B := map (fun p => gen_desc (mkCI H (H + 1) (c_prop c) (c_nh c) (c_ih c)) (snd p) (H + 2 + Z.of_nat (fst p))) (combine (seq 0 (length (own_descs c))) (own_descs c))).
  assert (LB : length B = length (own_descs c)) by (unfold B; now rewrite map_length, combine_seq_length).
  unfold svc_attrs in X. rewrite CE, chars_attrs_app in X. cbn [chars_attrs] in X. unfold char_attrs in X. fold H in X. fold B in X.
  assert (BW : between d st e = filter (fun a => st <=? a_h a) B).
  { eapply (mid (A ++ _ :: chars_attrs cb (h + 1) ++ [_; _]) B (chars_attrs ca (H + Z.of_nat (length (char_types c))) ++ CC)).
    - rewrite X. repeat (rewrite <- ?app_assoc; cbn [app]). reflexivity.
    - rewrite app_length. cbn [length]. rewrite app_length. cbn [length]. rewrite LA. assert (Z.of_nat (length (chars_attrs cb (h + 1))) = csize cb) by (rewrite <- (map_length a_typ), chars_attrs_types; reflexivity).
      unfold h, table_size in *. lia.
    - rewrite app_length. cbn [length]. rewrite app_length. cbn [length]. rewrite LA, LB. assert (Z.of_nat (length (chars_attrs cb (h + 1))) = csize cb) by (rewrite <- (map_length a_typ), chars_attrs_types; reflexivity).
      unfold e, en. destruct ca as [|c2 ca]; cbn [lay_chars char_end dc_h chars_attrs app].
      + destruct after; [right; split; [auto|]; unfold H, h, table_size in *; lia|left]. change (csize []) with 0 in HE. unfold H, h, table_size in *. lia.
      + left. unfold H, h, table_size in *. lia. }
  pose proof sv_plain as [US PC]. rewrite CE in PC. apply Forall_app in PC. destruct PC as [_ PC]. apply Forall_cons_iff in PC. destruct PC as [PC _].
  assert (REL : Forall2 dsc_rel (between d st e) (filter (fun x => st <=? dd_h x) (lay_descs (own_descs c) (H + 2)))).
  { rewrite BW. apply Forall2_filter; [intros a x [Q _]; now rewrite Q|]. unfold B. pose proof (descs_rel (mkCI H (H + 1) (c_prop c) (c_nh c) (c_ih c)) (own_descs c) (H + 2) 0) as Q. rewrite Z.add_0_r in Q. exact Q. }
  set (items := filter (fun x => st <=? dd_h x) (lay_descs (own_descs c) (H + 2))) in *.
  assert (UI : Forall (fun x => uuid_size (dd_uuid x)) items).
  { unfold items. apply Forall_forall. intros x I. apply filter_In in I. destruct I as [I _]. pose proof (own_plain c PC) as O. clear - I O. revert I. generalize (H + 2). induction (own_descs c) as [|y l IH]; intros z I; [destruct I|].
    apply Forall_cons_iff in O. destruct O as [O1 O2]. cbn [lay_descs] in I. destruct I as [<-|I]; [exact (proj1 O1)|]. eapply IH; eauto. }
  set (s := serve E s0 [] log). assert (R : reach d s) by (apply serve_reach; exact R0). assert (MT := st_mtu s R). destruct table_good as [W T].
  set (ev := E (log ++ [wire (OFindInfo st e)])).
  assert (OR : ok_range st e) by (unfold ok_range; lia).
  assert (UA : Forall (fun a => uuid_size (a_typ a)) (db_attrs d)).
  { rewrite dshape. cbn [db_attrs]. apply Forall_forall. intros a I. assert (J : In (a_typ a) (table_types ss)) by (rewrite <- (svcs_attrs_types ss 1); now apply in_map). clear - J Hpl.
    unfold table_types in J. apply in_flat_map in J. destruct J as (x & J1 & J2). rewrite Forall_forall in Hpl. destruct (Hpl x J1) as [_ PC]. unfold svc_types in J2. destruct J2 as [<-|J2]; [now left|].
    apply in_flat_map in J2. destruct J2 as (c & K1 & K2). rewrite Forall_forall in PC. specialize (PC c K1). unfold char_types in K2. destruct K2 as [<-|[<-|K2]]; [now left|exact (proj1 (proj1 PC))|].
    apply in_map_iff in K2. destruct K2 as (y & <- & K2). pose proof (own_plain c PC) as O. rewrite Forall_forall in O. exact (proj1 (O y K2)). }
  pose proof (C15_find_information d s ev st e W T R OR UA) as HH. pose proof (info_batch (txlen s) _ _ MT REL UI) as IB.
  destruct (find_info_spec (txlen s) (between d st e)) as [rsp|].
  - destruct IB as (now & later & n & E1 & E2 & E3 & E4). exists rsp. split.
    + eapply srv_says; [fold s; exact HH|]. rewrite E4. reflexivity.
    + unfold info_answer. fold items. right. exists now, later, n. split; [exact E1|]. split; [exact E2|]. split; [exact E3|exact E4].
  - eexists. split.
    + eapply srv_says; [fold s; exact HH|reflexivity].
    + unfold info_answer. fold items. rewrite IB. left. split; [reflexivity|]. exists (u8 st), (u8 (st / 256)). reflexivity.
Qed.
Lemma e2e_all_descs : forall cs cb, s_chars sv = cb ++ cs -> serves_all_descs P en (lay_chars cs (h + 1 + csize cb)).
Proof.
  induction cs as [|c cs IH]; intros cb CE; [exact I|]. cbn [lay_chars serves_all_descs dc_vh dc_descs].
  destruct (e2e_descs cb c cs CE) as [D1 D2]. cbv zeta in D1, D2. pose proof sv_plain as [US PC]. rewrite CE in PC. apply Forall_app in PC. destruct PC as [_ PC]. apply Forall_cons_iff in PC. destruct PC as [PC _].
  pose proof sv_size as [SZ1 SZ2]. pose proof svc_len as SL. rewrite CE in SL. unfold csize in SL. rewrite flat_map_app, app_length in SL. cbn [flat_map] in SL. rewrite app_length, char_types_len in SL. fold (csize cb) in SL.
  assert (BD : h + 1 + csize cb + 2 + Z.of_nat (length (own_descs c)) <= 65535) by (unfold csize in *; lia).
  replace (h + 1 + csize cb + 1 + 1) with (h + 1 + csize cb + 2) by lia.
  split; [apply descs_from_lay; lia|]. split; [|split; [|split; [lia|split; [exact D1|]]]].
  - pose proof (own_plain c PC) as O. clear - O. generalize (h + 1 + csize cb + 2). induction O as [|y l O1 O2 J]; intro z; constructor; [exact (proj1 O1)|apply J].
  - eapply Forall_impl; [|apply lay_descs_ge]. cbv beta. intros x X. lia.
  - specialize (IH (cb ++ [c])). rewrite <- app_assoc in IH. specialize (IH CE). unfold csize in IH. rewrite flat_map_app, app_length in IH. cbn [flat_map] in IH. rewrite app_length, char_types_len in IH. cbn [length] in IH.
    replace (h + 1 + csize cb + 2 + Z.of_nat (length (own_descs c))) with (h + 1 + Z.of_nat (length (flat_map char_types cb) + (S (S (length (own_descs c))) + 0))) by (unfold csize; lia). exact IH.
Qed.
Lemma e2e_service : serves_service P (mkDS h en (s_uuid sv) (lay_chars (s_chars sv) (h + 1))).
Proof.
  pose proof sv_size as [SZ1 SZ2]. pose proof svc_len as SL. pose proof sv_plain as [US PC].
  assert (EN : h + csize (s_chars sv) <= en) by (unfold en; destruct after; lia).
  unfold serves_service. cbn [ds_uuid ds_h ds_end ds_chars]. split; [exact US|]. split; [|split; [|split; [|split; [exact e2e_chars|]]]].
  - eapply chars_from_weaken; [apply chars_from_lay|]; lia.
  - clear - PC. generalize (h + 1). induction PC as [|c l C1 C2 J]; intro z; constructor; [|apply J]. split; [exact (proj1 (proj1 C1))|apply api_prop_byte; exact (proj1 (proj2 C1))].
  - pose proof (lay_chars_ge (s_chars sv) (h + 1)) as G1. pose proof (lay_chars_bound (s_chars sv) (h + 1)) as G2. rewrite Forall_forall in *. intros x I. specialize (G1 x I). specialize (G2 x I). cbv beta in *. lia.
  - pose proof (e2e_all_descs (s_chars sv) [] eq_refl) as X. unfold csize in X. cbn [flat_map length] in X. rewrite Z.add_0_r in X. exact X.
Qed.
End Service.

Lemma e2e_serves : serves P (lay ss 1).
Proof.
  split; [apply svcs_from_lay; lia|]. split; [exact e2e_services|].
  assert (G : forall after before, ss = before ++ after -> Forall (serves_service P) (lay after (1 + table_size before))).
  { induction after as [|sv after IH]; intros before EQ; [constructor|]. cbn [lay]. constructor; [exact (e2e_service before sv after EQ)|].
    specialize (IH (before ++ [sv])). rewrite <- app_assoc in IH. specialize (IH EQ). rewrite table_size_app, table_size_cons in IH.
    replace (table_size []) with 0 in IH by reflexivity. replace (1 + table_size before + Z.of_nat (length (svc_types sv))) with (1 + (table_size before + (Z.of_nat (length (svc_types sv)) + 0))) by lia. exact IH. }
  specialize (G ss [] eq_refl). exact G.
Qed.
End Server.
