(** Subscriptions between the two ends: invariant of all histories. *)
Require Import Verif.Base Verif.M_uuid Verif.M_attdb Verif.S_attdb Verif.P_attdb Verif.M_attsrv Verif.S_attsrv Verif.P_attsrv Verif.P_attsrv2 Verif.P_attsrv3 Verif.P_attsrv4 Verif.P_attsrv5 Verif.P_attsrv6 Verif.P_attsrv7 Verif.P_attsrv8.
Require Import Verif.M_attcli Verif.S_attcli Verif.M_gattcli Verif.S_gattcli Verif.S_e2e Verif.Props_attsrv Verif.P_attcli Verif.P_attcli2 Verif.P_gattcli Verif.P_gattcli2 Verif.P_gattcli3 Verif.P_e2e Verif.P_e2e2.

(** ---- serve over a longer log ---- *)
Lemma serve_app : forall E a b s done, serve E s done (a ++ b) = serve E (serve E s done a) (done ++ a) b.
Proof.
  intros E a. induction a as [|r a IH]; intros b s done; cbn [app serve]; [now rewrite app_nil_r|]. rewrite IH, <- app_assoc. reflexivity.
Qed.

Lemma rs_reach : forall d s, reach_supported d s -> reach d s.
Proof. intros d s H. induction H; [eapply reach_init; eassumption|eapply reach_step; eassumption]. Qed.

Section Sub.
Variable ss : list service.
Hypothesis Hne : ss <> [].
Hypothesis Hpl : Forall plain_svc ss.
Hypothesis Hsz : 1 + table_size ss <= 65535.
Let d := snd (new_db ss 1).
Let prof := profile_of ss.

(** PDUs that touch no configuration *)
Definition quiet (r : bytes) : Prop :=
  hd 0 r <> 22 /\ hd 0 r <> 24 /\ (hd 0 r = 18 \/ hd 0 r = 82 -> forall h v a, 0 <= h < 65536 -> r = req_handle (hd 0 r) h v -> attr_at d h = Some a -> ~ is_cccd (a_wh a)).
Lemma quiet_step : forall E s done r, reach_supported d s -> quiet r -> let s' := serve E s done [r] in reach_supported d s' /\ forall ci, config s' ci = config s ci.
Proof.
  intros E s done r R (Q1 & Q2 & Q3) s'. unfold s'. cbn [serve]. destruct (forallb byte_b r) eqn:B; [|split; [exact R|reflexivity]].
  destruct (handle s (E (done ++ [r])) r) as [[[s1 o] cs]|] eqn:H; [|split; [exact R|reflexivity]].
  destruct (table_good ss Hne Hpl Hsz) as [W T]. apply byte_b_all in B. split.
  - eapply rs_step; [exact R|exact B| |exact H]. split.
    + intros op h x y t a ci OP Hh E1 A WH. exfalso. assert (hd 0 r = op) by (rewrite E1; reflexivity). apply (Q3 ltac:(lia) h (x :: y :: t) a Hh); [congruence|exact A|now exists ci].
    + intros h t a Hh E1 A. exfalso. apply Q1. rewrite E1. reflexivity.
  - intro ci. apply (C22_others_leave_it d s _ r s1 o cs ci W T (rs_reach _ _ R) B H Q3). intro X. contradiction.
Qed.
Lemma quiet_log : forall E l s done, reach_supported d s -> Forall quiet l -> let s' := serve E s done l in reach_supported d s' /\ forall ci, config s' ci = config s ci.
Proof.
  intros E l. induction l as [|r l IH]; intros s done R F; [split; [exact R|reflexivity]|]. apply Forall_cons_iff in F. destruct F as [F1 F2]. cbn [serve].
  destruct (quiet_step E s done r R F1) as [R1 C1]. cbn [serve] in R1, C1. destruct (IH _ (done ++ [r]) R1 F2) as [R2 C2]. split; [exact R2|]. intro ci. now rewrite C2.
Qed.
Lemma quiet_other : forall r, ~ In (hd 0 r) [18; 82; 22; 24] -> quiet r.
Proof. intros r H. cbn [In] in H. split; [|split]; [lia..|]. intros [X|X]; exfalso; apply H; [now left|right; now left]. Qed.
Lemma quiet_reject : forall r, quiet (reject r).
Proof. intro r. apply quiet_other. cbn. lia. Qed.
Lemma quiet_rejects : forall l, Forall quiet (map reject l).
Proof. intro l. apply Forall_forall. intros x I. apply in_map_iff in I. destruct I as (y & <- & _). apply quiet_reject. Qed.

(** two reports with the same value handle have the same properties *)
Lemma decl_is : forall c fc, reported ss prof c fc -> attr_at d (gc_h fc) = Some (decl_attr c (gc_h fc)).
Proof.
  intros c fc (i & j & sv & fs & I & J & K & L). apply nth_error_split in I. destruct I as (before & after & EQ & <-). apply nth_error_split in J. destruct J as (cb & ca & CE & <-).
  unfold prof, profile_of in K. rewrite nth_error_map, EQ in K. destruct (lay_nth before sv after 1) as [en N]. rewrite N in K. cbn [option_map] in K. apply some_eq in K. subst fs.
  cbn [full_svc gv_chars ds_chars ds_end] in L. rewrite CE in L. destruct (lay_chars_nth cb c ca (1 + table_size before + 1) en) as [e M]. rewrite M in L. clear M N. apply some_eq in L. subst fc.
  cbn [gc_h]. set (H := 1 + table_size before + 1 + csize cb).
  pose proof (svcs_attrs_consecutive ss 1) as Cn. assert (DS : db_attrs d = svcs_attrs ss 1) by (unfold d; rewrite new_db_spec by lia; reflexivity).
  destruct (svcs_split before sv after 1) as (A & CC & X & LA & LC). rewrite <- EQ in X.
  unfold svc_attrs in X. rewrite CE, chars_attrs_app in X. cbn [chars_attrs] in X. unfold char_attrs in X. fold H in X.
  unfold attr_at. rewrite DS. rewrite X in Cn |- *. repeat (rewrite <- ?app_assoc in *; cbn [app] in * ).
  match type of Cn with consecutive 1 (A ++ ?x :: chars_attrs cb ?z ++ ?y :: ?r) =>
    assert (Q : A ++ x :: chars_attrs cb z ++ y :: r = (A ++ x :: chars_attrs cb z) ++ y :: r) by (repeat (rewrite <- ?app_assoc; cbn [app]); reflexivity) end.
  rewrite Q in Cn |- *. exact (find_mid _ _ _ _ Cn).
Qed.
Lemma same_prop : forall c fc c' fc', reported ss prof c fc -> reported ss prof c' fc' -> gc_vh fc = gc_vh fc' -> c_prop c = c_prop c'.
Proof.
  intros c fc c' fc' R R' V. destruct (where_is ss Hpl Hsz c fc R) as (_ & _ & _ & A & _ & PC & _). destruct (where_is ss Hpl Hsz c' fc' R') as (_ & _ & _ & A' & _ & PC' & _).
  assert (H : gc_h fc = gc_h fc') by lia. pose proof (decl_is c fc R) as D1. pose proof (decl_is c' fc' R') as D2. rewrite <- H in D2. rewrite D1 in D2. apply some_eq in D2. apply (f_equal a_v) in D2. unfold decl_attr in D2. cbn [a_v] in D2. apply some_eq in D2. apply (f_equal (hd 0)) in D2. cbn [app hd] in D2.
  assert (X : u8 (c_prop c) = u8 (c_prop c')) by exact D2. pose proof (api_prop_byte c (proj1 (proj2 PC))) as B1. pose proof (api_prop_byte c' (proj1 (proj2 PC'))) as B2. unfold is_byte, u8 in *.
  rewrite !Z.mod_small in X by lia. exact X.
Qed.
Lemma offers_prop : forall c, api_char c -> (offers c false <-> Z.testbit (c_prop c) 4 = true) /\ (offers c true <-> Z.testbit (c_prop c) 5 = true).
Proof.
  intros c H. unfold api_char in H. rewrite H. unfold offers, deserved. destruct (c_value c), (c_rh c), (c_wh c), (c_nh c), (c_ih c); cbn; split; split; intro X; (reflexivity || discriminate || congruence).
Qed.
Lemma offers_notifying : forall c ind, offers c ind -> notifying c = true.
Proof. intros c [] H; unfold offers in H; unfold notifying; destruct (c_nh c), (c_ih c); congruence || reflexivity. Qed.

(** ---- the client side of an operation ---- *)
Lemma run_op_log : forall p c o c' r, requests o -> typed o -> (forall h x v, o <> OPrepare h x v) -> run_op p c o = Ret (c', r) ->
  (match o with OMtu _ => True | _ => same_cli c c' end) /\ (clog c' = clog c \/ exists rej, clog c' = clog c ++ [wire o] ++ map reject rej).
Proof.
  intros p c o c' r RQ TY NP H.
  destruct (Nat.ltb (length (ctx c)) (length (wire o))) eqn:L; [apply Nat.ltb_lt in L|apply Nat.ltb_ge in L].
  { assert (D : args_ok c o \/ ~ args_ok c o).
    { destruct o; cbn [args_ok] in *; try contradiction; try (left; exact I); try lia. }
    destruct D as [A|A]; [rewrite run_op_short in H by assumption; discriminate|]. rewrite run_op_args in H by assumption. injection H as <- _. split; [destruct o; try exact I; apply same_cli_refl|now left]. }
  assert (D : args_ok c o \/ ~ args_ok c o).
  { destruct o; cbn [args_ok] in *; try contradiction; try (left; exact I); try lia. }
  destruct D as [A|A]; [|rewrite run_op_args in H by assumption; injection H as <- _; split; [destruct o; try exact I; apply same_cli_refl|now left]].
  rewrite run_op_spec in H by assumption. assert (AC : actual c o = wire o) by (destruct o; try reflexivity; exfalso; eapply NP; reflexivity). rewrite AC in H.
  assert (TL : length (wire o ++ skipn (length (wire o)) (ctx c)) = length (ctx c)) by (rewrite app_length, skipn_length; lia).
  assert (CL : clog (announced c o) = clog c) by (destruct o; reflexivity).
  assert (G : forall x r', after p (announced c o) o (wire o) (wire o ++ skipn (length (wire o)) (ctx c)) (decode o) = Ret (x, r') ->
     (match o with OMtu _ => True | _ => same_cli c x end) /\ (clog x = clog c \/ exists rej, clog x = clog c ++ [wire o] ++ map reject rej)).
  { intros x r' G. unfold after in G. rewrite CL in G. destruct (p (clog c ++ [wire o])) as [inc|].
    - destruct (before_cases o inc); [|discriminate]. destruct (find (answers_op o) inc) as [rsp|].
      + destruct (decode o rsp) as [y|]; [|discriminate]. cbn [gbind] in G. injection G as <- _. split; [|right; eexists; reflexivity]. destruct o; try exact I; (split; [exact TL|split; reflexivity]).
      + injection G as <- _. split; [|right; eexists; reflexivity]. destruct o; try exact I; (split; [exact TL|split; reflexivity]).
    - injection G as <- _. split; [|now left]. destruct o; try exact I; (split; [exact TL|split; reflexivity]). }
  destruct o; try contradiction; cbn [finish] in H; try (eapply G; exact H).
  destruct (after _ _ _ _ _ _) as [[x r']|] eqn:AF; [|discriminate]. cbn [gbind] in H. destruct (G _ _ eq_refl) as [_ G2]. split; [exact I|].
  destruct r' as [[]| | | |]; try (injection H as <- _; exact G2). match type of H with (if ?b then _ else _) = _ => destruct b end; injection H as <- _; exact G2.
Qed.

Variable E : list bytes -> env.
Variable s0 : srv.
Variables rx tx : Z.
Hypothesis S0 : new_server d rx tx = Some s0.
Let P := srv_peer E s0.
Let now (c : cli) : srv := serve E s0 [] (clog c).

(** configuring a supported value succeeds *)
Lemma config_write_ok : forall s e c fc z v, reach_supported d s -> reported ss prof c fc -> notifying c = true -> gc_cccd fc = Some (mkGD u_cccd z) -> 0 <= v < 65536 -> supported (ci_at c (gc_h fc)) v ->
  exists s', handle s e (req_handle 18 z (le16 v)) = Ret (s', Some [19], []) /\ reach_supported d s' /\ forall ci, config s' ci = if ci_handle ci =? gc_h fc then v else config s ci.
Proof.
  intros s e c fc z v R RP N CD V SU. destruct (table_good ss Hne Hpl Hsz) as [W T]. destruct (where_is ss Hpl Hsz c fc RP) as (_ & _ & _ & _ & _ & PC & _ & Wh). destruct (Wh N) as (z' & CD' & Z & A).
  assert (z' = z) by congruence. subst z'. fold d in A. pose proof (reach_rsinv d s W R) as (D & RS & _).
  assert (VV : de16 (u8 v) (u8 (v / 256)) = v) by (apply (de16_le16 v); lia).
  assert (H : exists s' p, handle s e (req_handle 18 z (le16 v)) = Ret (s', Some p, []) /\ p = [19]).
  { destruct (C22_write d s e z _ (ci_at c (gc_h fc)) (u8 v) (u8 (v / 256)) [] W T (rs_reach _ _ R) ltac:(lia) A eq_refl) as (s' & p & H & _).
    exists s', p. change (le16 v) with [u8 v; u8 (v / 256)]. split; [exact H|].
    change (handle s e (req_handle 18 z [u8 v; u8 (v / 256)])) with (let! (s', p, cs) := h_write s e (req_handle 18 z [u8 v; u8 (v / 256)]) in Ret (s', Some p, cs)) in H.
    unfold h_write in H. change (Nat.ltb (length (req_handle 18 z [u8 v; u8 (v / 256)])) 3) with false in H. cbv iota in H. rewrite req_handle_h in H by lia. cbn [gbind] in H.
    subst d. rewrite <- D in A. rewrite attr_at_db in H by (rewrite D; exact W). cbn [gbind] in H. rewrite A, req_handle_rest in H. cbn [gbind] in H. unfold att_write in H. cbn [cccd_attr a_wh] in H.
    destruct (cccd_write s (ci_at c (gc_h fc)) [u8 v; u8 (v / 256)]) as [[s1 st]|] eqn:CW; [|discriminate]. cbn [gbind] in H.
    destruct (cccd_write_r _ _ _ _ _ _ _ RS ltac:(rewrite VV; exact SU) CW) as [_ ->]. cbn in H. congruence. }
  destruct H as (s' & p & H & ->). exists s'. split; [exact H|].
  destruct (C22_write d s e z _ (ci_at c (gc_h fc)) (u8 v) (u8 (v / 256)) [] W T (rs_reach _ _ R) ltac:(lia) A eq_refl) as (s2 & p & H2 & C1 & C2).
  change [u8 v; u8 (v / 256)] with (le16 v) in H2. rewrite H in H2. assert (s2 = s') by congruence. subst s2. assert (p = [19]) by congruence. subst p. split.
  - eapply rs_step; [exact R| | |exact H].
    + constructor; [split; lia|]. apply Forall_app. split; apply le16_bytes.
    + split; [|intros h t a Hh X; exfalso; unfold req_handle in X; discriminate X].
      intros op h x y t a ci OP Hh X AA WH. apply (f_equal (skipn 1)) in X. unfold req_handle in X. cbn [skipn app le16] in X. pose proof X as X1.
      assert (h = z). { rewrite <- (de16_le16 h Hh), <- (de16_le16 z ltac:(lia)). f_equal; congruence. } subst h. rewrite A in AA. apply some_eq in AA. subst a. cbn [cccd_attr a_wh] in WH.
      assert (ci = ci_at c (gc_h fc)) by congruence. subst ci. assert (X2 : de16 x y = v). { etransitivity; [|exact VV]. change (le16 v) with [u8 v; u8 (v / 256)] in X. f_equal; congruence. } rewrite X2. exact SU.
  - intro ci. destruct C1 as [[_ C1]|[C1 _]]; [|discriminate C1]. rewrite VV in C1. destruct (ci_handle ci =? gc_h fc) eqn:Q; [|apply C2; cbn [ci_at ci_handle]; lia].
    rewrite <- C1. unfold config. cbn [ci_at ci_handle]. replace (ci_handle ci) with (gc_h fc) by lia. reflexivity.
Qed.
Lemma now_next : forall c l, serve E s0 [] (clog c ++ l) = serve E (now c) (clog c) l.
Proof. intros c l. rewrite serve_app. reflexivity. Qed.
Lemma write_config : forall cl c fc z v, ready cl -> 23 <= cmtu cl -> reach_supported d (now cl) -> reported ss prof c fc -> notifying c = true -> gc_cccd fc = Some (mkGD u_cccd z) -> 0 <= v < 65536 -> supported (ci_at c (gc_h fc)) v ->
  exists cl', write P cl z (le16 v) = Ret (cl', COk tt) /\ same_cli cl cl' /\ reach_supported d (now cl') /\ forall ci, config (now cl') ci = if ci_handle ci =? gc_h fc then v else config (now cl) ci.
Proof.
  intros cl c fc z v [U RD] M R RP N CD V SU. destruct (config_write_ok (now cl) (E (clog cl ++ [wire (OWrite z (le16 v))])) c fc z v R RP N CD V SU) as (s' & H & R' & C').
  destruct (srv_answer E s0 (clog cl) (OWrite z (le16 v)) _ _ _ H) as [PA _]. destruct (write_at P cl z (le16 v) [19] PA eq_refl ltac:(rewrite le16_length; unfold usable in U; lia) ltac:(rewrite le16_length; lia)) as (cl' & SC & L & Q).
  exists cl'. split; [rewrite Q; reflexivity|]. split; [exact SC|]. assert (NW : now cl' = s').
  { unfold now at 1. rewrite L, now_next. cbn [serve]. change (wire (OWrite z (le16 v))) with (req_handle 18 z (le16 v)) in *.
    assert (B : forallb byte_b (req_handle 18 z (le16 v)) = true). { apply byte_b_all. constructor; [split; lia|]. apply Forall_app. split; apply le16_bytes. } rewrite B, H. reflexivity. }
  rewrite NW. split; [exact R'|exact C'].
Qed.

Definition inv (g : gcl) : Prop :=
  (ready (g_cli g) /\ 23 <= cmtu (g_cli g)) /\ reach_supported d (now (g_cli g)) /\ inv_a g /\
  (forall vh s, aget (g_subs g) vh = Some s -> exists c fc, reported ss prof c fc /\ gc_vh fc = vh /\ notifying c = true /\ gc_cccd fc = Some (mkGD u_cccd (sb_cccdh s)) /\ supported (ci_at c (gc_h fc)) (sb_ccc s)) /\
  (forall ci, config (now (g_cli g)) ci = match aget (g_subs g) (ci_handle ci + 1) with None => 0 | Some s => sb_ccc s end).
Lemma inv_same : forall g g' l, g_subs g' = g_subs g -> same_cli (g_cli g) (g_cli g') \/ ready (g_cli g') /\ 23 <= cmtu (g_cli g') -> clog (g_cli g') = clog (g_cli g) ++ l -> Forall (quiet) l -> inv g -> inv g'.
Proof.
  intros g g' l GS SC L F ((RD & M) & R & IA & EN & CF). destruct (quiet_log E l (now (g_cli g)) (clog (g_cli g)) R F) as [R' C'].
  assert (NW : now (g_cli g') = serve E (now (g_cli g)) (clog (g_cli g)) l) by (unfold now at 1; rewrite L; apply now_next).
  split; [|split; [rewrite NW; exact R'|split; [|split]]].
  - destruct SC as [(S1 & S2 & S3)|X]; [|exact X]. unfold ready, usable in *. rewrite S1, S2. exact (conj RD M).
  - intros vh s. rewrite GS. apply IA.
  - intros vh s. rewrite GS. apply EN.
  - intro ci. rewrite NW, C', GS. apply CF.
Qed.

Lemma inv_new : forall mtu, 23 <= mtu -> inv (new_gcl mtu).
Proof.
  intros mtu M. unfold inv, new_gcl. cbn [g_cli g_subs]. split; [|split; [|split; [|split]]].
  - unfold ready, usable, new_client. cbn [ctx cmtu]. rewrite repeat_length. lia.
  - cbn. eapply rs_init. exact S0.
  - intros vh s X. discriminate X.
  - intros vh s X. discriminate X.
  - intro ci. cbn. eapply C22_initially_zero. exact S0.
Qed.
(** writing to a characteristic value is quiet *)
Lemma quiet_value : forall op h v, op = 18 \/ op = 82 -> 0 <= h < 65536 -> value_handle ss h -> quiet (req_handle op h v).
Proof.
  intros op h v OP Hh (c & fc & RP & <-). destruct (where_is ss Hpl Hsz c fc RP) as (_ & _ & _ & _ & _ & _ & A & _). fold d in A. split; [|split]; [cbn; lia..|].
  intros _ h' v' a Hh' X AA (ci & WH). apply (f_equal (skipn 1)) in X. unfold req_handle in X. cbn [skipn app le16] in X.
  assert (Q : h' = gc_vh fc). { rewrite <- (de16_le16 h' Hh'), <- (de16_le16 (gc_vh fc) Hh). f_equal; congruence. } subst h'. rewrite A in AA. apply some_eq in AA. subst a. cbn [val_attr a_wh] in WH. destruct (c_wh c); discriminate WH.
Qed.
Lemma quiet_wire : forall o, plain_op ss o -> quiet (wire o).
Proof.
  intros o [TY PO]. destruct o; try contradiction; try (apply quiet_other; cbn; lia).
  - apply (quiet_value 18); [now left|exact (proj1 TY)|exact PO].
  - apply (quiet_value 82); [now right|exact (proj1 TY)|exact PO].
Qed.
Lemma mtu_ready : forall cl m cl' r, ready cl -> 23 <= cmtu cl -> reach_supported d (now cl) -> run_op P cl (OMtu m) = Ret (cl', r) -> ready cl' /\ 23 <= cmtu cl'.
Proof.
  intros cl m cl' r [U RD] M R H. destruct (table_good ss Hne Hpl Hsz) as [W T]. unfold usable in U.
  cbn [run_op] in H. unfold exchange_mtu in H. destruct ((m <? 23) || (m >? 515)) eqn:B; [cbn in H; injection H as <- _; unfold ready, usable; auto|].
  apply orb_false_iff in B. destruct B as [B1 B2].
  rewrite (transact_spec _ P (mkCli (ctx cl) (cmtu cl) m (clog cl)) _ _ _ (OMtu m) (le16 m) _ (build_ok (ctx cl) 3 _ (2 :: le16 m) ltac:(lia) eq_refl (f_mtu 2 m))) in H by reflexivity.
  destruct (reach_sinv d (now cl) W T (rs_reach _ _ R)) as (_ & MT & _).
  assert (HH : handle (now cl) (E (clog cl ++ [wire (OMtu m)])) (wire (OMtu m)) = Ret (set_mtu (now cl) (Z.to_nat m) 515, Some [3; 3; 2], [])).
  { change (wire (OMtu m)) with (2 :: le16 m). cbn [handle Z.eqb Pos.eqb]. unfold h_mtu. change (le16 m) with [u8 m; u8 (m / 256)]. cbn [length Nat.eqb negb].
    assert (Q : r16 [2; u8 m; u8 (m / 256)] 1 = Ret m) by (unfold r16, gslice; cbn; f_equal; apply (de16_le16 m); lia). rewrite Q. cbn [gbind]. replace (m <? 23) with false by lia.
    replace (Nat.ltb (txlen (now cl)) 3) with false by (symmetry; apply Nat.ltb_ge; lia). reflexivity. }
  destruct (srv_answer E s0 (clog cl) (OMtu m) _ _ _ HH) as [PA _].
  assert (TL : length ((2 :: le16 m) ++ skipn 3 (ctx cl)) = length (ctx cl)) by (rewrite app_length, skipn_length; cbn [length]; rewrite le16_length; lia).
  match type of H with context[after P ?x (OMtu m) ?rq ?t ?k] => set (t' := t) in *; assert (AO : after P x (OMtu m) rq t' k = let! y := k [3; 3; 2] in Ret (mkCli t' (cmtu cl) m (clog cl ++ [wire (OMtu m)]), y))
    by exact (after_one P x (OMtu m) t' _ k [3; 3; 2] PA eq_refl); rewrite AO in H end.
  match type of H with context[check [3; 3; 2] ?k] => assert (CK : check [3; 3; 2] k = Ret (COk 515)) by reflexivity; rewrite CK in H end. cbn [gbind ctx cserved clog] in H. fold t' in TL.
  rewrite TL in H. destruct (Z.of_nat (length (ctx cl)) =? 515) eqn:G; cbn [cmap gbind] in H; injection H as <- _; unfold ready, usable; cbn [ctx cmtu]; rewrite ?repeat_length; try lia. split; [split; [apply Nat.leb_le; vm_compute; reflexivity|vm_compute; reflexivity]|lia].
Qed.
Lemma inv_op : forall g o c' r, inv g -> plain_op ss o -> run_op P (g_cli g) o = Ret (c', r) -> inv (with_cli g c').
Proof.
  intros g o c' r I PO H. pose proof (quiet_wire o PO) as QW. destruct PO as [TY PO].
  assert (C : (exists h v, o = OWriteCmd h v) \/ requests o /\ (forall h x v, o <> OPrepare h x v)).
  { destruct o; try contradiction; try (right; split; [exact Logic.I|discriminate]). left. eexists _, _. reflexivity. }
  destruct C as [(h & v & ->)|[RQ NP]].
  - cbn [run_op] in H. unfold write_command in H. destruct (Z.of_nat (length v) >? _) eqn:L; [cbn in H; injection H as <- _; now apply (inv_same g _ []); [| left; apply same_cli_refl|rewrite app_nil_r| |]|].
    destruct I as ((RD & M) & I2). assert (LL : (3 + length v <= length (ctx (g_cli g)))%nat) by (destruct RD as [_ RD]; lia). assert (I : inv g) by exact (conj (conj RD M) I2).
    destruct (P (clog (g_cli g) ++ [wire (OWriteCmd h v)])) as [inc|] eqn:PA.
    + destruct (command_at P (g_cli g) h v inc PA LL ltac:(lia)) as (c2 & SC & LC & W). unfold write_command in W. rewrite L in W. rewrite W in H. cbn in H. injection H as <- _.
      apply (inv_same g _ [wire (OWriteCmd h v)]); [reflexivity|now left|exact LC|constructor; [exact QW|constructor]|exact I].
    + rewrite (build_ok _ _ _ (82 :: le16 h ++ v) LL) in H; [|cbn [length]; rewrite app_length, le16_length; lia|intros b Hb; rewrite (f_write 82 h v b 0) by lia; rewrite skipn_all2 by lia; now rewrite app_nil_r].
      cbn [gbind] in H. unfold P in PA. change (wire (OWriteCmd h v)) with (82 :: le16 h ++ v) in PA. unfold P in H. unfold send_cmd in H. rewrite PA in H. cbn in H. injection H as <- _.
      apply (inv_same g _ []); [reflexivity| |now rewrite app_nil_r|constructor|exact I]. left. split; [|split; reflexivity]. cbn [with_cli g_cli ctx].
      change (length ((82 :: le16 h ++ v) ++ skipn (3 + length v) (ctx (g_cli g))) = length (ctx (g_cli g))). apply build_len; [reflexivity|exact LL].
  - destruct (run_op_log P (g_cli g) o c' r RQ TY NP H) as [SC LG].
    assert (SC' : same_cli (g_cli g) (g_cli (with_cli g c')) \/ ready (g_cli (with_cli g c')) /\ 23 <= cmtu (g_cli (with_cli g c'))).
    { destruct o; try (left; exact SC). right. destruct I as ((RD & M) & R & _). eapply mtu_ready; eassumption. }
    destruct LG as [LG|(rej & LG)].
    + apply (inv_same g _ []); [reflexivity|exact SC'|rewrite app_nil_r; exact LG|constructor|exact I].
    + apply (inv_same g _ ([wire o] ++ map reject rej)); [reflexivity|exact SC'|exact LG|constructor; [exact QW|apply quiet_rejects]|exact I].
Qed.

(** ---- discovery ---- *)

Lemma transact_log : forall A p c n f (ok : bytes -> go (cres A)) o t c' r, length (op_code o :: t) = n -> (forall b, length b = n -> f b = Ret (op_code o :: t)) ->
  rsp_of_req (op_code o) = op_code o + 1 -> transact p c n f ok = Ret (c', r) ->
  same_cli c c' /\ (clog c' = clog c \/ exists rej, clog c' = clog c ++ [op_code o :: t] ++ map reject rej).
Proof.
  intros A p c n f ok o t c' r LN F RS H. destruct (Nat.ltb (length (ctx c)) n) eqn:L; [apply Nat.ltb_lt in L; rewrite transact_panic in H by exact L; discriminate|]. apply Nat.ltb_ge in L.
  rewrite (transact_spec _ _ _ _ _ _ o t _ (build_ok _ n _ _ L LN F) RS) in H.
  assert (TL : length ((op_code o :: t) ++ skipn n (ctx c)) = length (ctx c)) by (apply build_len; assumption).
  unfold after in H. destruct (p _) as [inc|].
  - destruct (before_cases o inc); [|discriminate]. destruct (find (answers_op o) inc) as [rsp|].
    + destruct (check rsp _) as [x|]; [|discriminate]. cbn [gbind] in H. injection H as <- _. split; [split; [exact TL|split; reflexivity]|]. right. eexists. reflexivity.
    + injection H as <- _. split; [split; [exact TL|split; reflexivity]|]. right. eexists. reflexivity.
  - injection H as <- _. split; [split; [exact TL|split; reflexivity]|]. now left.
Qed.
Lemma inv_asked : forall g c c' q t, inv (with_cli g c) -> ~ In q [18; 82; 22; 24] -> same_cli c c' -> (clog c' = clog c \/ exists rej, clog c' = clog c ++ [q :: t] ++ map reject rej) -> inv (with_cli g c').
Proof.
  intros g c c' q t I Q SC [L|(rej & L)].
  - apply (inv_same (with_cli g c) _ []); [reflexivity|now left|rewrite app_nil_r; exact L|constructor|exact I].
  - apply (inv_same (with_cli g c) _ ([q :: t] ++ map reject rej)); [reflexivity|now left|exact L| |exact I]. constructor; [|apply quiet_rejects]. apply quiet_other. exact Q.
Qed.
Ltac noq := cbn; lia.
Lemma group_step : forall g c st en u r c', inv (with_cli g c) -> read_by_group_type P c st en u = Ret (c', r) -> inv (with_cli g c').
Proof.
  intros g c st en u r c' I H. unfold read_by_group_type in H. destruct (_ || _); [injection H as <- _; exact I|].
  apply (transact_log _ _ _ _ _ _ (OReadByGroup st en u) (le16 st ++ le16 en ++ u)) in H; [|cbn [length]; rewrite !app_length, !le16_length; lia|intros b Hb; apply f_range_u; lia|reflexivity].
  destruct H as [SC L]. eapply inv_asked; [exact I| |exact SC|exact L]. noq.
Qed.
Lemma type_step : forall g c st en u r c', inv (with_cli g c) -> read_by_type P c st en u = Ret (c', r) -> inv (with_cli g c').
Proof.
  intros g c st en u r c' I H. unfold read_by_type in H. destruct (_ || _); [injection H as <- _; exact I|].
  apply (transact_log _ _ _ _ _ _ (OReadByType st en u) (le16 st ++ le16 en ++ u)) in H; [|cbn [length]; rewrite !app_length, !le16_length; lia|intros b Hb; apply f_range_u; lia|reflexivity].
  destruct H as [SC L]. eapply inv_asked; [exact I| |exact SC|exact L]. noq.
Qed.
Lemma info_step : forall g c st en r c', inv (with_cli g c) -> find_information P c st en = Ret (c', r) -> inv (with_cli g c').
Proof.
  intros g c st en r c' I H. unfold find_information in H. destruct (_ || _); [injection H as <- _; exact I|].
  apply (transact_log _ _ _ _ _ _ (OFindInfo st en) (le16 st ++ le16 en)) in H; [|cbn [length]; rewrite !app_length, !le16_length; lia| |reflexivity].
  - destruct H as [SC L]. eapply inv_asked; [exact I| |exact SC|exact L]. noq.
  - intros b Hb. rewrite (f_range 4 st en b 0) by lia. rewrite skipn_all2 by lia. now rewrite app_nil_r.
Qed.
Lemma svc_loop_inv : forall fuel flt g c st acc c' acc' r, inv (with_cli g c) -> svc_loop fuel P flt c st acc = Ret (Some (c', acc', r)) -> inv (with_cli g c').
Proof.
  induction fuel as [|fuel IH]; intros flt g c st acc c' acc' r I H; [discriminate|]. cbn [svc_loop] in H. destruct (read_by_group_type P c st 65535 u_primary) as [[c1 r1]|] eqn:G; [|discriminate]. cbn [gbind] in H.
  pose proof (group_step _ _ _ _ _ _ _ I G) as I1. destruct r1 as [[l b]|x| | |]; try (injection H as <- _ _; exact I1).
  - destruct (svc_entries _ _ _ _ _ _) as [[[acc1 st1] stop]|]; [|discriminate]. cbn [gbind] in H. destruct stop; [injection H as <- _ _; exact I1|]. eapply IH; [exact I1|exact H].
  - repeat match type of H with match ?q with _ => _ end = _ => destruct q end; injection H as <- _ _; exact I1.
Qed.
Lemma chr_loop_inv : forall fuel flt g c en st cs last c' cs' r, inv (with_cli g c) -> chr_loop fuel P flt c en st cs last = Ret (Some (c', cs', r)) -> inv (with_cli g c').
Proof.
  induction fuel as [|fuel IH]; intros flt g c en st cs last c' cs' r I H; [discriminate|]. cbn [chr_loop] in H. destruct (st <=? en); [|injection H as <- _ _; exact I].
  destruct (read_by_type P c st en u_char) as [[c1 r1]|] eqn:G; [|discriminate]. cbn [gbind] in H.
  pose proof (type_step _ _ _ _ _ _ _ I G) as I1. destruct r1 as [[l b]|x| | |]; try (injection H as <- _ _; exact I1).
  - destruct (chr_entries _ _ _ _ _ _ _ _) as [[[acc1 st1] stop]|]; [|discriminate]. cbn [gbind] in H. eapply IH; [exact I1|exact H].
  - repeat match type of H with match ?q with _ => _ end = _ => destruct q end; injection H as <- _ _; exact I1.
Qed.
Lemma dsc_loop_inv : forall fuel flt g c en st ds cd c' ds' cd' r, inv (with_cli g c) -> dsc_loop fuel P flt c en st ds cd = Ret (Some (c', ds', cd', r)) -> inv (with_cli g c').
Proof.
  induction fuel as [|fuel IH]; intros flt g c en st ds cd c' ds' cd' r I H; [discriminate|]. cbn [dsc_loop] in H. destruct (st <=? en); [|injection H as <- _ _ _; exact I].
  destruct (find_information P c st en) as [[c1 r1]|] eqn:G; [|discriminate]. cbn [gbind] in H.
  pose proof (info_step _ _ _ _ _ _ I G) as I1. destruct r1 as [[l b]|x| | |]; try (injection H as <- _ _ _; exact I1).
  - destruct (dsc_entries _ _ _ _ _ _ _) as [[[acc1 st1] stop]|]; [|discriminate]. cbn [gbind] in H. eapply IH; [exact I1|exact H].
  - repeat match type of H with match ?q with _ => _ end = _ => destruct q end; injection H as <- _ _ _; exact I1.
Qed.
Lemma descs_inv : forall fuel flt g c ch c' ch' r, inv (with_cli g c) -> discover_descs fuel P flt c ch = Ret (Some (c', ch', r)) -> inv (with_cli g c').
Proof.
  intros fuel flt g c ch c' ch' r I H. unfold discover_descs in H. destruct (dsc_loop _ _ _ _ _ _ _ _) as [[[[[c1 ds] cd] e]|]|] eqn:L; [|discriminate|discriminate]. cbn [gbind] in H. injection H as <- _ _.
  eapply dsc_loop_inv; eassumption.
Qed.
Lemma chars_inv : forall fuel flt g c s c' s' r, inv (with_cli g c) -> discover_chars fuel P flt c s = Ret (Some (c', s', r)) -> inv (with_cli g c').
Proof.
  intros fuel flt g c s c' s' r I H. unfold discover_chars in H. destruct (chr_loop _ _ _ _ _ _ _ _) as [[[[c1 ds] e]|]|] eqn:L; [|discriminate|discriminate]. cbn [gbind] in H. injection H as <- _ _.
  eapply chr_loop_inv; eassumption.
Qed.
Lemma profile_chars_inv : forall fuel g cs c c' cs' r, inv (with_cli g c) -> profile_chars fuel P c cs = Ret (Some (c', cs', r)) -> inv (with_cli g c').
Proof.
  intros fuel g cs. induction cs as [|ch cs IH]; intros c c' cs' r I H; cbn [profile_chars] in H; [injection H as <- _ _; exact I|].
  destruct (discover_descs _ _ _ _ _) as [[[[c1 ch1] e]|]|] eqn:L; [|discriminate|discriminate]. cbn [gbind] in H. pose proof (descs_inv _ _ _ _ _ _ _ _ I L) as I1.
  destruct e; try (injection H as <- _ _; exact I1). destruct (profile_chars fuel P c1 cs) as [[[[c2 r2] e2]|]|] eqn:L2; [|discriminate|discriminate]. cbn [gbind] in H. injection H as <- _ _. eapply IH; eassumption.
Qed.
Lemma profile_svcs_inv : forall fuel g l c c' l' r, inv (with_cli g c) -> profile_svcs fuel P c l = Ret (Some (c', l', r)) -> inv (with_cli g c').
Proof.
  intros fuel g l. induction l as [|s l IH]; intros c c' l' r I H; cbn [profile_svcs] in H; [injection H as <- _ _; exact I|].
  destruct (discover_chars _ _ _ _ _) as [[[[c1 s1] e]|]|] eqn:L; [|discriminate|discriminate]. cbn [gbind] in H. pose proof (chars_inv _ _ _ _ _ _ _ _ I L) as I1.
  destruct e; try (injection H as <- _ _; exact I1). destruct (profile_chars _ _ _ _) as [[[[c2 r2] e2]|]|] eqn:L2; [|discriminate|discriminate]. cbn [gbind] in H. pose proof (profile_chars_inv _ _ _ _ _ _ _ I1 L2) as I2.
  destruct e2; try (injection H as <- _ _; exact I2). destruct (profile_svcs fuel P c2 l) as [[[[c3 r3] e3]|]|] eqn:L3; [|discriminate|discriminate]. cbn [gbind] in H. injection H as <- _ _. eapply IH; eassumption.
Qed.
Lemma inv_ext : forall g g', g_cli g = g_cli g' -> g_subs g = g_subs g' -> inv g -> inv g'.
Proof. intros g g' A B (I1 & I2 & I3 & I4 & I5). unfold inv, inv_a. rewrite <- A, <- B. exact (conj I1 (conj I2 (conj I3 (conj I4 I5)))). Qed.
Lemma inv_discover : forall g fuel force g' r, inv g -> discover_profile fuel P force g = Ret (Some (g', r)) -> inv g'.
Proof.
  intros g fuel force g' r I H. assert (I0 : inv (with_cli g (g_cli g))) by (eapply inv_ext; [| |exact I]; reflexivity).
  assert (D : forall g1 e, discover_services fuel P None g = Ret (Some (g1, e)) -> exists c1, g_cli g1 = c1 /\ inv (with_cli g c1) /\ g_subs g1 = g_subs g).
  { intros g1 e D. unfold discover_services in D. destruct (svc_loop _ _ _ _ _ _) as [[[[c1 acc] e1]|]|] eqn:L; [|discriminate|discriminate]. cbn [gbind] in D. injection D as <- _.
    exists c1. split; [reflexivity|]. split; [|reflexivity]. eapply svc_loop_inv; eassumption. }
  assert (G : (g' = g) \/ (let! x := discover_services fuel P None g in
      match x with
      | None => Ret None
      | Some (g1, COk ss) =>
          let! y := profile_svcs fuel P (g_cli g1) ss in
          match y with
          | None => Ret None
          | Some (c', ss', COk _) => Ret (Some (with_profile (with_cli g1 c') (Some ss'), COk ss'))
          | Some (c', ss', e) => Ret (Some (with_profile (with_cli g1 c') (Some ss'), err_of e))
          end
      | Some (g1, e) => Ret (Some (g1, err_of e))
      end) = Ret (Some (g', r))).
  { unfold discover_profile in H. destruct (g_profile g) as [l|]; [destruct force; [now right|left; now injection H]|now right]. }
  destruct G as [->|G]; [exact I|]. clear H. destruct (discover_services fuel P None g) as [[[g1 e]|]|] eqn:DS; [|discriminate|discriminate]. cbn [gbind] in G.
  destruct (D _ _ eq_refl) as (c1 & C1 & I1 & S1).
  assert (IG : inv g1) by (eapply inv_ext; [| |exact I1]; cbn [with_cli g_cli g_subs]; congruence).
  destruct e as [svs|x| | |]; try (injection G as <- _; exact IG).
  destruct (profile_svcs fuel P (g_cli g1) svs) as [[[[c2 l2] e2]|]|] eqn:PS; [|discriminate|discriminate]. cbn [gbind] in G. rewrite C1 in PS. pose proof (profile_svcs_inv _ _ _ _ _ _ _ I1 PS) as I2.
  assert (IG2 : inv (with_profile (with_cli g1 c2) (Some l2))) by (eapply inv_ext; [| |exact I2]; cbn [with_profile with_cli g_cli g_subs]; congruence).
  destruct e2; injection G as <- _; exact IG2.
Qed.

(** ---- subscriptions ---- *)
Lemma bits_bits : forall n i, Z.testbit (bits n i) 0 = (match n with Some _ => true | None => false end) /\ Z.testbit (bits n i) 1 = (match i with Some _ => true | None => false end).
Proof. intros [n|] [i|]; split; reflexivity. Qed.
Lemma entry_info : forall g c fc z, inv g -> reported ss prof c fc -> notifying c = true -> gc_cccd fc = Some (mkGD u_cccd z) ->
  exists c1 fc1, reported ss prof c1 fc1 /\ gc_vh fc1 = gc_vh fc /\ notifying c1 = true /\ gc_cccd fc1 = Some (mkGD u_cccd (sb_cccdh (entry g (gc_vh fc) z))) /\ supported (ci_at c1 (gc_h fc1)) (sb_ccc (entry g (gc_vh fc) z)).
Proof.
  intros g c fc z (_ & _ & _ & EN & _) RP N CD. unfold entry. destruct (aget (g_subs g) (gc_vh fc)) as [s|] eqn:A; [exact (EN _ _ A)|].
  exists c, fc. split; [exact RP|]. split; [reflexivity|]. split; [exact N|]. split; [exact CD|]. split; intro X; discriminate X.
Qed.
Lemma set_ok : forall g c fc z ind h, inv g -> reported ss prof c fc -> notifying c = true -> gc_cccd fc = Some (mkGD u_cccd z) -> h = None \/ offers c ind ->
  exists g', set_handlers P g z (gc_vh fc) (flag_of ind) h = Ret (g', COk tt) /\ inv g'.
Proof.
  intros g c fc z ind h I RP N CD OF. destruct (entry_info g c fc z I RP N CD) as (c1 & fc1 & RP1 & V1 & N1 & CD1 & SU1).
  pose proof I as ((RD & M) & R & IA & EN & CF). assert (B := entry_bits g (gc_vh fc) z IA). set (s := entry g (gc_vh fc) z) in *.
  assert (CE : sb_ccc s = match aget (g_subs g) (gc_vh fc) with None => 0 | Some s => sb_ccc s end) by (unfold s, entry; destruct (aget (g_subs g) (gc_vh fc)); reflexivity).
  destruct (kind_dec h s ind) as [K|K].
  - rewrite set_handlers_same by assumption. fold s. eexists. split; [reflexivity|]. split; [exact (conj RD M)|]. split; [exact R|]. split; [|split].
    + intros k t E1. cbn [with_subs g_subs] in E1. rewrite aget_aset in E1. destruct (k =? gc_vh fc); [apply some_eq in E1; subst t; exact B|now apply (IA k)].
    + intros k t E1. cbn [with_subs g_subs] in E1. rewrite aget_aset in E1. destruct (k =? gc_vh fc) eqn:Q; [|exact (EN _ _ E1)]. apply some_eq in E1. subst t.
      exists c1, fc1. split; [exact RP1|]. split; [lia|]. split; [exact N1|]. split; [exact CD1|exact SU1].
    + intro ci. cbn [with_subs g_subs g_cli]. rewrite CF, aget_aset. destruct (ci_handle ci + 1 =? gc_vh fc) eqn:Q; [|reflexivity]. apply Z.eqb_eq in Q. rewrite Q. symmetry. exact CE.
  - rewrite set_handlers_write by assumption. fold s. cbv zeta. set (s' := with_kind s ind h).
    assert (B' : sb_ccc s' = bits (sb_n s') (sb_i s')) by reflexivity.
    assert (SU' : supported (ci_at c1 (gc_h fc1)) (sb_ccc s')).
    { pose proof (same_prop c fc c1 fc1 RP RP1 (eq_sym V1)) as SP. destruct (where_is ss Hpl Hsz c fc RP) as (_ & _ & _ & _ & _ & (_ & AC & _) & _). destruct (offers_prop c AC) as [O1 O2].
      destruct SU1 as [U1 U2]. rewrite B in U1, U2. rewrite B'. destruct (bits_bits (sb_n s) (sb_i s)) as [X1 X2]. destruct (bits_bits (sb_n s') (sb_i s')) as [Y1 Y2]. rewrite X1 in U1. rewrite X2 in U2.
      unfold supported. cbn [ci_at ci_prop] in *. rewrite Y1, Y2. rewrite <- SP in *. unfold s', with_kind. destruct ind; cbn [sb_n sb_i]; (split; [|]); intro X; try (now apply U1); try (now apply U2).
      - destruct OF as [->|OF]; [discriminate X|now apply O2].
      - destruct OF as [->|OF]; [discriminate X|now apply O1]. }
    destruct (where_is ss Hpl Hsz c1 fc1 RP1) as (_ & _ & _ & V2 & _).
    destruct (write_config (g_cli g) c1 fc1 (sb_cccdh s) (sb_ccc s') RD M R RP1 N1 CD1 ltac:(rewrite B'; apply bits_range) SU') as (cl' & W & SC & R' & C').
    rewrite W. cbn [gbind]. eexists. split; [reflexivity|]. split; [|split; [exact R'|split; [|split]]].
    + cbn [with_cli g_cli]. destruct SC as (S1 & S2 & S3). unfold ready, usable in *. rewrite S1, S2. exact (conj RD M).
    + intros k t E1. cbn [with_cli with_subs g_subs] in E1. rewrite !aget_aset in E1. destruct (k =? gc_vh fc); [apply some_eq in E1; subst t; exact B'|now apply (IA k)].
    + intros k t E1. cbn [with_cli with_subs g_subs] in E1. rewrite !aget_aset in E1. destruct (k =? gc_vh fc) eqn:Q; [|exact (EN _ _ E1)]. apply some_eq in E1. subst t.
      exists c1, fc1. split; [exact RP1|]. split; [lia|]. split; [exact N1|]. split; [exact CD1|exact SU'].
    + intro ci. cbn [with_cli with_subs g_subs g_cli]. rewrite C', !aget_aset. destruct (ci_handle ci =? gc_h fc1) eqn:Q1, (ci_handle ci + 1 =? gc_vh fc) eqn:Q2; [reflexivity|exfalso; clear - Q1 Q2 V1 V2; lia|exfalso; clear - Q1 Q2 V1 V2; lia|apply CF].
Qed.
Lemma clear_ok : forall ord g, inv g -> exists g', clear_subs P g ord = Ret (g', COk tt) /\ inv g' /\ forall vh, aget (g_subs g') vh = if existsb (Z.eqb vh) ord then None else aget (g_subs g) vh.
Proof.
  induction ord as [|vh ord IH]; intros g I; cbn [clear_subs existsb]; [exists g; split; [reflexivity|split; [exact I|reflexivity]]|].
  destruct (aget (g_subs g) vh) as [s|] eqn:A.
  - pose proof I as ((RD & M) & R & IA & EN & CF). destruct (EN _ _ A) as (c1 & fc1 & RP1 & V1 & N1 & CD1 & _). destruct (where_is ss Hpl Hsz c1 fc1 RP1) as (_ & _ & _ & V2 & _).
    destruct (write_config (g_cli g) c1 fc1 (sb_cccdh s) 0 RD M R RP1 N1 CD1 ltac:(lia) ltac:(split; intro X; discriminate X)) as (cl' & W & SC & R' & C').
    change (le16 0) with [0; 0] in W. rewrite W. cbn [gbind].
    assert (I' : inv (with_subs (with_cli g cl') (adel (g_subs g) vh))).
    { split; [|split; [exact R'|split; [|split]]].
      + cbn [with_cli with_subs g_cli]. destruct SC as (S1 & S2 & S3). unfold ready, usable in *. rewrite S1, S2. exact (conj RD M).
      + intros k t E1. cbn [with_cli with_subs g_subs] in E1. rewrite aget_adel in E1. destruct (k =? vh); [discriminate|now apply (IA k)].
      + intros k t E1. cbn [with_cli with_subs g_subs] in E1. rewrite aget_adel in E1. destruct (k =? vh); [discriminate|exact (EN _ _ E1)].
      + intro ci. cbn [with_cli with_subs g_subs g_cli]. rewrite C', aget_adel. destruct (ci_handle ci =? gc_h fc1) eqn:Q1, (ci_handle ci + 1 =? vh) eqn:Q2; [reflexivity|exfalso; clear - Q1 Q2 V1 V2; lia|exfalso; clear - Q1 Q2 V1 V2; lia|apply CF]. }
    destruct (IH _ I') as (g' & H & I2 & G). exists g'. split; [exact H|]. split; [exact I2|]. intro k. rewrite G. cbn [with_cli with_subs g_subs]. rewrite aget_adel. destruct (existsb (Z.eqb k) ord); [now rewrite orb_true_r|]. now rewrite orb_false_r.
  - destruct (IH g I) as (g' & H & I2 & G). exists g'. split; [exact H|]. split; [exact I2|]. intro k. rewrite G. destruct (k =? vh) eqn:Q; [|reflexivity]. apply Z.eqb_eq in Q. subst k. rewrite A. cbn. now destruct (existsb _ _).
Qed.
Lemma inv_incoming : forall g b g' x, inv g -> handle_notification g b = Ret (g', x) -> inv g'.
Proof.
  intros g b g' x I H. unfold handle_notification in H. destruct (r16 b 1) as [vh|]; [|discriminate]. cbn [gbind] in H. destruct (aget (g_subs g) vh) as [s|] eqn:A; [|injection H as <- _; exact I].
  destruct (gidx b 0) as [op|]; [|discriminate]. cbn [gbind] in H. destruct (gfrom b 3) as [nd|]; [|discriminate]. cbn [gbind] in H. injection H as <- _.
  destruct I as (I1 & I2 & IA & EN & CF). split; [exact I1|]. split; [exact I2|]. split; [|split].
  - intros k t T. cbn [with_subs g_subs] in T. rewrite aget_aset in T. destruct (k =? vh) eqn:Q; [|now apply (IA k)]. apply some_eq in T. subst t. cbn. now apply (IA vh).
  - intros k t T. cbn [with_subs g_subs] in T. rewrite aget_aset in T. destruct (k =? vh) eqn:Q; [|now apply EN]. apply some_eq in T. subst t. cbn [sb_cccdh sb_ccc]. apply EN. apply Z.eqb_eq in Q. now subst k.
  - intro ci. cbn [with_subs g_subs g_cli]. rewrite CF, aget_aset. destruct (ci_handle ci + 1 =? vh) eqn:Q; [|reflexivity]. apply Z.eqb_eq in Q. rewrite Q, A. reflexivity.
Qed.
Lemma inv_sub : forall g o g' r, inv g -> plain_sop ss o -> run_sop P g o = Ret (g', r) -> inv g'.
Proof.
  intros g o g' r I PS H. destruct o as [fc ind h|fc ind|ord|b]; cbn [run_sop plain_sop] in *.
  - destruct PS as (c & RP & OF). pose proof (offers_notifying c ind OF) as N. destruct (where_is ss Hpl Hsz c fc RP) as (_ & _ & _ & _ & _ & _ & _ & Wh). destruct (Wh N) as (z & CD & _).
    destruct (set_ok g c fc z ind (Some h) I RP N CD (or_intror OF)) as (g1 & E1 & I1). unfold subscribe in H. rewrite CD in H. cbn [gd_h] in H. rewrite E1 in H. cbn [gbind] in H. injection H as <- _. exact I1.
  - destruct PS as (c & RP & N). destruct (where_is ss Hpl Hsz c fc RP) as (_ & _ & _ & _ & _ & _ & _ & Wh). destruct (Wh N) as (z & CD & _).
    destruct (set_ok g c fc z ind None I RP N CD (or_introl eq_refl)) as (g1 & E1 & I1). unfold subscribe in H. rewrite CD in H. cbn [gd_h] in H. rewrite E1 in H. cbn [gbind] in H. injection H as <- _. exact I1.
  - destruct (clear_ok ord g I) as (g1 & E1 & I1 & _). rewrite E1 in H. cbn [gbind] in H. injection H as <- _. exact I1.
  - destruct (handle_notification g b) as [[g1 x]|] eqn:E1; [|discriminate]. cbn [gbind] in H. injection H as <- _. eapply inv_incoming; eassumption.
Qed.
Lemma together_inv : forall g, together ss P g -> inv g.
Proof.
  intros g H. induction H; [now apply inv_new|eapply inv_op; eassumption|eapply inv_discover; eassumption|eapply inv_sub; eassumption].
Qed.

(** ---- the notifiers of the server belong to characteristics that discovery reports ---- *)
Lemma chars_cccd : forall cs H a ci, In a (chars_attrs cs H) -> a_wh a = Some (ACccd ci) -> exists cb c ca, cs = cb ++ c :: ca /\ ci = ci_at c (H + csize cb).
Proof.
  induction cs as [|c cs IH]; intros H a ci I W; [destruct I|]. cbn [chars_attrs] in I. apply in_app_or in I. destruct I as [I|I].
  - exists [], c, cs. split; [reflexivity|]. replace (H + csize []) with H by (unfold csize; cbn; lia). unfold char_attrs in I. destruct I as [<-|[<-|I]]; [discriminate W|cbn in W; destruct (c_wh c); discriminate W|].
    apply in_map_iff in I. destruct I as (p & <- & _). cbn in W. destruct (d_wh (snd p)) as [[id|]|]; try discriminate W. cbn in W. injection W as <-. reflexivity.
  - destruct (IH _ _ _ I W) as (cb & x & ca & -> & ->). exists (c :: cb), x, ca. split; [reflexivity|]. rewrite csize_cons. f_equal. lia.
Qed.
Lemma svcs_cccd : forall l H a ci, In a (svcs_attrs l H) -> a_wh a = Some (ACccd ci) ->
  exists before sv after cb c ca, l = before ++ sv :: after /\ s_chars sv = cb ++ c :: ca /\ ci = ci_at c (H + table_size before + 1 + csize cb).
Proof.
  induction l as [|s l IH]; intros H a ci I W; [destruct I|]. cbn [svcs_attrs] in I. apply in_app_or in I. destruct I as [I|I].
  - unfold svc_attrs in I. destruct I as [<-|I]; [discriminate W|]. destruct (chars_cccd _ _ _ _ I W) as (cb & c & ca & E1 & ->). exists [], s, l, cb, c, ca. split; [reflexivity|]. split; [exact E1|].
    f_equal. unfold table_size. cbn. lia.
  - destruct (IH _ _ _ I W) as (before & sv & after & cb & c & ca & -> & E1 & ->). exists (s :: before), sv, after, cb, c, ca. split; [reflexivity|]. split; [exact E1|]. rewrite table_size_cons. f_equal. lia.
Qed.
Lemma notifier_reported : forall s n, reach d s -> In n (notifs s) ->
  exists c fc, reported ss prof c fc /\ nt_char n = gc_h fc /\ nt_vh n = gc_vh fc /\ Some (nt_handler n) = (if nt_ind n then c_ih c else c_nh c).
Proof.
  intros s n R I. destruct (table_good ss Hne Hpl Hsz) as [W T]. destruct (C22_own_handler d s n W T R I) as (a & ci & IA & WH & N1 & N2 & N3).
  assert (DS : db_attrs d = svcs_attrs ss 1) by (unfold d; rewrite new_db_spec by lia; reflexivity). rewrite DS in IA. destruct (svcs_cccd _ _ _ _ IA WH) as (before & sv & after & cb & c & ca & EQ & CE & ->).
  destruct (lay_nth before sv after 1) as [en N]. destruct (lay_chars_nth cb c ca (1 + table_size before + 1) en) as [e M].
  exists c. eexists. split; [|split; [|split; [|exact N3]]].
  - exists (length before), (length cb), sv. eexists. split; [rewrite EQ; apply nth_app_mid|]. split; [rewrite CE; apply nth_app_mid|]. split; [unfold prof, profile_of; rewrite nth_error_map, EQ, N; reflexivity|].
    cbn [full_svc gv_chars ds_chars ds_end]. rewrite CE. exact M.
  - exact N1.
  - cbn [gc_vh]. exact N2.
Qed.
(** ---- the registration made by a successful call ---- *)
Lemma subscribe_reg : forall g p ch ind h g', inv_a g -> subscribe p g ch ind h = Ret (g', COk tt) -> (h = None \/ registered g (gc_vh ch) ind = None) ->
  registered g' (gc_vh ch) ind = h /\ forall vh k, (vh, k) <> (gc_vh ch, ind) -> registered g' vh k = registered g vh k.
Proof.
  intros g p ch ind h g' I H HN. unfold subscribe in H. destruct (gc_cccd ch) as [e|] eqn:CD; [|discriminate].
  assert (B := entry_bits g (gc_vh ch) (gd_h e) I). set (s1 := entry g (gc_vh ch) (gd_h e)) in *.
  assert (R0 : forall k, registered g (gc_vh ch) k = of_kind s1 k) by (intro k; rewrite registered_aget; unfold s1, entry; destruct (aget (g_subs g) (gc_vh ch)); [reflexivity|destruct k; reflexivity]).
  rewrite R0 in HN. destruct (kind_dec h s1 ind) as [K|K].
  - rewrite set_handlers_same in H by assumption. injection H as <-. split.
    + rewrite registered_aget. cbn [with_subs g_subs]. rewrite aget_aset, Z.eqb_refl. fold s1. change (of_kind s1 ind = h). destruct HN as [-> |N]; [now apply K|rewrite N; symmetry; now apply K].
    + intros vh k NE. rewrite !registered_aget. cbn [with_subs g_subs]. rewrite aget_aset. destruct (vh =? gc_vh ch) eqn:Q; [|reflexivity]. apply Z.eqb_eq in Q. subst vh. fold s1. rewrite <- registered_aget. symmetry. apply R0.
  - rewrite set_handlers_write in H by assumption. cbv zeta in H. fold s1 in H. destruct (write _ _ _ _) as [[c' r]|]; [|discriminate]. cbn [gbind] in H.
    assert (r = COk tt) by (injection H as _ H; exact H). subst r. injection H as <-. split.
    + rewrite registered_aget. cbn [with_subs with_cli g_subs]. rewrite aget_aset, Z.eqb_refl. unfold with_kind. destruct ind; reflexivity.
    + intros vh k NE. rewrite !registered_aget. cbn [with_subs with_cli g_subs]. rewrite !aget_aset. destruct (vh =? gc_vh ch) eqn:Q; [|reflexivity]. apply Z.eqb_eq in Q. subst vh.
      rewrite <- registered_aget, R0. unfold with_kind, of_kind. destruct ind, k; try reflexivity; exfalso; now apply NE.
Qed.
End Sub.
