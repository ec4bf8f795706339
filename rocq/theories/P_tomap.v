Require Import Verif.Base Verif.M_uuid Verif.S_uuid Verif.P_uuid Verif.M_adv Verif.S_adv Verif.S_adv_api Verif.P_adv Verif.P_adv2 Verif.P_adv3 Verif.M_advrep Verif.S_advrep Verif.P_advrep Verif.P_advrep2 Verif.M_tomap Verif.S_tomap.

Lemma low_hex_eq : forall b, low_hex b = hex_encode b.
Proof. intro b. unfold low_hex, hex_encode. apply flat_map_ext. intro x. unfold dig, hex_digit. f_equal; [|f_equal]; destruct (_ <? 10); lia. Qed.
Lemma to_lower_hex : forall b, all_bytes b -> to_lower (hex_encode b) = hex_encode b.
Proof.
  intros b H. induction H as [|x b X H IH]; [reflexivity|]. change (hex_encode (x :: b)) with (hex_digit (x / 16) :: hex_digit (x mod 16) :: hex_encode b). unfold to_lower in *. cbn [map]. rewrite IH.
  assert (D : forall d, 0 <= d < 16 -> to_lower_ch (hex_digit d) = hex_digit d) by (intros d L; unfold to_lower_ch, hex_digit; destruct (d <? 10) eqn:E; apply Z.ltb_lt in E || apply Z.ltb_ge in E; destruct (_ && _)%bool eqn:F; lia).
  unfold is_byte in X. rewrite !D; [reflexivity| |]; [apply Z.mod_pos_bound; lia|split; [apply Z.div_pos; lia|apply Z.div_lt_upper_bound; lia]].
Qed.
Lemma mac_text : forall b, all_bytes b -> remove_ch ch_colon (addr_string (new_addr (hw_string b))) = low_hex b.
Proof. intros b H. unfold addr_string, new_addr. change ch_colon with 58. rewrite remove_colon_lower, (hw_string_erased b H), (to_lower_hex b H). symmetry. apply low_hex_eq. Qed.

Lemma raw_result : forall d pb pm, all_bytes d -> NewRawPacket [d] = Ret (Some (pb, pm)) ->
  exists rs tail, d = enc rs ++ tail /\ Forall legal_payload rs /\ ((tail_end tail /\ pm = expmap rs) \/ (tail_malformed tail /\ pm = mset (expmap rs) KErr VStr)).
Proof.
  intros d pb pm B E. destruct d as [|x d].
  - cbn in E. injection E as _ <-. exists [], []. split; [reflexivity|]. split; [constructor|]. left. split; [constructor|reflexivity].
  - destruct (Parse_result (x :: d) B ltac:(discriminate)) as [P|(rs & tail & D & L & M & C)].
    + unfold NewRawPacket in E. cbn [concat] in E. rewrite app_nil_r, P in E. discriminate.
    + exists rs, tail. split; [exact D|]. split; [exact L|]. assert (CC : concat [x :: d] = enc rs ++ tail) by (cbn [concat]; rewrite app_nil_r; exact D).
      destruct (raw_packet_l rs tail [x :: d] CC L M) as (_ & R2 & R3). destruct C as [[T P]|[T [e P]]].
      * left. split; [exact T|]. unfold NewRawPacket in E. cbn [concat] in E. rewrite app_nil_r, P in E. cbn [gbind] in E. congruence.
      * right. split; [exact T|]. assert (N : mnonempty (expmap rs) = true) by (destruct (mnonempty (expmap rs)) eqn:N; [reflexivity|]; rewrite (R3 T eq_refl) in E; discriminate).
        destruct (R2 T N) as (m & EM & _ & K). rewrite E in EM. injection EM as EB <-. unfold NewRawPacket in E. cbn [concat] in E. rewrite app_nil_r, P in E. cbn [gbind] in E. rewrite N in E.
        destruct e; injection E as _ <-; try reflexivity. discriminate K.
Qed.

(** the loop over the packet's map *)
Lemma loop_spec : forall ks pm m, NoDup ks -> (forall b, mget pm KTxpwr = Some (VBytes b) -> b <> []) ->
  exists m', tomap_loop ks pm m = Ret m' /\ (forall k, (forall j, k <> TAdv j) -> m' k = m k) /\
    forall j, m' (TAdv j) = if existsb (advkey_eqb j) ks then match mget pm j with None => m (TAdv j) | Some v => match tomap_entry j v with Ret x => Some x | Panic => None end end else m (TAdv j).
Proof.
  induction ks as [|k ks IH]; intros pm m ND T; cbn [tomap_loop existsb].
  - exists m. split; [reflexivity|]. split; [reflexivity|]. reflexivity.
  - inversion ND as [|? ? NI ND']; subst. assert (NE : existsb (advkey_eqb k) ks = false).
    { destruct (existsb (advkey_eqb k) ks) eqn:X; [|reflexivity]. apply existsb_exists in X. destruct X as (y & Y & Q). exfalso. apply NI. destruct k, y; try discriminate Q; exact Y. }
    assert (EQ : forall j, advkey_eqb j k = true -> j = k) by (intros j Q; destruct j, k; try discriminate Q; reflexivity).
    destruct (mget pm k) as [v|] eqn:G.
    + assert (X : exists x, tomap_entry k v = Ret x).
      { destruct k; try (eexists; reflexivity); destruct v as [b| | |]; try (eexists; reflexivity). destruct b as [|y b]; [destruct (T [] G); reflexivity|]. eexists. reflexivity. }
      destruct X as [x X]. rewrite X. cbn [gbind]. destruct (IH pm (tset m (TAdv k) x) ND' T) as (m' & E & O & A). exists m'. split; [exact E|]. split.
      * intros j NJ. rewrite (O j NJ). unfold tset, tkey_eqb. destruct j; try reflexivity. destruct (NJ k0 eq_refl).
      * intro j. rewrite (A j). destruct (advkey_eqb j k) eqn:Q; cbn [orb].
        -- apply EQ in Q. subst j. rewrite NE, G, X. unfold tset, tkey_eqb. destruct k; reflexivity.
        -- unfold tset, tkey_eqb. replace (advkey_eqb k j) with false by (destruct j, k; try discriminate Q; reflexivity). reflexivity.
    + destruct (IH pm m ND' T) as (m' & E & O & A). exists m'. split; [exact E|]. split; [exact O|]. intro j. rewrite (A j).
      destruct (advkey_eqb j k) eqn:Q; cbn [orb]; [|reflexivity]. apply EQ in Q. subst j. rewrite NE, G. reflexivity.
Qed.

Lemma listed_lookup : forall l k, In k (map fst l) -> listed k l = Some (svc_lookup l k).
Proof.
  induction l as [|[k' v] l IH]; intros k H; [destruct H|]. cbn [listed svc_lookup]. destruct (beq_bytes k' k) eqn:E; [reflexivity|]. apply IH. destruct H as [H|H]; [|exact H]. cbn in H. subst. rewrite beq_bytes_refl in E. discriminate.
Qed.
Lemma lookup_in : forall l k, svc_lookup l k <> [] -> In k (map fst l).
Proof. induction l as [|[k' v] l IH]; intros k H; [destruct (H eq_refl)|]. cbn [svc_lookup] in H. destruct (beq_bytes k' k) eqn:E; [left; now apply beq_bytes_eq|right; now apply IH]. Qed.
Lemma svc_entry : forall l, Forall (fun p => all_bytes (fst p)) l -> NoDup (map fst (svc_fold l)) /\
  (forall t, In t (map fst (svc_fold l)) -> exists p, In p l /\ t = low_hex (rev (fst p))) /\
  (forall p, In p l -> listed (low_hex (rev (fst p))) (svc_fold l) = Some (data_of (fst p) l)).
Proof.
  intros l F. destruct (svc_fold_inv l F) as (A & B & C). split; [exact A|]. split.
  - intros t I. destruct (B t I) as (p & I2 & ->). exists p. split; [exact I2|]. symmetry. apply low_hex_eq.
  - intros p I. rewrite low_hex_eq. assert (AB : all_bytes (fst p)) by (rewrite Forall_forall in F; exact (F p I)). rewrite <- (C _ AB). apply listed_lookup. apply lookup_in. rewrite (C _ AB).
    unfold data_of. intro N. apply map_eq_nil in N. assert (J : In p (filter (fun q => beq_bytes (fst q) (fst p)) l)) by (apply filter_In; split; [exact I|apply beq_bytes_refl]). rewrite N in J. destruct J.
Qed.
Lemma enc_bytes : forall rs, all_bytes (enc rs) -> Forall (fun r => all_bytes (snd r)) rs.
Proof.
  induction rs as [|r rs IH]; intro H; [constructor|]. change (enc (r :: rs)) with (enc_rec r ++ enc rs) in H. apply Forall_app in H. destruct H as [H1 H2]. constructor; [|exact (IH H2)].
  unfold enc_rec in H1. inversion H1 as [|? ? _ H3]; subst. inversion H3; assumption.
Qed.
Lemma svc_bytes : forall rs, Forall (fun r => all_bytes (snd r)) rs -> Forall (fun p => all_bytes (fst p)) (exp_svc rs).
Proof.
  intros rs H. apply Forall_forall. intros p I. unfold exp_svc in I. apply in_flat_map in I. destruct I as (r & R & I). rewrite Forall_forall in H. specialize (H r R).
  destruct (svcdata_size (fst r)) as [n|]; [|destruct I]. destruct (snd r) as [|x d] eqn:D; [destruct I|]. destruct I as [<-|[]]. cbn [fst]. rewrite <- D in *. unfold all_bytes in *. rewrite Forall_forall in *. intros y Y. apply H. rewrite <- (firstn_skipn n (snd r)). apply in_or_app. now left.
Qed.

Theorem to_map_ok : forall x a, report_ok (fst x) -> all_bytes (r_addr (fst x)) -> all_bytes (entry_data x) -> repr x a ->
  exists rs tail m, entry_data x = enc rs ++ tail /\ Forall legal_payload rs /\ to_map a = Ret (Some m) /\ (forall k, right_entry (fst x) rs m k) /\
    ((tail_end tail /\ m (TAdv KErr) = None) \/ (tail_malformed tail /\ m (TAdv KErr) = Some (UAdv VStr))).
Proof.
  intros [r sr] a OK AB DB R. cbn [fst] in *. assert (G : rep_good r) by (split; assumption). assert (F1 : Forall report_ok [r]) by (constructor; [exact OK|constructor]).
  assert (AD := ad_addr_repr (r, sr) a G R). destruct R as (E1 & E2 & _ & E4). cbn [fst] in *.
  destruct (raw_result _ _ _ DB E4) as (rs & tail & D & L & C). exists rs, tail.
  assert (TX : forall b, mget (ad_pm a) KTxpwr = Some (VBytes b) -> b <> []).
  { intros b H. assert (Q : mget (ad_pm a) KTxpwr = ob (exp_bytes is_txpwr rs)) by (destruct C as [[_ ->]|[_ ->]]; reflexivity). rewrite Q in H. unfold ob in H. destruct (exp_bytes is_txpwr rs); [discriminate|]. injection H as <-. discriminate. }
  unfold to_map. rewrite AD. cbn [obind fst]. unfold ad_connectable, ad_rssi. rewrite E1, E2.
  rewrite (lay_addrtype _ F1 0 r eq_refl). cbn [obind]. rewrite (lay_type _ F1 0 r eq_refl). cbn [obind]. rewrite (lay_rssi _ F1 0 r eq_refl). cbn [obind].
  set (m0 := tset _ TRssi _). destruct (loop_spec all_keys (ad_pm a) m0) as (m & E & O & A); [repeat constructor; cbn; intuition discriminate|exact TX|].
  exists m. split; [exact D|]. split; [exact L|]. rewrite E. cbn [gbind]. split; [reflexivity|].
  assert (AA : forall j, m (TAdv j) = match mget (ad_pm a) j with None => None | Some v => match tomap_entry j v with Ret x => Some x | Panic => None end end) by (intro j; rewrite (A j); destruct j; reflexivity).
  clear A E AD. split.
  - assert (SB : Forall (fun p => all_bytes (fst p)) (exp_svc rs)) by (apply svc_bytes, enc_bytes; rewrite D in DB; apply Forall_app in DB; exact (proj1 DB)).
    assert (MG : forall j, j <> KErr -> mget (ad_pm a) j = mget (expmap rs) j) by (intros j NJ; destruct C as [[_ ->]|[_ ->]]; [reflexivity|]; destruct j; try reflexivity; destruct (NJ eq_refl)).
    intro k. destruct k as [| | | | |j]; cbn [right_entry]; try (rewrite O by discriminate; unfold m0, tset; cbn [tkey_eqb]).
    + rewrite mac_text by (apply all_bytes_rev; exact AB). reflexivity.
    + reflexivity.
    + reflexivity.
    + rewrite orb_comm. reflexivity.
    + f_equal. f_equal. destruct OK as (_ & _ & _ & _ & RB). unfold is_byte in RB. unfold signed8. destruct (r_rssi r =? 0) eqn:Z0.
      * apply Z.eqb_eq in Z0. rewrite Z0. reflexivity.
      * apply Z.eqb_neq in Z0. destruct (r_rssi r <? 128) eqn:Z1; [rewrite (proj2 (Z.eqb_neq _ _) Z0); reflexivity|]. apply Z.ltb_ge in Z1. assert (NZ : r_rssi r - 256 <> 0) by lia. rewrite (proj2 (Z.eqb_neq _ _) NZ). reflexivity.
    + assert (ME : forall j, j <> KErr -> m (TAdv j) = match mget (expmap rs) j with None => None | Some v => match tomap_entry j v with Ret x => Some x | Panic => None end end) by (intros i NI; rewrite (AA i), (MG i NI); reflexivity).
      unfold expmap in ME. destruct j; try exact Logic.I.
      * rewrite (ME KFlags) by discriminate. cbn [mget m_flags]. destruct (exp_bytes is_flags rs); reflexivity.
      * rewrite (ME KServices) by discriminate. cbn [mget m_services]. destruct (exp_services rs); reflexivity.
      * rewrite (ME KSolicited) by discriminate. cbn [mget m_solicited]. destruct (exp_solicited rs); reflexivity.
      * rewrite (ME KServiceData) by discriminate. cbn [mget m_svcdata]. split; [intros ->; reflexivity|]. intro N. exists (svc_fold (exp_svc rs)). split; [|exact (svc_entry _ SB)]. destruct (exp_svc rs) eqn:X; [destruct (N eq_refl)|]. reflexivity.
      * rewrite (ME KName) by discriminate. cbn [mget m_name]. destruct (exp_bytes is_name rs); reflexivity.
      * rewrite (ME KTxpwr) by discriminate. cbn [mget m_txpwr]. destruct (exp_bytes is_txpwr rs) as [|y l]; reflexivity.
      * rewrite (ME KMfg) by discriminate. cbn [mget m_mfg]. destruct (exp_mfg rs); reflexivity.
  - rewrite AA. destruct C as [[T ->]|[T ->]]; [left|right]; (split; [exact T|reflexivity]).
Qed.

(** the entries of a scan are made of the reports that came *)
Lemma scan_made : forall acc w (P : report -> Prop) rs h h' os, Forall P rs -> Forall (fun x : entry => P (fst x) /\ forall s, snd x = Some s -> P s) h -> scan_run acc w h rs = Ret (h', os) ->
  Forall (fun o : option entry => forall x, o = Some x -> P (fst x) /\ forall s, snd x = Some s -> P s) os.
Proof.
  intros acc w P rs. induction rs as [|r rs IH]; intros h h' os HP HH E; cbn [scan_run] in E.
  - injection E as _ <-. constructor.
  - inversion HP as [|? ? PR HP']; subst. destruct (scan_step acc w h r) as [[h1 o]|] eqn:Es; [|discriminate]. cbn [gbind fst snd] in E.
    destruct (scan_run acc w h1 rs) as [[h2 os']|] eqn:Er; [|discriminate]. cbn [gbind fst snd] in E. injection E as _ <-.
    assert (NEW : P (fst (r, @None report)) /\ forall s, snd (r, @None report) = Some s -> P s) by (cbn; split; [exact PR|discriminate]).
    assert (X : Forall (fun x : entry => P (fst x) /\ forall s, snd x = Some s -> P s) h1 /\ forall x, o = Some x -> P (fst x) /\ forall s, snd x = Some s -> P s).
    { unfold scan_step in Es. destruct (acc (r_data r)) as [ok|]; [|discriminate]. cbn [gbind] in Es. destruct ok; cbn [negb] in Es; [|injection Es as <- <-; split; [exact HH|discriminate]].
      destruct ((r_type r =? 0) || (r_type r =? 2))%bool; [injection Es as <- <-; split; [constructor; assumption|intros x Q; injection Q as <-; exact NEW]|].
      destruct ((r_type r =? 1) || (r_type r =? 3))%bool; [injection Es as <- <-; split; [assumption|intros x Q; injection Q as <-; exact NEW]|].
      destruct (newest_from w h r) as [j|]; [|injection Es as <- <-; split; [exact HH|discriminate]]. destruct (nth_error h j) as [y|] eqn:N; [|injection Es as <- <-; split; [exact HH|discriminate]].
      destruct (acc (entry_data (fst y, Some r))) as [ok|]; [|discriminate]. cbn [gbind] in Es. destruct ok; injection Es as <- <-; [|split; [exact HH|discriminate]].
      assert (Y : P (fst (fst y, Some r)) /\ forall s, snd (fst y, Some r) = Some s -> P s).
      { cbn [fst snd]. split; [|intros s Q; injection Q as <-; exact PR]. rewrite Forall_forall in HH. exact (proj1 (HH y (nth_error_In _ _ N))). }
      split; [|intros x Q; injection Q as <-; exact Y]. rewrite Forall_forall in *. intros z Z. apply In_nth_error in Z. destruct Z as [i Z]. rewrite nth_error_upd in Z. destruct (Nat.eqb j i); [|exact (HH z (nth_error_In _ _ Z))].
      destruct (Nat.ltb j (length h)); [|discriminate]. injection Z as <-. exact Y. }
    destruct X as [X1 X2]. constructor; [exact X2|]. exact (IH h1 h2 os' HP' X1 Er).
Qed.
