(** Every run satisfies the invariant (continued). *)
Require Import Verif.Base Verif.M_smp Verif.M_enc Verif.S_enc Verif.P_enc Verif.P_enc2 Verif.P_enc3 Verif.P_enc4.
Require Verif.M_hci Verif.S_smp.

Section Step.
Variable C : prims.
Variable HC : S_smp.prims_ok C.
Variables (t : list (bytes * bondinfo)) (cap : nat -> nat).
Notation Iv := (Inv C t cap).

(** A step that leaves connections, channels and calls alone. *)
Definition harmless (o : list obs) : Prop := forall x, In x o -> match x with OReport _ _ _ | OGot _ _ | OStartRet _ _ => False | _ => True end.
Lemma harmless_quiet : forall a o, harmless o -> match a with TRecv _ | TLeave _ => False | _ => True end -> quiet_chan a o.
Proof.
  intros a o H A. assert (P : forall k, puts o k = [] /\ gots o k = []) by (apply puts_none; intros x Hx; specialize (H _ Hx); now destruct x).
  split; [intro k; apply P|]. split; [intro k; apply P|exact A].
Qed.
Lemma harmless_rets : forall o i, harmless o -> rets o i = O.
Proof. intros o i H. apply rets_none. intros x Hx. specialize (H _ Hx). now destruct x. Qed.

Lemma ev_obs_shape : forall e i h evs x, In x (concat (map (ev_obs e i h) evs)) ->
  (exists o, In (EOut o) evs /\ x = out_obs e i h o) \/ (exists ok, In (EPairRet ok) evs /\ x = OPairRet i ok).
Proof.
  intros e i h evs x H. apply in_concat in H. destruct H as (y & Hy & Hx). apply in_map_iff in Hy. destruct Hy as (v & <- & Hv).
  destruct v as [o|ok|]; cbn in Hx.
  - destruct Hx as [<-|[]]. left. now exists o.
  - destruct Hx as [<-|[]]. right. now exists ok.
  - destruct Hx.
Qed.
Lemma ev_obs_out : forall e i h evs o, In (EOut o) evs -> In (out_obs e i h o) (concat (map (ev_obs e i h) evs)).
Proof. intros e i h evs o H. apply in_concat. exists [out_obs e i h o]. split; [|now left]. change [out_obs e i h o] with (ev_obs e i h (EOut o)). now apply in_map. Qed.
Lemma fold_saved : forall o s tb, (forall x, In x o -> match x with ODeleted _ => False | _ => True end) ->
  (forall k, find_bond k tb = s k) -> forall k, find_bond k (obs_bonds tb o) = fold_left store_obs o s k.
Proof.
  induction o as [|x o IH]; intros s tb N H k; [apply H|]. unfold obs_bonds. cbn [fold_left]. pose proof (N x (or_introl eq_refl)).
  apply (IH (store_obs s x)); [intros y Hy; apply N; now right|]. intro k'. destruct x; cbn [store_obs]; try apply H; try contradiction.
  rewrite find_put. destruct (beq_bytes k' a); [reflexivity|apply H].
Qed.

(** What is observable of a step of a Security Manager. *)
Definition smp_obs (i : nat) (h : Z) (a : sact) (evs : list ev) : list obs :=
  match act_env a with
  | Some e => concat (map (ev_obs e i h) evs)
  | None => concat (map (fun v => match v with EPairRet ok => [OPairRet i ok] | _ => [] end) evs)
  end.
Lemma smp_obs_shape : forall i h a evs x, In x (smp_obs i h a evs) ->
  (exists e o, act_env a = Some e /\ In (EOut o) evs /\ x = out_obs e i h o) \/ (exists ok, In (EPairRet ok) evs /\ x = OPairRet i ok).
Proof.
  intros i h a evs x H. unfold smp_obs in H. destruct (act_env a) as [e|].
  - apply ev_obs_shape in H. destruct H as [(o & A & B)|(ok & A & B)]; [left; exists e, o; now split|right; now exists ok].
  - apply in_concat in H. destruct H as (y & Hy & Hx). apply in_map_iff in Hy. destruct Hy as (v & <- & Hv). destruct v as [|ok|]; try destruct Hx.
    + subst x. right. now exists ok. + destruct H.
Qed.
Lemma smp_obs_harmless : forall i h a evs, harmless (smp_obs i h a evs) /\ (forall x, In x (smp_obs i h a evs) -> match x with ODeleted _ => False | _ => True end).
Proof.
  intros i h a evs. split; intros x Hx; apply smp_obs_shape in Hx; destruct Hx as [(e & o & _ & _ & ->)|(ok & _ & ->)]; try exact Logic.I.
  - destruct o; cbn; try exact Logic.I. now destruct (e_save e).
  - destruct o; cbn; try exact Logic.I. now destruct (e_save e).
Qed.
Lemma smp_step_inv : forall i a w w' o, smp_step C i a w = Some (Ret (w', o)) ->
  exists c, nth_error (conns w) i = Some c /\
  ((c_smp c = None /\ w' = w /\ o = [] /\ exists e pdu, a = AMsg e pdu) \/
   (exists s s' evs, c_smp c = Some s /\ sstep C s a = Some (Ret (s', evs)) /\ o = smp_obs i (c_handle c) a evs /\
      w' = set_bonds (obs_bonds (bonds w) o) (set_conns (upd (conns w) i (set_smp (Some s') c)) w))).
Proof.
  intros i a w w' o H. unfold smp_step in H. destruct (nth_error (conns w) i) as [c|] eqn:N; [|discriminate]. exists c. split; [reflexivity|].
  destruct (c_smp c) as [s|] eqn:Es.
  - right. destruct (sstep C s a) as [[[s' evs]|]|] eqn:Ea; try discriminate. exists s, s', evs. split; [reflexivity|]. split; [exact Ea|].
    unfold on_conn in H. rewrite N in H. fold (smp_obs i (c_handle c) a evs) in H.
    apply (f_equal (fun x => match x with Some (Ret y) => y | _ => (w, []) end)) in H. injection H as <- <-. split; reflexivity.
  - left. split; [reflexivity|]. destruct (is_call a) eqn:Ic; [discriminate|]. destruct a; try discriminate. injection H as <- <-.
    split; [reflexivity|]. split; [reflexivity|]. eexists _, _. reflexivity.
Qed.
Lemma step_smp : forall l w i a w' o, Iv l w -> match a with AStartEncryption _ => False | _ => True end ->
  smp_step C i a w = Some (Ret (w', o)) -> Iv (l ++ [(TSmp i a, o)]) w'.
Proof.
  intros l w i a w' o J Na H. destruct (smp_step_inv _ _ _ _ _ H) as (c & Hi & [(_ & -> & -> & _)|(s & s' & evs & Hs & Hss & -> & ->)]);
    assert (D : forall o, dull l (TSmp i a) o) by (intro; now apply dull_act).
  - destruct J as [J1 J2 J3 J4 J5 J6 J7 J8 J9 J10]. split.
    + now rewrite created_same.
    + intros j cj Hj. apply conn_ok_dull; [apply D|]. now apply J2.
    + intros j Hj. apply virgin_dull; [apply D|]. now apply J3.
    + intro k. now rewrite owner_same.
    + exact J5.
    + intro x. rewrite store_quiet by (intros y []). apply J6.
    + intro k. apply chan_ok_quiet; [|apply J7]. split; [reflexivity|]. split; [reflexivity|exact Logic.I].
    + exact J8.
    + intro j. apply (count_same cap); [exact (J9 j)|reflexivity|exact Logic.I].
    + intros x Hx. now apply sender_ok_snoc, J10.
  - destruct (smp_obs_harmless i (c_handle c) a evs) as (HH & HD).
    destruct (sstep_eff C HC s a s' evs Hss Na) as [G1 G2 G3 G4].
    destruct J as [J1 J2 J3 J4 J5 J6 J7 J8 J9 J10]. split; cbn [conns tab bonds chans calls senders set_bonds set_conns].
    + rewrite upd_length, created_same by exact Logic.I. exact J1.
    + intros j cj Hj. apply nth_upd in Hj. destruct Hj as [(-> & ->)|(Nj & Hj)].
      * destruct (conn_ok_dull C l (TSmp i a) (smp_obs i (c_handle c) a evs) i c (D _) (J2 _ _ Hi)) as [(cr & A & B & S) K E I L].
        rewrite Hs in S. destruct S as (S1 & S2 & la & lat & rat & ls & S3). split.
        -- exists cr. split; [exact A|]. split; [exact B|]. cbn [c_smp set_smp]. split; [exact S1|]. split; [congruence|].
           exists la, lat, rat, (ls ++ [(a, evs)]). eapply srun_snoc; eassumption.
        -- cbn [c_smp set_smp]. intros s1 Es1 Nk. injection Es1 as <-. destruct G4 as [G4|(e & pdu & r & -> & Hm & Hin)].
           ++ rewrite G4 in *. exact (K _ Hs Nk).
           ++ exists l, e, pdu, (smp_obs i (c_handle c) (AMsg e pdu) evs), [], r, (c_handle c). split; [reflexivity|]. split; [exact Hm|].
              exact (ev_obs_out e i (c_handle c) evs _ Hin).
        -- exact E. -- exact I. -- exact L.
      * apply conn_ok_dull; [apply D|]. now apply J2.
    + intros j Hj. rewrite upd_length in Hj. apply virgin_dull; [apply D|]. now apply J3.
    + intro k. now rewrite owner_same.
    + intros k j Hk. rewrite upd_length. exact (J5 _ _ Hk).
    + intro x. rewrite stored_snoc. now apply fold_saved.
    + intro k. apply chan_ok_quiet; [|apply J7]. now apply harmless_quiet.
    + intros x Hx. rewrite upd_length. now apply J8.
    + intro j. apply (count_same cap); [exact (J9 j)|now apply harmless_rets|exact Logic.I].
    + intros x Hx. now apply sender_ok_snoc, J10.
Qed.

(** *** StartEncryption *)
Lemma start_inv : forall i ch e w w' o, start i ch e w = Some (Ret (w', o)) ->
  exists c, nth_error (conns w) i = Some c /\
  ((c_enabled c = true /\ exists k, ch = Some k /\ w' = set_senders (senders w ++ [mkSender i k None]) w /\ o = [OStartRet i RNil]) \/
   (c_enabled c = true /\ ch = None /\ w' = w /\ o = [OStartRet i RAlready]) \/
   (c_enabled c = false /\ exists s os r, c_smp c = Some s /\ StartEncryption e (ctx s) = Ret (ctx s, os, r) /\
      (r <> None -> os <> []) /\
      (os = [] \/ exists k ed rn, os = [OStartEnc k ed rn] /\ e_find e <> None /\ uses (ctx s) (e_find e) k ed rn /\ (r <> None <-> e_cmd e = true)) /\
      w' = set_calls (calls w ++ [mkCall i (match r with Some _ => true | None => false end)]) (set_conns (upd (conns w) i (set_ch ch c)) w) /\
      o = map (out_obs e i (c_handle c)) os)).
Proof.
  intros i ch e w w' o H. unfold start in H. destruct (nth_error (conns w) i) as [c|] eqn:N; [|discriminate]. exists c. split; [reflexivity|].
  destruct (c_enabled c).
  - destruct ch as [k|]; injection H as <- <-.
    + left. split; [reflexivity|]. exists k. split; [reflexivity|]. split; reflexivity.
    + right. left. split; [reflexivity|]. split; [reflexivity|]. split; reflexivity.
  - right. right. split; [reflexivity|]. destruct (c_smp c) as [s|] eqn:Es; [|discriminate].
    destruct (StartEncryption e (ctx s)) as [[[p os] r]|] eqn:Est; [|discriminate].
    destruct (start_eff e _ _ _ _ Est) as (-> & A & B). exists s, os, r. split; [reflexivity|]. split; [exact Est|]. split; [exact A|]. split; [exact B|].
    unfold on_conn in H. rewrite N in H.
    apply (f_equal (fun x => match x with Some (Ret y) => y | _ => (w, []) end)) in H. injection H as <- <-. split; reflexivity.
Qed.
Lemma start_dull : forall l i ch e r, dull l (TStart i ch e) [OStartRet i r].
Proof.
  intros l i ch e r. split; [reflexivity|]. split; [reflexivity|]. intros j c. cbn. destruct (Nat.eqb_spec i j) as [->|N]; cbn; [|reflexivity].
  now rewrite ?Nat.eqb_refl.
Qed.
Lemma ncalls_app : forall i a b, ncalls i (a ++ b) = (ncalls i a + ncalls i b)%nat.
Proof. intros. unfold ncalls. now rewrite filter_app, app_length. Qed.
Lemma step_start : forall l w i ch e w' o, Iv l w -> start i ch e w = Some (Ret (w', o)) -> Iv (l ++ [(TStart i ch e, o)]) w'.
Proof.
  intros l w i ch e w' o J H. destruct (start_inv _ _ _ _ _ _ H) as (c & Hi & [(En & k & -> & -> & ->)|[(En & -> & -> & ->)|(En & s & os & r & Hs & Hst & _ & Ho & -> & ->)]]).
  - pose proof (J_conn _ _ _ _ _ J _ _ Hi) as Kc. destruct J as [J1 J2 J3 J4 J5 J6 J7 J8 J9 J10].
    split; cbn [conns tab bonds chans calls senders set_senders].
    + now rewrite created_same.
    + intros j cj Hj. apply conn_ok_dull; [apply start_dull|]. now apply J2.
    + intros j Hj. apply virgin_dull; [apply start_dull|]. now apply J3.
    + intro h. now rewrite owner_same.
    + exact J5.
    + intro x. rewrite store_quiet by (intros y [<-|[]]; exact Logic.I). apply J6.
    + intro j. apply chan_ok_quiet; [|apply J7]. split; [reflexivity|]. split; [reflexivity|exact Logic.I].
    + exact J8.
    + intro j. rewrite starts_snoc, returns_snoc, J9. cbn. destruct (Nat.eqb i j); cbn; lia.
    + intros x Hx. apply in_app_or in Hx. destruct Hx as [Hx|[<-|[]]]; [now apply sender_ok_snoc, J10|].
      exists l, e, []. cbn [s_conn s_chan s_val]. split; [reflexivity|]. split; [|exact Logic.I]. rewrite <- (K_en _ _ _ _ Kc). exact En.
  - destruct J as [J1 J2 J3 J4 J5 J6 J7 J8 J9 J10]. split.
    + now rewrite created_same.
    + intros j cj Hj. apply conn_ok_dull; [apply start_dull|]. now apply J2.
    + intros j Hj. apply virgin_dull; [apply start_dull|]. now apply J3.
    + intro h. now rewrite owner_same.
    + exact J5.
    + intro x. rewrite store_quiet by (intros y [<-|[]]; exact Logic.I). apply J6.
    + intro j. apply chan_ok_quiet; [|apply J7]. split; [reflexivity|]. split; [reflexivity|exact Logic.I].
    + exact J8.
    + intro j. rewrite starts_snoc, returns_snoc, J9. cbn. destruct (Nat.eqb i j); cbn; lia.
    + intros x Hx. now apply sender_ok_snoc, J10.
  - set (o := map (out_obs e i (c_handle c)) os).
    assert (Sh : forall x, In x o -> exists k ed rn, x = OCmd i (c_handle c) k ed rn).
    { intros x Hx. destruct Ho as [-> | (k & ed & rn & -> & _)]; [destruct Hx|]. destruct Hx as [<-|[]]. exists k, ed, rn. reflexivity. }
    assert (HH : harmless o) by (intros x Hx; destruct (Sh _ Hx) as (k & ed & rn & ->); exact Logic.I).
    assert (Lis : forall j x, listener_step j x l (TStart i ch e) o = if Nat.eqb i j then ch else x).
    { intros j x. cbn [listener_step]. rewrite (not_returned o j (harmless_rets o j HH)). now destruct (Nat.eqb i j). }
    assert (Li : (i < length (conns w))%nat) by (apply nth_error_Some; congruence).
    destruct J as [J1 J2 J3 J4 J5 J6 J7 J8 J9 J10]. split; cbn [conns tab bonds chans calls senders set_calls set_conns].
    + rewrite upd_length, created_same by exact Logic.I. exact J1.
    + intros j cj Hj. apply nth_upd in Hj. destruct Hj as [(-> & ->)|(Nj & Hj)].
      * destruct (J2 _ _ Hi) as [(cr & A & B & S) K E I L]. split.
        -- exists cr. split; [now apply conn_of_old|]. split; [exact B|]. exact S.
        -- intros s1 Hs1 Nk. now apply stk_snoc, K.
        -- rewrite encrypted_snoc. exact E.
        -- rewrite info_snoc. exact I.
        -- rewrite listener_snoc, Lis, Nat.eqb_refl. reflexivity.
      * destruct (J2 _ _ Hj) as [(cr & A & B & S) K E I L]. split.
        -- exists cr. split; [now apply conn_of_old|]. split; [exact B|]. exact S.
        -- intros s1 Hs1 Nk. now apply stk_snoc, K.
        -- rewrite encrypted_snoc. exact E.
        -- rewrite info_snoc. exact I.
        -- rewrite listener_snoc, Lis. destruct (Nat.eqb_spec i j); [congruence|exact L].
    + intros j Hj. rewrite upd_length in Hj. destruct (J3 _ Hj) as (V1 & V2 & V3). split; [rewrite encrypted_snoc; exact V1|]. split; [rewrite info_snoc; exact V2|].
      rewrite listener_snoc, Lis. destruct (Nat.eqb_spec i j); [lia|exact V3].
    + intro h. now rewrite owner_same.
    + intros h j Hj. rewrite upd_length. exact (J5 _ _ Hj).
    + intro x. rewrite store_quiet; [apply J6|]. intros y Hy. destruct (Sh _ Hy) as (k & ed & rn & ->). exact Logic.I.
    + intro k. apply chan_ok_quiet; [|apply J7]. now apply harmless_quiet.
    + intros x Hx. rewrite upd_length. apply in_app_or in Hx. destruct Hx as [Hx|[<-|[]]]; [now apply J8|exact Li].
    + intro j. rewrite starts_snoc, returns_snoc, J9, ncalls_app, (harmless_rets o j HH). unfold ncalls. cbn [filter l_conn]. destruct (Nat.eqb i j); cbn; lia.
    + intros x Hx. now apply sender_ok_snoc, J10.
Qed.
Lemma finish_inv : forall j w w' o, finish j w = Some (Ret (w', o)) ->
  exists c, nth_error (calls w) j = Some c /\
   ((l_ok c = true /\ o = [OStartRet (l_conn c) RNil] /\ w' = set_calls (firstn j (calls w) ++ skipn (S j) (calls w)) w) \/
    (l_ok c = false /\ o = [OStartRet (l_conn c) RError] /\
     w' = on_conn (l_conn c) (set_ch None) (set_calls (firstn j (calls w) ++ skipn (S j) (calls w)) w))).
Proof.
  intros j w w' o H. unfold finish in H. destruct (nth_error (calls w) j) as [c|]; [|discriminate]. exists c. split; [reflexivity|].
  destruct (l_ok c); apply (f_equal (fun x => match x with Some (Ret y) => y | _ => (w, []) end)) in H; injection H as <- <-.
  - left. split; [reflexivity|]. split; reflexivity.
  - right. split; [reflexivity|]. split; reflexivity.
Qed.
Lemma ncalls_remove : forall cs j c i, nth_error cs j = Some c -> ncalls i cs = (ncalls i (firstn j cs ++ skipn (S j) cs) + if Nat.eqb (l_conn c) i then 1 else 0)%nat.
Proof.
  intros cs j c i H. rewrite (nth_split_at _ _ _ H) at 1. rewrite !ncalls_app. unfold ncalls at 2. cbn [filter]. destruct (Nat.eqb (l_conn c) i); cbn [length]; unfold ncalls; lia.
Qed.
Lemma step_finish : forall l w j w' o, Iv l w -> finish j w = Some (Ret (w', o)) -> Iv (l ++ [(TFinish j, o)]) w'.
Proof.
  intros l w j w' o J H. destruct (finish_inv _ _ _ _ H) as (c & Hc & [(Ok & -> & ->)|(Ok & -> & ->)]).
  - assert (D : dull l (TFinish j) [OStartRet (l_conn c) RNil]) by (split; [reflexivity|split; reflexivity]).
    destruct J as [J1 J2 J3 J4 J5 J6 J7 J8 J9 J10]. split; cbn [conns tab bonds chans calls senders set_calls].
    + now rewrite created_same.
    + intros i ci Hi. apply conn_ok_dull; [exact D|]. now apply J2.
    + intros i Hi. apply virgin_dull; [exact D|]. now apply J3.
    + intro h. now rewrite owner_same.
    + exact J5.
    + intro x. rewrite store_quiet by (intros y [<-|[]]; exact Logic.I). apply J6.
    + intro k. apply chan_ok_quiet; [|apply J7]. split; [reflexivity|]. split; [reflexivity|exact Logic.I].
    + intros x Hx. apply J8. exact (remove_in _ _ _ Hx).
    + intro i. rewrite starts_snoc, returns_snoc, J9, (ncalls_remove _ _ _ i Hc). cbn. destruct (Nat.eqb (l_conn c) i); cbn; lia.
    + intros x Hx. now apply sender_ok_snoc, J10.
  - assert (Hl : (l_conn c < length (conns w))%nat) by (apply (J_calls _ _ _ _ _ J); apply (nth_error_In _ _ Hc)).
    apply nth_error_Some in Hl. destruct (nth_error (conns w) (l_conn c)) as [cn|] eqn:Hn; [|congruence]. clear Hl.
    assert (Li : (l_conn c < length (conns w))%nat) by (apply nth_error_Some; congruence).
    assert (Lis : forall i x, listener_step i x l (TFinish j) [OStartRet (l_conn c) RError] = if Nat.eqb (l_conn c) i then None else x).
    { intros i x. cbn. now destruct (Nat.eqb (l_conn c) i). }
    unfold on_conn. cbn [conns set_calls]. rewrite Hn.
    destruct J as [J1 J2 J3 J4 J5 J6 J7 J8 J9 J10]. split; cbn [conns tab bonds chans calls senders set_calls set_conns].
    + rewrite upd_length, created_same by exact Logic.I. exact J1.
    + intros i ci Hi. apply nth_upd in Hi. destruct Hi as [(-> & ->)|(Nj & Hi)].
      * destruct (J2 _ _ Hn) as [(cr & A & B & S) K E I L]. split.
        -- exists cr. split; [now apply conn_of_old|]. split; [exact B|]. exact S.
        -- intros s1 Hs1 Nk. now apply stk_snoc, K.
        -- rewrite encrypted_snoc. exact E.
        -- rewrite info_snoc. exact I.
        -- rewrite listener_snoc, Lis, Nat.eqb_refl. reflexivity.
      * destruct (J2 _ _ Hi) as [(cr & A & B & S) K E I L]. split.
        -- exists cr. split; [now apply conn_of_old|]. split; [exact B|]. exact S.
        -- intros s1 Hs1 Nk. now apply stk_snoc, K.
        -- rewrite encrypted_snoc. exact E.
        -- rewrite info_snoc. exact I.
        -- rewrite listener_snoc, Lis. destruct (Nat.eqb_spec (l_conn c) i); [congruence|exact L].
    + intros i Hi. rewrite upd_length in Hi. destruct (J3 _ Hi) as (V1 & V2 & V3). split; [rewrite encrypted_snoc; exact V1|]. split; [rewrite info_snoc; exact V2|].
      rewrite listener_snoc, Lis. destruct (Nat.eqb_spec (l_conn c) i); [lia|exact V3].
    + intro h. now rewrite owner_same.
    + intros h i Hi. rewrite upd_length. exact (J5 _ _ Hi).
    + intro x. rewrite store_quiet by (intros y [<-|[]]; exact Logic.I). apply J6.
    + intro k. apply chan_ok_quiet; [|apply J7]. split; [reflexivity|]. split; [reflexivity|exact Logic.I].
    + intros x Hx. rewrite upd_length. apply J8. exact (remove_in _ _ _ Hx).
    + intro i. rewrite starts_snoc, returns_snoc, J9, (ncalls_remove _ _ _ i Hc). cbn. destruct (Nat.eqb (l_conn c) i); cbn; lia.
    + intros x Hx. now apply sender_ok_snoc, J10.
Qed.
End Step.
