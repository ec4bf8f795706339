(** Proofs for C191: answers are counted; requests prepared apart keep their identifiers. *)
Require Import Verif.Base Verif.M_attsrv Verif.M_gattcli Verif.M_coc Verif.M_sigc Verif.S_sigc Verif.P_gattcli3 Verif.P_sigc.

Lemma judge_grants : forall z c r, all_bytes (i_data c) -> judge z c = Some r -> grants c r /\ granting c = true /\ i_id c = z.
Proof.
  intros z [code id d] r B J. unfold judge in J. cbn [i_code i_id i_data] in *. destruct (Z.eqb_spec code 21) as [EC|]; [|discriminate J]. subst code. cbn [negb] in J. destruct (Z.eqb_spec id z) as [EI|]; [|discriminate J]. cbn [negb] in J.
  unfold sig_unmarshal in J. destruct d as [|x0 [|x1 [|x2 [|x3 [|x4 [|x5 [|x6 [|x7 [|x8 [|x9 d]]]]]]]]]]; cbn [get_fields] in J; try discriminate J.
  destruct (Z.eqb_spec (de16 x8 x9) 0) as [E0|]; [|discriminate J]. injection J as <-. unfold all_bytes in B. repeat (apply Forall_cons_iff in B; let X := fresh "B" in destruct B as [X B]). unfold is_byte, de16 in *.
  assert (x8 = 0 /\ x9 = 0) as [-> ->] by lia. split; [|split; [reflexivity|exact EI]]. split; [reflexivity|]. do 9 eexists. split; reflexivity.
Qed.
Definition used (th : thr) : bool :=
  (match t_chan th with Some c => granting c | None => false end) ||
  (match t_ph th with PCheck c => granting c | PClean (Some _) | PAdd _ => true | PDone (Some _) => match t_call th with KOpen _ => true | KSig _ => false end | _ => false end).
Lemma opened_used : forall th, opened th = true -> used th = true.
Proof. intros [k p cid id reg df ch] H. unfold opened, used in *. cbn in *. destruct k; [|discriminate H]. destruct p; try discriminate H. destruct r; [|discriminate H]. apply Bool.orb_true_r. Qed.
Definition counted (s : sst) : Prop := (length (filter used (s_thr s)) <= length (filter granting (s_in s)))%nat.
Lemma counted_move : forall s s' t th th', counted s -> nth_error (s_thr s) t = Some th -> s_thr s' = upd (s_thr s) t th' -> s_in s' = s_in s -> (used th' = true -> used th = true) -> counted s'.
Proof. intros s s' t th th' C N T SI U. unfold counted in *. rewrite T, SI. assert (X := count_upd used _ _ _ th' N). destruct (used th'); [rewrite (U eq_refl) in X; lia|destruct (used th); lia]. Qed.
Lemma filter_snoc : forall {A} (f : A -> bool) l x, length (filter f (l ++ [x])) = (length (filter f l) + if f x then 1 else 0)%nat.
Proof. intros A f l x. rewrite filter_app, app_length. f_equal. cbn. destruct (f x); reflexivity. Qed.
Lemma counted_exec : forall s a s', counted s -> inv s -> Forall (fun c => all_bytes (i_data c)) (s_in s) -> exec s a = Some s' -> counted s'.
Proof.
  intros s a s' C I B E. rewrite Forall_forall in B. destruct a as [k|t|t ok|t|c ok|r]; cbn [exec] in E.
  - apply some_inj in E. subst s'. unfold counted in *. cbn [s_thr s_in]. rewrite filter_snoc. destruct k; cbn [used t_chan t_ph orb]; lia.
  - destruct (nth_error (s_thr s) t) as [th|] eqn:N; [|discriminate E]. assert (KK := k_check _ _ _ (i_thr _ I _ _ N)). assert (KD := k_kind _ _ _ (i_thr _ I _ _ N)). destruct th as [k p cid id1 reg df ch]. unfold step in E. cbn [t_call t_ph t_cid t_id t_reg t_def t_chan] in *.
    destruct p as [| |r| | | | | | | |c|r|r|r]; try discriminate E.
    1: destruct ((s_next s >? 65535) || (s_next s <? 64)).
    1-9: apply some_inj in E; subst s'; eapply (counted_move _ _ _ _ _ C N); [reflexivity|reflexivity|]; unfold used; cbn [t_chan t_ph t_call ph]; try (destruct k); try (destruct (s_sig s =? 0)); auto.
    + destruct ch as [c|]; [|discriminate E]. apply some_inj in E. subst s'. eapply (counted_move _ _ _ _ _ C N); [reflexivity|reflexivity|]. unfold used. cbn [t_chan t_ph]. rewrite Bool.orb_false_r. auto.
    + destruct (KK c eq_refl) as [IN _]. apply some_inj in E. subst s'. eapply (counted_move _ _ _ _ _ C N); [reflexivity|reflexivity|]. unfold used. cbn [t_chan t_ph ph].
      destruct (judge (s_sig s) c) as [r|] eqn:J; [destruct (judge_grants _ _ _ (B _ IN) J) as (_ & -> & _); intros _; apply Bool.orb_true_r|]. rewrite Bool.orb_false_r. intros ->. reflexivity.
    + apply some_inj in E. subst s'. eapply (counted_move _ _ _ _ _ C N); [reflexivity|reflexivity|]. unfold used. cbn [t_chan t_ph ph t_call]. destruct r; auto.
    + destruct (aget (s_lut s) r); apply some_inj in E; subst s'; (eapply (counted_move _ _ _ _ _ C N); [reflexivity|reflexivity|]); unfold used; cbn [t_chan t_ph ph t_call]; intros _; apply Bool.orb_true_r.
  - destruct (nth_error (s_thr s) t) as [[k p cid id1 reg df ch]|] eqn:N; [|discriminate E]. cbn [t_call t_ph t_chan] in *. destruct p; try discriminate E.
    destruct ok; apply some_inj in E; subst s'; (eapply (counted_move _ _ _ _ _ C N); [reflexivity|reflexivity|]); unfold used; cbn [t_chan t_ph ph t_call]; destruct k; auto.
  - destruct (nth_error (s_thr s) t) as [[k p cid id1 reg df ch]|] eqn:N; [|discriminate E]. cbn [t_call t_ph t_chan] in *. destruct p; try discriminate E.
    apply some_inj in E; subst s'; (eapply (counted_move _ _ _ _ _ C N); [reflexivity|reflexivity|]); unfold used; cbn [t_chan t_ph ph t_call]; auto.
  - cbv zeta in E. destruct ((i_code c =? 6) || (i_code c =? 18) || (i_code c =? 20) || (i_code c =? 22)).
    { apply some_inj in E; subst s'. unfold counted in *. cbn [with_in s_in s_thr]. rewrite filter_snoc. lia. }
    cbn [with_in s_pend s_thr] in E. destruct (s_pend s (i_id c)) as [t|] eqn:P.
    + destruct (i_pend _ I _ _ P) as (th & N & R & CH). rewrite N, CH in E. apply some_inj in E. subst s'. unfold counted in *. cbn [with_thr with_pend with_in s_in s_thr]. rewrite filter_snoc.
      assert (X := count_upd used _ _ _ (mkT (t_call th) (t_ph th) (t_cid th) (t_id th) (t_reg th) (t_def th) (Some c)) N). revert X. unfold used at 2 4. cbn [t_chan t_ph t_call]. rewrite CH. cbn [orb].
      destruct (granting c); cbn [orb]; intro X; match type of X with context [if ?b then _ else _] => destruct b end; lia.
    + apply some_inj in E; unfold counted in *. destruct ok; subst s'; cbn [with_in with_log s_in s_thr]; rewrite filter_snoc; lia.
  - destruct (aget (s_lut s) r); [|discriminate E]. apply some_inj in E. subst s'. exact C.
Qed.
Lemma in_exec : forall s a s', exec s a = Some s' -> s_in s' = match a with AIncoming c _ => s_in s ++ [c] | _ => s_in s end.
Proof.
  intros s a s' E. destruct a as [k|t|t ok|t|c ok|r]; cbn [exec] in E.
  - apply some_inj in E. now subst s'.
  - destruct (nth_error (s_thr s) t) as [th|]; [|discriminate E]. unfold step in E. destruct (t_ph th); try discriminate E; try (apply some_inj in E; now subst s').
    + destruct ((s_next s >? 65535) || (s_next s <? 64)); apply some_inj in E; now subst s'.
    + destruct (t_chan th); [|discriminate E]. apply some_inj in E. now subst s'.
    + destruct (aget (s_lut s) r); apply some_inj in E; now subst s'.
  - destruct (nth_error (s_thr s) t) as [th|]; [|discriminate E]. destruct (t_ph th); try discriminate E. destruct ok; apply some_inj in E; now subst s'.
  - destruct (nth_error (s_thr s) t) as [th|]; [|discriminate E]. destruct (t_ph th); try discriminate E. apply some_inj in E; now subst s'.
  - cbv zeta in E. destruct ((i_code c =? 6) || (i_code c =? 18) || (i_code c =? 20) || (i_code c =? 22)); [apply some_inj in E; now subst s'|]. cbn [with_in s_pend s_thr] in E.
    destruct (s_pend s (i_id c)) as [u|]; [|apply some_inj in E; subst s'; destruct ok; reflexivity]. destruct (nth_error (s_thr s) u) as [x|]; [|discriminate E]. destruct (t_chan x); [discriminate E|]. apply some_inj in E. now subst s'.
  - destruct (aget (s_lut s) r); [|discriminate E]. apply some_inj in E. now subst s'.
Qed.
Lemma runs_in : forall l s, runs l s -> forall c, In c (s_in s) -> exists ok, In (AIncoming c ok) l.
Proof.
  apply (runs_ind (fun l s => forall c, In c (s_in s) -> exists ok, In (AIncoming c ok) l)); [intros c []|]. intros l s a s' _ IH E c H. rewrite (in_exec _ _ _ E) in H.
  destruct a as [k|t|t ok|t|c' ok|r]; try (destruct (IH c H) as (ok' & X); exists ok'; apply in_or_app; now left).
  apply in_app_or in H. destruct H as [H|[->|[]]]; [destruct (IH c H) as (ok' & X); exists ok'; apply in_or_app; now left|]. exists ok. apply in_or_app. right. now left.
Qed.
Lemma runs_bytes : forall l s, runs l s -> in_bytes l -> Forall (fun c => all_bytes (i_data c)) (s_in s).
Proof. intros l s R B. apply Forall_forall. intros c H. destruct (runs_in _ _ R c H) as (ok & X). unfold in_bytes in B. rewrite Forall_forall in B. exact (B _ X). Qed.
Lemma runs_counted : forall l s, runs l s -> in_bytes l -> counted s.
Proof.
  apply (runs_ind (fun l s => in_bytes l -> counted s)); [intros _; apply Nat.le_refl|]. intros l s a s' R IH E B. apply Forall_app in B. destruct B as [B _]. exact (counted_exec _ _ _ (IH B) (runs_inv _ _ R) (runs_bytes _ _ R B) E).
Qed.

(** Requests prepared apart *)
Definition aok (s : sst) (th : thr) : Prop :=
  match t_ph th with
  | PBuild => s_sig s <> 0
  | PReg => t_id th = s_sig s /\ t_id th <> 0
  | PDefer => t_id th = s_sig s /\ t_reg th = Some (t_id th) /\ t_id th <> 0
  | PWrite => t_id th <> 0 /\ match t_call th with KOpen _ => t_reg th = Some (t_id th) | _ => True end
  | PWait | PCheck _ | PClean _ | PAdd _ | PDone (Some _) => match t_call th with KOpen _ => t_reg th = Some (t_id th) | _ => True end
  | _ => True
  end.
Definition prep (p : phase) : bool := match p with PIncW _ | PTest | PFix | PBuild | PReg | PDefer => true | _ => false end.
Record ainv (s : sst) : Prop := mkA {
  a_thr : forall t th, nth_error (s_thr s) t = Some th -> aok s th;
  a_log : forall t p, In (Some t, p) (s_log s) -> nth 5 p 0 <> 0;
  a_sig : 0 <= s_sig s < 256 }.
Definition alone (s : sst) : Prop := forall t t', preparing s t -> preparing s t' -> t = t'.
Lemma prep_preparing : forall s t th, nth_error (s_thr s) t = Some th -> prep (t_ph th) = true -> preparing s t.
Proof. intros s t th N P. exists th. split; [exact N|]. destruct (t_ph th); try discriminate P; exact Logic.I. Qed.
Lemma aok_sig : forall s s' th, aok s th -> (s_sig s' = s_sig s \/ prep (t_ph th) = false) -> aok s' th.
Proof. intros s s' th A [EQ|P]; unfold aok in *; [rewrite EQ; exact A|]. destruct (t_ph th); try discriminate P; exact A. Qed.
Lemma ainv_move : forall s s' t th th', ainv s -> nth_error (s_thr s) t = Some th -> s_thr s' = upd (s_thr s) t th' -> aok s' th' ->
  (s_sig s' = s_sig s \/ (alone s /\ prep (t_ph th) = true /\ 0 <= s_sig s' < 256)) -> (forall u p, In (Some u, p) (s_log s') -> nth 5 p 0 <> 0) -> ainv s'.
Proof.
  intros s s' t th th' [A B C] N T OK SG LG. split; [|exact LG|destruct SG as [->|(_ & _ & X)]; assumption].
  intros u x H. rewrite T, (upd_get _ _ _ _ _ N) in H. destruct (Nat.eqb_spec t u) as [EQ|NE]; [injection H as <-; exact OK|]. apply (aok_sig s); [exact (A _ _ H)|].
  destruct SG as [SG|(AL & P & _)]; [now left|right]. destruct (prep (t_ph x)) eqn:Q; [|reflexivity]. elim NE. exact (AL _ _ (prep_preparing _ _ _ N P) (prep_preparing _ _ _ H Q)).
Qed.
Lemma request_id : forall th, nth 5 (request th) 0 = t_id th.
Proof. intros [k p cid id reg df ch]. unfold request, sig_pdu. cbn [t_call t_cid t_id]. reflexivity. Qed.
Lemma ainv_exec : forall s a s', ainv s -> inv s -> alone s -> exec s a = Some s' -> ainv s'.
Proof.
  intros s a s' A I AL E. destruct a as [k|t|t ok|t|c ok|r]; cbn [exec] in E.
  - apply some_inj in E. subst s'. destruct A as [A B C]. split; [|exact B|exact C]. intros u x N.
    destruct (call_new s (mkS 0 0 (fun _ => None) (s_thr s ++ [mkT k (match k with KOpen _ => PStart | KSig _ => PInc end) 0 0 None 0 None]) [] [] []) _ u x eq_refl N) as [O|[_ ->]].
    + apply (aok_sig s); [exact (A _ _ O)|now left].
    + destruct k; exact Logic.I.
  - destruct (nth_error (s_thr s) t) as [th|] eqn:N; [|discriminate E]. assert (OK := a_thr _ A _ _ N). assert (KD := k_kind _ _ _ (i_thr _ I _ _ N)). assert (LG := a_log _ A). assert (SG := a_sig _ A).
    destruct th as [k p cid id1 reg df ch]. unfold step in E. unfold aok in OK. cbn [t_call t_ph t_cid t_id t_reg t_def t_chan] in *.
    destruct p as [| |r| | | | | | | |c|r|r|r]; try discriminate E.
    + destruct ((s_next s >? 65535) || (s_next s <? 64)); apply some_inj in E; subst s'; (eapply (ainv_move _ _ _ _ _ A N); [reflexivity|exact Logic.I|left; reflexivity|exact LG]).
    + apply some_inj in E; subst s'; (eapply (ainv_move _ _ _ _ _ A N); [reflexivity|exact Logic.I|left; reflexivity|exact LG]).
    + apply some_inj in E; subst s'; (eapply (ainv_move _ _ _ _ _ A N); [reflexivity|exact Logic.I|right; split; [exact AL|split; [reflexivity|]]|exact LG]). cbn [with_thr with_sig s_sig]. unfold u8. apply Z.mod_pos_bound. lia.
    + apply some_inj in E; subst s'; (eapply (ainv_move _ _ _ _ _ A N); [reflexivity| |left; reflexivity|exact LG]). unfold aok. cbn [ph t_ph]. destruct (Z.eqb_spec (s_sig s) 0); [exact Logic.I|]. cbn. assumption.
    + apply some_inj in E; subst s'; (eapply (ainv_move _ _ _ _ _ A N); [reflexivity| |right; split; [exact AL|split; [reflexivity|]]|exact LG]); cbn; lia.
    + apply some_inj in E; subst s'; (eapply (ainv_move _ _ _ _ _ A N); [reflexivity| |left; reflexivity|exact LG]). unfold aok. cbn [t_ph t_call t_id t_reg with_thr s_sig]. destruct k; auto.
    + apply some_inj in E; subst s'; (eapply (ainv_move _ _ _ _ _ A N); [reflexivity| |left; reflexivity|exact LG]). unfold aok. cbn [t_ph t_call t_id t_reg with_thr with_pend s_sig]. destruct OK as [-> OK]. auto.
    + apply some_inj in E; subst s'; (eapply (ainv_move _ _ _ _ _ A N); [reflexivity| |left; reflexivity|exact LG]). unfold aok. cbn [t_ph t_call t_id t_reg with_thr s_sig]. destruct OK as (_ & O1 & O2). destruct k; auto.
    + destruct ch as [c|]; [|discriminate E]. apply some_inj in E; subst s'; (eapply (ainv_move _ _ _ _ _ A N); [reflexivity|exact OK|left; reflexivity|exact LG]).
    + apply some_inj in E; subst s'; (eapply (ainv_move _ _ _ _ _ A N); [reflexivity|exact OK|left; reflexivity|exact LG]).
    + apply some_inj in E; subst s'; (eapply (ainv_move _ _ _ _ _ A N); [reflexivity| |left; reflexivity|exact LG]). destruct r; [exact OK|exact Logic.I].
    + destruct (aget (s_lut s) r); apply some_inj in E; subst s'; (eapply (ainv_move _ _ _ _ _ A N); [reflexivity| |left; reflexivity|exact LG]); [exact Logic.I|exact OK].
  - destruct (nth_error (s_thr s) t) as [th|] eqn:N; [|discriminate E]. assert (OK := a_thr _ A _ _ N). assert (LG := a_log _ A). assert (RI := request_id th).
    destruct th as [k p cid id1 reg df ch]. unfold aok in OK. cbn [t_call t_ph t_cid t_id t_reg t_def t_chan] in *. destruct p; try discriminate E. destruct OK as [O1 O2].
    destruct ok; apply some_inj in E; subst s'; (eapply (ainv_move _ _ _ _ _ A N); [reflexivity| |left; reflexivity|]).
    + destruct k; [exact O2|exact Logic.I].
    + intros u p H. cbn [with_thr with_log s_log] in H. apply in_app_or in H. destruct H as [H|[H|[]]]; [exact (LG _ _ H)|]. injection H as <- <-. now rewrite RI.
    + destruct k; [exact O2|exact Logic.I].
    + exact LG.
  - destruct (nth_error (s_thr s) t) as [th|] eqn:N; [|discriminate E]. assert (OK := a_thr _ A _ _ N). assert (LG := a_log _ A). destruct th as [k p cid id1 reg df ch]. unfold aok in OK. cbn [t_call t_ph t_cid t_id t_reg t_def t_chan] in *. destruct p; try discriminate E.
    apply some_inj in E; subst s'; (eapply (ainv_move _ _ _ _ _ A N); [reflexivity|exact OK|left; reflexivity|exact LG]).
  - cbv zeta in E. assert (A2 : ainv (with_in s c)). { destruct A as [A B C]. split; [|exact B|exact C]. intros u x H. apply (aok_sig s); [exact (A _ _ H)|now left]. } revert A2 E. generalize (with_in s c). clear s I AL A. intros s A E.
    destruct ((i_code c =? 6) || (i_code c =? 18) || (i_code c =? 20) || (i_code c =? 22)); [apply some_inj in E; now subst s'|].
    destruct (s_pend s (i_id c)) as [t|] eqn:P.
    + destruct (nth_error (s_thr s) t) as [th|] eqn:N; [|discriminate E]. destruct (t_chan th); [discriminate E|]. apply some_inj in E. subst s'.
      eapply (ainv_move _ _ _ _ _ A N); [reflexivity| |left; reflexivity|exact (a_log _ A)]. apply (aok_sig s); [exact (a_thr _ A _ _ N)|now left].
    + apply some_inj in E. destruct ok; subst s'; [|exact A]. destruct A as [A B C]. split; [|intros u p H; apply in_app_or in H; destruct H as [H|[H|[]]]; [exact (B _ _ H)|discriminate H]|exact C].
      intros u x H. apply (aok_sig s); [exact (A _ _ H)|now left].
  - destruct (aget (s_lut s) r); [|discriminate E]. apply some_inj in E. subst s'. destruct A as [A B C]. split; [|exact B|exact C]. intros u x H. apply (aok_sig s); [exact (A _ _ H)|now left].
Qed.
Lemma apart_app : forall l a, apart (l ++ [a]) -> apart l.
Proof. intros l a A l1 l2 s t t' EQ. apply (A l1 (l2 ++ [a]) s t t'). rewrite EQ. now rewrite app_assoc. Qed.
Lemma runs_ainv : forall l s, runs l s -> apart l -> ainv s.
Proof.
  apply (runs_ind (fun l s => apart l -> ainv s)).
  - intros _. split; [intros [|t] th H; discriminate H|intros t p []|cbn; lia].
  - intros l s a s' R IH E A. apply (ainv_exec _ _ _ (IH (apart_app _ _ A)) (runs_inv _ _ R)) with (2 := E). intros t t'. exact (A l [a] s t t' eq_refl R).
Qed.
