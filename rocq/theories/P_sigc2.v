(** Proofs for C191: local channel identifiers, the channels there are, counting answers and steps. *)
Require Import Verif.Base Verif.M_attsrv Verif.M_gattcli Verif.M_coc Verif.M_sigc Verif.S_sigc Verif.P_gattcli3 Verif.P_sigc.

Definition has_cid (th : thr) : Prop := match t_call th with KSig _ => t_cid th = 0 | KOpen _ => match t_ph th with PStart => t_cid th = 0 | PDone None => True | _ => t_cid th <> 0 end end.
Record cinv (s : sst) : Prop := mkC {
  n_next : s_next s = 0 \/ 64 <= s_next s <= 65535;
  n_rng : forall t th, nth_error (s_thr s) t = Some th -> t_cid th <> 0 -> 64 <= t_cid th <= 65535 /\ (s_next s = 0 \/ t_cid th < s_next s);
  n_uni : forall t t' th th', nth_error (s_thr s) t = Some th -> nth_error (s_thr s) t' = Some th' -> t_cid th <> 0 -> t_cid th = t_cid th' -> t = t';
  n_has : forall t th, nth_error (s_thr s) t = Some th -> has_cid th;
  n_lut : forall r c, aget (s_lut s) r = Some c -> c <> 0 /\ exists t th psm, nth_error (s_thr s) t = Some th /\ t_call th = KOpen psm /\ t_ph th = PDone (Some r) /\ t_cid th = c }.
Lemma cinv_0 : cinv s0.
Proof. split; cbn; try lia; try discriminate; intros [|t] *; discriminate. Qed.
Lemma cinv_move : forall s s' t th th', cinv s -> moved s s' t th th' -> t_cid th' = t_cid th -> s_next s' = s_next s -> s_lut s' = s_lut s -> (forall r, t_ph th <> PDone r) -> has_cid th' -> cinv s'.
Proof.
  intros s s' t th th' [A B C D E] MV CI NX LU ND HC.
  assert (G : forall u x, nth_error (s_thr s') u = Some x -> exists y, nth_error (s_thr s) u = Some y /\ t_cid x = t_cid y /\ (has_cid y -> has_cid x)).
  { intros u x N. destruct (Nat.eq_dec u t) as [->|NE].
    - rewrite (moved_self _ _ _ _ _ MV) in N. apply some_inj in N. subst x. exists th. split; [exact (mv_at _ _ _ _ _ MV)|]. split; [exact CI|auto].
    - rewrite (moved_other _ _ _ _ _ _ MV NE) in N. exists x. auto. }
  split.
  - now rewrite NX.
  - intros u x N Z0. destruct (G _ _ N) as (y & N' & EQ & _). rewrite NX, EQ in *. exact (B _ _ N' Z0).
  - intros u u' x x' N N' Z0 EQ. destruct (G _ _ N) as (y & M & Q & _). destruct (G _ _ N') as (y' & M' & Q' & _). apply (C u u' y y' M M'); congruence.
  - intros u x N. destruct (G _ _ N) as (y & M & _ & H). exact (H (D _ _ M)).
  - intros r c H. rewrite LU in H. destruct (E _ _ H) as (Z0 & u & x & psm & N & K & P & Q). split; [exact Z0|]. exists u, x, psm. split; [|auto].
    rewrite (moved_other _ _ _ _ _ _ MV); [exact N|]. intros ->. rewrite (mv_at _ _ _ _ _ MV) in N. apply some_inj in N. subst x. exact (ND _ P).
Qed.
Ltac mvx C N := (eapply (cinv_move _ _ _ _ _ C); [split; [exact N|reflexivity]|reflexivity|reflexivity|reflexivity|discriminate|]).
Lemma cinv_step : forall s t th s', cinv s -> inv s -> nth_error (s_thr s) t = Some th -> step s t th = Some s' -> cinv s'.
Proof.
  intros s t th s' C I N E. assert (KD := k_kind _ _ _ (i_thr _ I _ _ N)). assert (HC := n_has _ C _ _ N). destruct th as [k p cid id1 reg df ch]. unfold step in E. unfold has_cid in HC. cbn [t_call t_ph t_cid t_id t_reg t_def t_chan] in *.
  destruct p as [| |r| | | | | | | |c|r|r|r]; try discriminate E.
  - destruct k as [psm|m]; [|contradiction]. subst cid. destruct ((s_next s >? 65535) || (s_next s <? 64)) eqn:RG; apply some_inj in E; subst s'.
    + mvx C N. exact Logic.I.
    + apply Bool.orb_false_iff in RG. destruct RG as [R1 R2]. rewrite Z.gtb_ltb in R1. apply Z.ltb_ge in R1, R2. destruct C as [A B CU D L].
      assert (U : u16 (s_next s + 1) = 0 /\ s_next s = 65535 \/ u16 (s_next s + 1) = s_next s + 1 /\ s_next s < 65535).
      { unfold u16. destruct (Z.eq_dec (s_next s) 65535) as [->|NE]; [left; split; reflexivity|right]. split; [apply Z.mod_small; lia|lia]. }
      set (th' := {| t_call := KOpen psm; t_ph := PInc; t_cid := s_next s; t_id := id1; t_reg := reg; t_def := df; t_chan := ch |}).
      assert (G : forall u x, nth_error (upd (s_thr s) t th') u = Some x -> (u = t /\ x = th') \/ (u <> t /\ nth_error (s_thr s) u = Some x)).
      { intros u x H. rewrite (upd_get _ _ _ _ _ N) in H. destruct (Nat.eqb_spec t u) as [->|NE]; [left; split; [reflexivity|now injection H as <-]|right; split; [congruence|exact H]]. }
      split; cbn [with_thr with_next s_next s_thr s_lut].
      * lia.
      * intros u x H Z0. destruct (G _ _ H) as [[-> ->]|[NE H']]; [cbn [th' t_cid]; lia|]. destruct (B _ _ H' Z0) as [X Y]. split; [exact X|]. lia.
      * intros u u' x x' H H' Z0 EQ. destruct (G _ _ H) as [[-> ->]|[NE M]]; destruct (G _ _ H') as [[-> ->]|[NE' M']]; try reflexivity.
        { cbn [th' t_cid] in EQ. destruct (B _ _ M' ltac:(lia)). lia. }
        { cbn [th' t_cid] in EQ. destruct (B _ _ M ltac:(lia)). lia. }
        exact (CU _ _ _ _ M M' Z0 EQ).
      * intros u x H. destruct (G _ _ H) as [[-> ->]|[NE M]]; [unfold has_cid; cbn [th' t_call t_ph t_cid]; lia|exact (D _ _ M)].
      * intros r c H. destruct (L _ _ H) as (Z0 & u & x & q & M & K & P & Q). split; [exact Z0|]. exists u, x, q. split; [|auto]. rewrite (upd_get _ _ _ _ _ N). destruct (Nat.eqb_spec t u) as [->|NE]; [|exact M].
        rewrite N in M. apply some_inj in M. subst x. discriminate P.
  - apply some_inj in E; subst s'; mvx C N; unfold has_cid; cbn; destruct k; auto.
  - apply some_inj in E; subst s'; mvx C N; unfold has_cid; cbn; destruct k; auto.
  - apply some_inj in E; subst s'; mvx C N; unfold has_cid; cbn; destruct (s_sig s =? 0), k; auto.
  - apply some_inj in E; subst s'; mvx C N; unfold has_cid; cbn; destruct k; auto.
  - apply some_inj in E; subst s'; mvx C N; unfold has_cid; cbn; destruct k; auto.
  - apply some_inj in E; subst s'; mvx C N; unfold has_cid; cbn; destruct k; auto.
  - apply some_inj in E; subst s'; mvx C N; unfold has_cid; cbn; destruct k; auto.
  - destruct ch as [c|]; [|discriminate E]. apply some_inj in E; subst s'; mvx C N; unfold has_cid; cbn; destruct k; auto.
  - apply some_inj in E; subst s'; mvx C N; unfold has_cid; cbn; destruct k; auto.
  - apply some_inj in E; subst s'; mvx C N; unfold has_cid; cbn; destruct k, r; auto.
  - destruct k as [psm|m]; [|contradiction]. destruct (aget (s_lut s) r) eqn:LU; apply some_inj in E; subst s'.
    + mvx C N. exact Logic.I.
    + destruct C as [A B CU D L]. cbn [with_thr with_lut s_next s_thr s_lut ph t_call t_cid t_id t_reg t_def t_chan].
      set (th' := {| t_call := KOpen psm; t_ph := PDone (Some r); t_cid := cid; t_id := id1; t_reg := reg; t_def := df; t_chan := ch |}).
      assert (C1 : cinv (with_thr s t th')). { eapply (cinv_move s _ t _ th'); [split; assumption|split; [exact N|reflexivity]|reflexivity|reflexivity|reflexivity|discriminate|exact HC]. }
      destruct C1 as [A1 B1 C1 D1 L1]. split; cbn [with_thr with_lut s_next s_thr s_lut] in *; auto.
      intros r' c H. rewrite aget_aset in H. destruct (Z.eqb_spec r' r) as [EQ|NE]; [|exact (L1 _ _ H)]. injection H as <-. subst r'. split; [exact HC|]. exists t, th', psm. split; [|auto].
      rewrite (upd_get _ _ _ _ _ N), Nat.eqb_refl. reflexivity.
Qed.
Lemma cinv_exec : forall s a s', cinv s -> inv s -> exec s a = Some s' -> cinv s'.
Proof.
  intros s a s' C I E. destruct a as [k|t|t ok|t|c ok|r]; cbn [exec] in E.
  - apply some_inj in E. subst s'. destruct C as [A B CU D L].
    set (th' := mkT k (match k with KOpen _ => PStart | KSig _ => PInc end) 0 0 None 0 None).
    assert (G : forall u x, nth_error (s_thr s ++ [th']) u = Some x -> t_cid x <> 0 -> nth_error (s_thr s) u = Some x).
    { intros u x H Z0. destruct (call_new s (mkS 0 0 (fun _ => None) (s_thr s ++ [th']) [] [] []) th' u x eq_refl H) as [O|[_ ->]]; [exact O|now elim Z0]. }
    split; cbn [s_next s_thr s_lut].
    + exact A.
    + intros u x H Z0. exact (B _ _ (G _ _ H Z0) Z0).
    + intros u u' x x' H H' Z0 EQ. apply (CU u u' x x'); auto. apply G; congruence.
    + intros u x H. destruct (call_new s (mkS 0 0 (fun _ => None) (s_thr s ++ [th']) [] [] []) th' u x eq_refl H) as [O|[_ ->]]; [exact (D _ _ O)|]. unfold th', has_cid. destruct k; reflexivity.
    + intros r c H. destruct (L _ _ H) as (Z0 & u & x & q & M & K). split; [exact Z0|]. exists u, x, q. split; [|exact K]. rewrite nth_error_app1; [exact M|]. apply nth_error_Some. congruence.
  - destruct (nth_error (s_thr s) t) as [th|] eqn:N; [|discriminate E]. exact (cinv_step _ _ _ _ C I N E).
  - destruct (nth_error (s_thr s) t) as [[k p cid id1 reg df ch]|] eqn:N; [|discriminate E]. assert (HC := n_has _ C _ _ N). unfold has_cid in HC. cbn [t_call t_ph t_cid] in *. destruct p; try discriminate E.
    destruct ok; apply some_inj in E; subst s'; mvx C N; unfold has_cid; cbn; destruct k; auto.
  - destruct (nth_error (s_thr s) t) as [[k p cid id1 reg df ch]|] eqn:N; [|discriminate E]. assert (HC := n_has _ C _ _ N). unfold has_cid in HC. cbn [t_call t_ph t_cid] in *. destruct p; try discriminate E.
    apply some_inj in E; subst s'; mvx C N; unfold has_cid; cbn; destruct k; auto.
  - cbv zeta in E. assert (C2 : cinv (with_in s c)) by (destruct C; split; assumption). revert C2 E.
    assert (I2 : forall u th, s_pend (with_in s c) (i_id c) = Some u -> nth_error (s_thr (with_in s c)) u = Some th -> t_reg th <> None).
    { intros u th P N. destruct (pend_self s u th (i_id c) I N P) as [X _]. congruence. }
    assert (I3 : forall u th r, nth_error (s_thr (with_in s c)) u = Some th -> t_ph th = PDone r -> t_reg th <> None -> match t_call th with KSig _ => False | _ => True end).
    { intros u th r N P R. assert (K := k_kind _ _ _ (i_thr _ I _ _ N)). destruct (t_call th); [exact Logic.I|]. rewrite P in K. now destruct K. }
    revert I2 I3. generalize (with_in s c). clear s C I. intros s I2 I3 C E.
    destruct ((i_code c =? 6) || (i_code c =? 18) || (i_code c =? 20) || (i_code c =? 22)); [apply some_inj in E; now subst s'|].
    destruct (s_pend s (i_id c)) as [t|] eqn:P.
    + destruct (nth_error (s_thr s) t) as [[k p cid id1 reg df ch]|] eqn:N; [|discriminate E]. cbn [t_call t_ph t_cid t_id t_reg t_def t_chan] in *. destruct ch; [discriminate E|]. apply some_inj in E. subst s'.
      set (th' := mkT k p cid id1 reg df (Some c)). destruct C as [A B CU D L]. 
      assert (G : forall u x, nth_error (upd (s_thr s) t th') u = Some x -> exists y, nth_error (s_thr s) u = Some y /\ t_call x = t_call y /\ t_ph x = t_ph y /\ t_cid x = t_cid y).
      { intros u x H. rewrite (upd_get _ _ _ _ _ N) in H. destruct (Nat.eqb_spec t u) as [->|NE]; [injection H as <-; eexists; split; [exact N|auto]|eauto]. }
      split; cbn [with_thr with_pend s_next s_thr s_lut].
      * exact A.
      * intros u x H Z0. destruct (G _ _ H) as (y & M & _ & _ & Q). rewrite Q in *. exact (B _ _ M Z0).
      * intros u u' x x' H H' Z0 EQ. destruct (G _ _ H) as (y & M & _ & _ & Q). destruct (G _ _ H') as (y' & M' & _ & _ & Q'). apply (CU u u' y y' M M'); congruence.
      * intros u x H. destruct (G _ _ H) as (y & M & Q1 & Q2 & Q3). specialize (D _ _ M). unfold has_cid in *. now rewrite Q1, Q2, Q3.
      * intros r d H. destruct (L _ _ H) as (Z0 & u & x & q & M & K1 & K2 & K3). split; [exact Z0|].
        destruct (Nat.eq_dec t u) as [EQ|NE].
        { subst u. rewrite N in M. apply some_inj in M. subst x. exists t, th', q. split; [rewrite (upd_get _ _ _ _ _ N), Nat.eqb_refl; reflexivity|auto]. }
        exists u, x, q. split; [|auto]. rewrite (upd_get _ _ _ _ _ N). now rewrite (proj2 (Nat.eqb_neq _ _) NE).
    + apply some_inj in E. destruct ok; subst s'; [|exact C]. destruct C; split; assumption.
  - destruct (aget (s_lut s) r); [|discriminate E]. apply some_inj in E. subst s'. destruct C as [A B CU D L]. split; auto. cbn [with_lut s_lut s_thr]. intros r' c H. rewrite aget_adel in H. destruct (r' =? r); [discriminate H|]. exact (L _ _ H).
Qed.
Lemma runs_cinv : forall l s, runs l s -> cinv s.
Proof. apply (runs_ind (fun _ s => cinv s)); [exact cinv_0|]. intros l s a s' R C E. exact (cinv_exec _ _ _ C (runs_inv _ _ R) E). Qed.

(** Steps *)
Definition rank (p : phase) : nat :=
  match p with PStart => 13 | PInc => 12 | PIncW _ => 11 | PTest => 10 | PFix => 9 | PBuild => 8 | PReg => 7 | PDefer => 6 | PWrite => 5 | PWait => 4 | PCheck _ => 3 | PClean _ => 2 | PAdd _ => 1 | PDone _ => 0 end.
Lemma rank_exec : forall s a s' t th, exec s a = Some s' -> nth_error (s_thr s) t = Some th ->
  exists th', nth_error (s_thr s') t = Some th' /\ t_call th' = t_call th /\ (match actor a with Some u => if Nat.eqb u t then S (rank (t_ph th')) <= rank (t_ph th) else rank (t_ph th') = rank (t_ph th) | None => rank (t_ph th') = rank (t_ph th) end)%nat.
Proof.
  intros s a s' t th E N.
  assert (OWN : forall u x x' s', nth_error (s_thr s) u = Some x -> s_thr s' = upd (s_thr s) u x' -> t_call x' = t_call x -> (S (rank (t_ph x')) <= rank (t_ph x))%nat ->
    exists th', nth_error (s_thr s') t = Some th' /\ t_call th' = t_call th /\ (if Nat.eqb u t then S (rank (t_ph th')) <= rank (t_ph th) else rank (t_ph th') = rank (t_ph th))%nat).
  { intros u x x' s1 M T K R. rewrite T, (upd_get _ _ _ _ _ M). destruct (Nat.eqb_spec u t) as [->|NE]; [rewrite N in M; apply some_inj in M; subst x; exists x'; auto|exists th; auto]. }
  destruct a as [k|u|u ok|u|c ok|r]; cbn [exec actor] in *.
  - apply some_inj in E. subst s'. exists th. split; [|auto]. cbn [s_thr]. rewrite nth_error_app1; [exact N|]. apply nth_error_Some. congruence.
  - destruct (nth_error (s_thr s) u) as [x|] eqn:M; [|discriminate E]. unfold step in E. destruct x as [k p cid id1 reg df ch]. cbn [t_call t_ph t_cid t_id t_reg t_def t_chan] in *.
    destruct p as [| |r| | | | | | | |c|r|r|r]; try discriminate E;
      [destruct ((s_next s >? 65535) || (s_next s <? 64))| | | | | | | |destruct ch; [|discriminate E]| | |destruct (aget (s_lut s) r)]; apply some_inj in E; subst s';
      (eapply OWN; [exact M|reflexivity|reflexivity|cbn; try destruct (s_sig s =? 0); try destruct k; try destruct r; cbn; lia]).
  - destruct (nth_error (s_thr s) u) as [x|] eqn:M; [|discriminate E]. destruct x as [k p cid id1 reg df ch]. cbn [t_call t_ph t_cid t_id t_reg t_def t_chan] in *. destruct p; try discriminate E.
    destruct ok; apply some_inj in E; subst s'; (eapply OWN; [exact M|reflexivity|reflexivity|cbn; destruct k; cbn; lia]).
  - destruct (nth_error (s_thr s) u) as [x|] eqn:M; [|discriminate E]. destruct x as [k p cid id1 reg df ch]. cbn [t_call t_ph t_cid t_id t_reg t_def t_chan] in *. destruct p; try discriminate E.
    apply some_inj in E; subst s'; (eapply OWN; [exact M|reflexivity|reflexivity|cbn; lia]).
  - destruct ((i_code c =? 6) || (i_code c =? 18) || (i_code c =? 20) || (i_code c =? 22)); [apply some_inj in E; subst s'; exists th; auto|]. cbn [with_in s_pend s_thr] in E.
    destruct (s_pend s (i_id c)) as [u|]; [|apply some_inj in E; subst s'; exists th; destruct ok; auto].
    destruct (nth_error (s_thr s) u) as [x|] eqn:M; [|discriminate E]. destruct (t_chan x); [discriminate E|]. apply some_inj in E. subst s'. cbn [with_thr with_pend with_in s_thr]. rewrite (upd_get _ _ _ _ _ M).
    destruct (Nat.eqb_spec u t) as [EQ|NE]; [subst u|exists th; auto]. rewrite N in M. apply some_inj in M. subst x. eexists. split; [reflexivity|]. split; reflexivity.
  - destruct (aget (s_lut s) r); [|discriminate E]. apply some_inj in E. subst s'. exists th. auto.
Qed.
Lemma thr_known : forall s a s' t, exec s a = Some s' -> nth_error (s_thr s) t = None -> actor a <> Some t /\ forall th, nth_error (s_thr s') t = Some th -> (rank (t_ph th) <= 13)%nat.
Proof.
  intros s a s' t E N. split.
  - intro A. destruct a; cbn [actor exec] in *; try discriminate A; injection A as ->; rewrite N in E; discriminate E.
  - intros th _. destruct (t_ph th); cbn; lia.
Qed.
Lemma steps_bound : forall l s, runs l s -> forall t, match nth_error (s_thr s) t with Some th => (steps_of l t + rank (t_ph th) <= 13)%nat | None => steps_of l t = 0%nat end.
Proof.
  apply (runs_ind (fun l s => forall t, match nth_error (s_thr s) t with Some th => (steps_of l t + rank (t_ph th) <= 13)%nat | None => steps_of l t = 0%nat end)).
  - intros [|t]; reflexivity.
  - intros l s a s' R IH E t. specialize (IH t). assert (SO : steps_of (l ++ [a]) t = (steps_of l t + match actor a with Some u => if Nat.eqb u t then 1 else 0 | None => 0 end)%nat).
    { unfold steps_of. rewrite filter_app, app_length. f_equal. cbn [filter]. destruct (actor a) as [u|]; [destruct (Nat.eqb u t)|]; reflexivity. }
    rewrite SO. destruct (nth_error (s_thr s) t) as [th|] eqn:N.
    + destruct (rank_exec _ _ _ _ _ E N) as (th' & N' & _ & RK). rewrite N'. destruct (actor a) as [u|]; [destruct (Nat.eqb u t)|]; lia.
    + destruct (thr_known _ _ _ _ E N) as [A B]. assert (Z0 : match actor a with Some u => if Nat.eqb u t then 1%nat else 0%nat | None => 0%nat end = 0%nat).
      { destruct (actor a) as [u|]; [|reflexivity]. destruct (Nat.eqb_spec u t) as [EQ|NE]; [subst u; now elim A|reflexivity]. }
      rewrite Z0, IH. destruct (nth_error (s_thr s') t) as [th|]; [|reflexivity]. specialize (B th eq_refl). lia.
Qed.
