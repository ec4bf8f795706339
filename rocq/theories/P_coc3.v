(** Invariants of all histories of a connection. *)
Require Import Verif.Base Verif.M_attsrv Verif.M_gattcli Verif.M_coc Verif.S_coc Verif.P_gattcli Verif.P_gattcli3 Verif.P_coc Verif.P_coc2.

(** what only writes PDUs leaves everything else alone *)
Definition quiet (s s' : cst) : Prop := c_next s' = c_next s /\ c_lut s' = c_lut s /\ c_wait s' = c_wait s /\ c_send s' = c_send s /\ c_chans s' = c_chans s.
Lemma quiet_refl : forall s, quiet s s. Proof. intro s. unfold quiet. auto. Qed.
Lemma quiet_put : forall w s p s' b, put_pdu w s p = (s', b) -> quiet s s'.
Proof. intros w s p s' b H. unfold put_pdu in H. destruct (w (c_log s)); injection H as <- <-; unfold quiet; auto. Qed.
Lemma quiet_response : forall w s id m, quiet s (send_response w s id m).
Proof. intros w s id m. unfold send_response. destruct (put_pdu _ _ _) as [s' b] eqn:E. cbn [fst]. now apply quiet_put in E. Qed.
Lemma quiet_signal : forall w s m, quiet s (signal_only w s m).
Proof. intros w s m. unfold signal_only. destruct (put_pdu _ _ _) as [s' b] eqn:E. cbn [fst]. apply quiet_put in E. exact E. Qed.

Definition invC (lut : list (Z * coi)) (chans : list (list bytes * bool)) : Prop :=
  (forall k i n, In (k, i) lut -> ci_chan i = Some n -> exists q, nth_error chans n = Some (q, true)) /\
  (forall k i k' i' n, In (k, i) lut -> In (k', i') lut -> ci_chan i = Some n -> ci_chan i' = Some n -> k = k').
Definition inv (s : cst) : Prop := invA (c_next s) (c_lut s) (c_wait s) /\ invC (c_lut s) (c_chans s).
Lemma inv_quiet : forall s s', quiet s s' -> inv s -> inv s'.
Proof. intros s s' (E1 & E2 & E3 & E4 & E5) [A C]. unfold inv. rewrite E1, E2, E3, E5. split; assumption. Qed.
Lemma C_entry : forall lut chans k i i', NoDup (map fst lut) -> invC lut chans -> aget lut k = Some i -> (ci_chan i' = ci_chan i \/ ci_chan i' = None) -> invC (aset lut k i') chans.
Proof.
  intros lut chans k i i' ND [C1 C2] G E. assert (GI := aget_in _ _ _ G). split.
  - intros a x n I X. apply aset_in in I. destruct I as [I|I]; [|now apply (C1 a x)]. injection I as -> ->. destruct E as [E|E]; [|congruence]. apply (C1 k i); [exact GI|congruence].
  - intros a x b y n I J X Y. apply aset_in in I. apply aset_in in J. destruct I as [I|I], J as [J|J]; try (injection I as -> ->); try (injection J as -> ->); [reflexivity| | |now apply (C2 a x b y n)].
    + destruct E as [E|E]; [|congruence]. apply (C2 k i b y n); auto; congruence.
    + destruct E as [E|E]; [|congruence]. apply (C2 a x k i n); auto; congruence.
Qed.
Lemma close_chan_same : forall s ch, c_next (close_chan s ch) = c_next s /\ c_lut (close_chan s ch) = c_lut s /\ c_wait (close_chan s ch) = c_wait s.
Proof. intros s [n|]; cbn [close_chan]; [destruct (nth_error (c_chans s) n) as [[q o]|]|]; auto. Qed.
Lemma close_chan_nth : forall s ch m q, nth_error (c_chans s) m = Some (q, true) -> ch <> Some m -> nth_error (c_chans (close_chan s ch)) m = Some (q, true).
Proof.
  intros s [n|] m q H N; cbn [close_chan]; [|exact H]. destruct (nth_error (c_chans s) n) as [[q' o]|] eqn:E; [|exact H]. cbn [set_chans c_chans]. rewrite nth_error_upd. destruct (Nat.eqb n m) eqn:Q; [|exact H].
  apply Nat.eqb_eq in Q. subst m. congruence.
Qed.
Lemma adel_neq : forall {V} (m : list (Z * V)) k x, In x (adel m k) -> fst x <> k.
Proof. intros V m k x. induction m as [|[a w] m IH]; cbn [adel]; [intros []|]. destruct (k =? a) eqn:E; [exact IH|]. intros [<-|I]; [cbn; lia|auto]. Qed.
Lemma aset_other : forall {V} (m : list (Z * V)) k v x, NoDup (map fst m) -> In x (aset m k v) -> x = (k, v) \/ (In x m /\ fst x <> k).
Proof.
  intros V m k v x N. induction m as [|[a w] m IH]; cbn [aset]; [intros [<-|[]]; auto|]. cbn [map fst] in N. apply NoDup_cons_iff in N. destruct N as [N1 N2]. destruct (k =? a) eqn:E; intros [<-|I].
  - left. apply Z.eqb_eq in E. congruence.
  - right. split; [now right|]. apply Z.eqb_eq in E. subst a. intro Q. apply N1. rewrite <- Q. now apply in_map.
  - right. split; [now left|]. cbn. lia.
  - destruct (IH N2 I) as [->|[J K]]; [now left|right; split; [now right|exact K]].
Qed.
Lemma inv_modify : forall s cid n add s' b, inv s -> modify_credits s cid n add = (s', b) -> inv s'.
Proof.
  intros s cid n add s' b [A C] H. unfold modify_credits in H. destruct (aget (c_lut s) cid) as [v|] eqn:G; [|injection H as <- <-; split; assumption].
  assert (X : forall x, inv (set_lut (aset (c_lut s) cid (mkCI (ci_local v) (ci_remote v) x (ci_mtu v) (ci_mps v) (ci_chan v) (ci_rx v))) s)).
  { intro x. split; cbn [set_lut c_next c_lut c_wait c_chans].
    - apply A_entry with v; auto. cbn. destruct A as (_ & _ & _ & _ & A5 & _). exact (proj1 (proj2 (A5 _ _ (aget_in _ _ _ G)))).
    - apply C_entry with v; auto. destruct A as (_ & _ & _ & A4 & _). exact A4. }
  destruct add; [destruct (_ >? 65535)|destruct (n >? _)]; injection H as <- <-; try (split; assumption); apply X.
Qed.
Lemma inv_open : forall w s psm s' r, inv s -> open_start w s psm = (s', r) -> inv s'.
Proof.
  intros w s psm s' r [A C] H. unfold open_start, next_cid in H. destruct (_ || _) eqn:E; [injection H as <- <-; split; assumption|]. assert (NX : 64 <= c_next s <= 65535) by lia.
  destruct (put_pdu _ _ _) as [s1 b] eqn:P. apply quiet_put in P. destruct P as (E1 & E2 & E3 & E4 & E5). cbn [set_pend set_sig set_next c_next c_lut c_wait c_send c_chans] in *.
  destruct b; injection H as <- <-; split; cbn [set_wait set_pend c_next c_lut c_wait c_chans]; rewrite ?E1, ?E2, ?E3, ?E5; try exact C; [now apply A_open|now apply A_next].
Qed.
Lemma inv_finish : forall s k s' r, inv s -> open_finish s k = Ret (s', r) -> inv s'.
Proof.
  intros s k s' r [A C] H. unfold open_finish in H. destruct (nth_error (c_wait s) k) as [wt|] eqn:N; [|injection H as <- <-; split; assumption].
  destruct (w_done wt) eqn:D; [injection H as <- <-; split; assumption|].
  set (s1 := set_pend _ _) in H. assert (I1 : inv s1).
  { split; cbn [s1 set_pend set_wait c_next c_lut c_wait c_chans]; [|exact C]. apply A_wait with wt; auto. }
  destruct (w_rsp wt) as [b|]; [|injection H as <- <-; exact I1]. destruct (sc_code b) as [code|]; [|discriminate]. cbn [gbind] in H. destruct (code =? 21); cbn [negb] in H; [|injection H as <- <-; exact I1].
  destruct (sc_id b) as [id|]; [|discriminate]. cbn [gbind] in H. destruct (id =? c_sig s); cbn [negb] in H; [|injection H as <- <-; exact I1].
  destruct (sc_data b) as [d|]; [|discriminate]. cbn [gbind] in H. destruct (sig_unmarshal 21 d) as [[| | | | | | | |dcid mtu mps credits result| | |]|]; try (injection H as <- <-; exact I1).
  destruct (result =? 0); cbn [negb] in H; [|injection H as <- <-; exact I1]. unfold add_channel in H. destruct (aget (c_lut s1) dcid) as [v|] eqn:G; [injection H as <- <-; exact I1|]. injection H as <- <-.
  split; cbn [set_lut s1 set_pend set_wait c_next c_lut c_wait c_chans] in *; [now apply A_add|]. destruct C as [C1 C2]. split.
  - intros a x n I X. apply aset_in in I. destruct I as [I|I]; [injection I as -> ->; discriminate|]. now apply (C1 a x).
  - intros a x a' y n I J X Y. apply aset_in in I. apply aset_in in J. destruct I as [I|I]; [injection I as -> ->; discriminate|]. destruct J as [J|J]; [injection J as -> ->; discriminate|]. now apply (C2 a x a' y n).
Qed.
Lemma inv_close : forall s cid s' b, inv s -> close_channel s cid = (s', b) -> inv s'.
Proof.
  intros s cid s' b [A C] H. unfold close_channel in H. destruct (aget (c_lut s) cid) as [i|] eqn:G; [|injection H as <- <-; split; assumption]. injection H as <- <-.
  destruct (close_chan_same s (ci_chan i)) as (E1 & E2 & E3). split; cbn [set_lut c_next c_lut c_wait c_chans]; rewrite ?E1, ?E3; [now apply A_del|]. destruct C as [C1 C2]. split.
  - intros k j n I X. assert (NE := adel_neq _ _ _ I). cbn [fst] in NE. apply adel_in in I. destruct (C1 _ _ _ I X) as (q & Q). exists q. apply close_chan_nth; [exact Q|]. intro Y. apply NE. exact (C2 _ _ _ _ _ I (aget_in _ _ _ G) X Y).
  - intros k j k' j' n I J. apply adel_in in I. apply adel_in in J. now apply (C2 k j k' j').
Qed.
Lemma local_key : forall s l i, inv s -> find_local (c_lut s) l = Some i -> aget (c_lut s) (ci_remote i) = Some i /\ ci_local i = l /\ ci_rx i = None.
Proof.
  intros s l i [(_ & _ & _ & A4 & A5 & _) _] H. apply find_local_in in H. destruct H as (k & I & L). destruct (A5 k i I) as (R & X & _). split; [|auto]. rewrite R. now apply in_aget.
Qed.
Lemma inv_sub : forall s l s' r, inv s -> coc_subscribe s l = (s', r) -> inv s'.
Proof.
  intros s l s' r I H. unfold coc_subscribe in H. destruct (find_local (c_lut s) l) as [i|] eqn:F; [|injection H as <- <-; exact I]. destruct (ci_chan i) as [n|] eqn:CH; [injection H as <- <-; exact I|]. injection H as <- <-.
  destruct (local_key s l i I F) as (G & L & X). destruct I as [A C]. split; cbn [set_lut set_chans c_next c_lut c_wait c_chans].
  - apply A_entry with i; auto.
  - destruct C as [C1 C2]. destruct A as (_ & _ & _ & A4 & _). assert (OLD : forall k j n, In (k, j) (c_lut s) -> ci_chan j = Some n -> (n < length (c_chans s))%nat).
    { intros k j n J Y. destruct (C1 _ _ _ J Y) as (q & Q). apply nth_error_Some. congruence. }
    split.
    + intros k j n J Y. apply aset_other in J; [|exact A4]. destruct J as [J|[J _]].
      * injection J as -> ->. cbn in Y. injection Y as <-. exists []. rewrite nth_error_app2 by lia. now rewrite Nat.sub_diag.
      * destruct (C1 _ _ _ J Y) as (q & Q). exists q. rewrite nth_error_app1; [exact Q|]. now apply (OLD k j).
    + intros k j k' j' n J J' Y Y'. apply aset_other in J; [|exact A4]. apply aset_other in J'; [|exact A4]. destruct J as [J|[J _]], J' as [J'|[J' _]]; try (injection J as -> ->); try (injection J' as -> ->); [reflexivity| | |now apply (C2 k j k' j' n)]; cbn in *.
      * injection Y as <-. assert (Q := OLD _ _ _ J' Y'). lia.
      * injection Y' as <-. assert (Q := OLD _ _ _ J Y). lia.
Qed.
Lemma inv_unsub : forall s l s' r, inv s -> coc_unsubscribe s l = (s', r) -> inv s'.
Proof.
  intros s l s' r I H. unfold coc_unsubscribe in H. destruct (find_local (c_lut s) l) as [i|] eqn:F; [|injection H as <- <-; exact I]. injection H as <- <-.
  destruct (local_key s l i I F) as (G & L & X). destruct I as [A C]. destruct (close_chan_same s (ci_chan i)) as (E1 & E2 & E3). split; cbn [set_lut c_next c_lut c_wait c_chans]; rewrite ?E1, ?E3.
  - apply A_entry with i; auto.
  - destruct C as [C1 C2]. destruct A as (_ & _ & _ & A4 & _). split.
    + intros k j n J Y. apply aset_other in J; [|exact A4]. destruct J as [J|[J NE]]; [injection J as -> ->; discriminate|]. destruct (C1 _ _ _ J Y) as (q & Q). exists q. apply close_chan_nth; [exact Q|].
      intro Z. apply NE. cbn [fst]. exact (C2 _ _ _ _ _ J (aget_in _ _ _ G) Y Z).
    + intros k j k' j' n J J' Y Y'. apply aset_other in J; [|exact A4]. apply aset_other in J'; [|exact A4]. destruct J as [J|[J _]], J' as [J'|[J' _]]; try (injection J as -> ->); try (injection J' as -> ->); try discriminate; now apply (C2 k j k' j' n).
Qed.
Lemma inv_chan_upd : forall s n q q' , inv s -> nth_error (c_chans s) n = Some q -> snd q' = snd q -> inv (set_chans (upd (c_chans s) n q') s).
Proof.
  intros s n q q' [A [C1 C2]] N E. split; [exact A|]. split; [|exact C2]. cbn [set_chans c_lut c_chans]. intros k i m I X. destruct (C1 _ _ _ I X) as (r & R). rewrite nth_error_upd. destruct (Nat.eqb n m) eqn:Q; [|now exists r].
  apply Nat.eqb_eq in Q. subst m. rewrite R in N. injection N as <-. assert (L : (n < length (c_chans s))%nat) by (apply nth_error_Some; congruence). rewrite (proj2 (Nat.ltb_lt _ _) L). destruct q' as [r' o]. cbn in E. subst o. now exists r'.
Qed.
Lemma push_inv : forall s ch b, (forall n, ch = Some n -> exists q, nth_error (c_chans s) n = Some (q, true)) ->
  push_chan s ch b = Ret (s, false) \/ exists n q, ch = Some n /\ nth_error (c_chans s) n = Some (q, true) /\ (length q < 8)%nat /\ push_chan s ch b = Ret (set_chans (upd (c_chans s) n (q ++ [b], true)) s, true).
Proof.
  intros s [n|] b H; cbn [push_chan]; [|now left]. destruct (H n eq_refl) as (q & Q). rewrite Q. destruct (Nat.ltb (length q) 8) eqn:L; [|now left]. right. exists n, q. apply Nat.ltb_lt in L. auto.
Qed.
(** what a frame does to a channel that is open here *)
Lemma receive_shape : forall w s cid data i, inv s -> find_local (c_lut s) cid = Some i -> (2 <= length data)%nat ->
  exists s1 ok, coc_receive w s cid data = Ret (signal_only w s1 (SCredit cid 1), ok) /\
   (s1 = s \/ exists n q, ci_chan i = Some n /\ nth_error (c_chans s) n = Some (q, true) /\ (length q < 8)%nat /\ s1 = set_chans (upd (c_chans s) n (q ++ [skipn 2 data], true)) s /\ ok = true).
Proof.
  intros w s cid data i I F L. destruct (local_key s cid i I F) as (G & LL & X). unfold coc_receive. rewrite F, X.
  destruct data as [|a [|b d]]; try (cbn in L; lia). cbn [gle16 gbind]. rewrite gfrom_ok by (cbn; lia). cbn [skipn gbind].
  assert (P : forall n, ci_chan i = Some n -> exists q, nth_error (c_chans s) n = Some (q, true)) by (intros n E; destruct I as [_ [C1 _]]; exact (C1 _ _ _ (aget_in _ _ _ G) E)).
  destruct (_ >=? _); [|cbn [gbind]; do 2 eexists; split; [reflexivity|now left]].
  assert (K : exists s1 ok, push_chan s (ci_chan i) d = Ret (s1, ok) /\ (s1 = s \/ exists n q, ci_chan i = Some n /\ nth_error (c_chans s) n = Some (q, true) /\ (length q < 8)%nat /\ s1 = set_chans (upd (c_chans s) n (q ++ [d], true)) s /\ ok = true)).
  { destruct (push_inv s (ci_chan i) d P) as [->|(n & q & C & Q & LQ & ->)]; [exists s, false; auto|]. do 2 eexists. split; [reflexivity|right]. exists n, q. auto. }
  destruct K as (s1 & ok & K1 & K2). destruct (_ >? _); [rewrite K1; cbn [gbind]; exists s1, ok; auto|]. destruct (ci_chan i) as [n|]; [rewrite K1; cbn [gbind]; exists s1, ok; auto|]. cbn [gbind]. do 2 eexists. split; [reflexivity|now left].
Qed.
Lemma receive_short : forall w s cid data i, inv s -> find_local (c_lut s) cid = Some i -> (length data < 2)%nat -> coc_receive w s cid data = Panic.
Proof. intros w s cid data i I F L. destruct (local_key s cid i I F) as (G & LL & X). unfold coc_receive. rewrite F, X. destruct data as [|a [|b d]]; try reflexivity. cbn in L. lia. Qed.
Lemma inv_receive : forall w s cid data s' ok, inv s -> coc_receive w s cid data = Ret (s', ok) -> inv s'.
Proof.
  intros w s cid data s' ok I H. destruct (find_local (c_lut s) cid) as [i|] eqn:F; [|unfold coc_receive in H; rewrite F in H; injection H as <- <-; exact I].
  destruct (Nat.lt_ge_cases (length data) 2) as [L|L]; [rewrite (receive_short w s cid data i) in H by assumption; discriminate|].
  destruct (receive_shape w s cid data i I F L) as (s1 & ok1 & R & S). rewrite R in H. injection H as <- <-. eapply inv_quiet; [apply quiet_signal|]. destruct S as [->|(n & q & _ & Q & _ & -> & _)]; [exact I|]. eapply inv_chan_upd; [exact I|exact Q|reflexivity].
Qed.
Lemma inv_cmd : forall w m s b s', inv s -> handle_cmd w m s b = Ret s' -> inv s'.
Proof.
  intros w m s b s' I H. unfold handle_cmd in H. destruct (sc_code b) as [code|]; [|discriminate]. cbn [gbind] in H.
  assert (DIS : handle_disconnect w s b = Ret s' -> inv s').
  { clear H. intro H. unfold handle_disconnect in H. destruct (sc_data b) as [d|]; [|discriminate]. cbn [gbind] in H. destruct (sig_unmarshal 6 d) as [[| | |dcid scid| | | | | | | |]|]; try (injection H as <-; exact I).
    destruct (sc_id b) as [id|]; [|discriminate]. cbn [gbind] in H. destruct (dcid =? 4); cbn [negb] in H; [destruct (scid =? 4); cbn [negb] in H|]; injection H as <-; try exact I; (eapply inv_quiet; [apply quiet_response|exact I]). }
  assert (PAR : handle_param_update w m s b = Ret s' -> inv s').
  { clear H. intro H. unfold handle_param_update in H. destruct m; cbn [negb] in H.
    - destruct (sc_data b) as [d|]; [|discriminate]. cbn [gbind] in H. destruct (sig_unmarshal 18 d) as [[| | | | |x1 x2 x3 x4| | | | | |]|]; try (injection H as <-; exact I). destruct (sc_id b) as [id|]; [|discriminate]. cbn [gbind] in H. injection H as <-.
      eapply inv_quiet; [apply quiet_response|exact I].
    - destruct (sc_id b) as [id|]; [|discriminate]. cbn [gbind] in H. injection H as <-. eapply inv_quiet; [apply quiet_response|exact I]. }
  assert (CRE : handle_credit s b = Ret s' -> inv s').
  { clear H. intro H. unfold handle_credit in H. destruct (sc_data b) as [d|]; [|discriminate]. cbn [gbind] in H. destruct (sig_unmarshal 22 d) as [[| | | | | | | | |cid n| |]|]; try (injection H as <-; exact I).
    injection H as <-. destruct (modify_credits s cid n true) as [s1 b1] eqn:E. now apply inv_modify in E. }
  assert (OTH : handle_other w s b = Ret s' -> inv s').
  { clear H. intro H. unfold handle_other in H. destruct (sc_id b) as [id|]; [|discriminate]. cbn [gbind] in H. destruct (aget (c_pend s) id) as [k|]; [|injection H as <-; eapply inv_quiet; [apply quiet_response|exact I]].
    destruct (nth_error (c_wait s) k) as [wt|] eqn:N; injection H as <-; [|exact I]. destruct I as [A C]. split; [|exact C]. cbn [set_pend set_wait c_next c_lut c_wait]. apply A_wait with wt; auto. }
  destruct code as [|p|p]; try (now apply OTH). do 5 (destruct p as [p|p|]; try (now apply OTH); try (now apply DIS); try (now apply PAR); try (now apply CRE); try (injection H as <-; exact I)).
Qed.
Lemma inv_loop : forall n w m s b s', inv s -> sig_loop n w m s b = Ret s' -> inv s'.
Proof.
  induction n as [|n IH]; intros w m s b s' I H; cbn [sig_loop] in H; [injection H as <-; exact I|]. destruct b as [|x b]; [injection H as <-; exact I|].
  destruct (handle_cmd w m s (x :: b)) as [s1|] eqn:E; [|discriminate]. cbn [gbind] in H. apply inv_cmd in E; [|exact I]. destruct (sc_len (x :: b)) as [l|]; [|discriminate]. cbn [gbind] in H. destruct (gfrom (x :: b) (4 + l)) as [r|]; [|discriminate]. cbn [gbind] in H. eapply IH; eassumption.
Qed.
Lemma inv_signal : forall w m s p s', inv s -> handle_signal w m s p = Ret s' -> inv s'.
Proof.
  intros w m s p s' I H. unfold handle_signal in H. destruct (gslice p 0 2) as [h|]; [|discriminate]. cbn [gbind] in H. destruct (gle16 h) as [dl|]; [|discriminate]. cbn [gbind] in H. destruct (gfrom p 4) as [b|]; [|discriminate]. cbn [gbind] in H.
  destruct (dl >? 515).
  - destruct (sc_id b) as [id|]; [|discriminate]. cbn [gbind] in H. injection H as <-. eapply inv_quiet; [apply quiet_response|exact I].
  - destruct (sc_code b); [|discriminate]. cbn [gbind] in H. destruct (sc_id b); [|discriminate]. cbn [gbind] in H. eapply inv_loop; eassumption.
Qed.
Lemma inv_step : forall w m s o s' r, inv s -> kstep w m s o = Ret (s', r) -> inv s'.
Proof.
  intros w m s o s' r I H. destruct o; cbn [kstep] in H.
  - destruct (open_start w s psm) as [s1 [k|]] eqn:E; injection H as <- <-; eapply inv_open; eassumption.
  - destruct (open_finish s k) as [[s1 c]|] eqn:E; [|discriminate]. cbn [gbind] in H. injection H as <- <-. eapply inv_finish; eassumption.
  - destruct (gslice pdu 2 4) as [h|]; [|discriminate]. cbn [gbind] in H. destruct (gle16 h) as [cid|]; [|discriminate]. cbn [gbind] in H. destruct (cid =? 5).
    + destruct (handle_signal w m s pdu) as [s1|] eqn:E; [|discriminate]. cbn [gbind] in H. injection H as <- <-. eapply inv_signal; eassumption.
    + destruct (_ && _); [|injection H as <- <-; exact I]. destruct (gfrom pdu 4) as [b|]; [|discriminate]. cbn [gbind] in H. destruct (coc_receive w s cid b) as [[s1 ok]|] eqn:E; [|discriminate]. cbn [gbind] in H. injection H as <- <-. eapply inv_receive; eassumption.
  - destruct (coc_subscribe s local) as [s1 [k|]] eqn:E; injection H as <- <-; eapply inv_sub; eassumption.
  - destruct (coc_unsubscribe s local) as [s1 b] eqn:E; injection H as <- <-; eapply inv_unsub; eassumption.
  - destruct (close_channel s remote) as [s1 b] eqn:E; injection H as <- <-; eapply inv_close; eassumption.
  - destruct (nth_error (c_chans s) ch) as [[[|b q] [|]]|] eqn:E; injection H as <- <-; try exact I; (eapply inv_chan_upd; [exact I|exact E|reflexivity]).
  - unfold send_start in H. destruct (aget (c_lut s) remote) as [i|]; [|injection H as <- <-; exact I]. destruct (_ <=? 2); injection H as <- <-; exact I.
  - unfold send_credit in H. destruct (nth_error (c_send s) k) as [d|]; [|injection H as <- <-; exact I]. destruct (sd_done d); [injection H as <- <-; exact I|]. destruct (sd_have d); [injection H as <- <-; exact I|]. destruct (sd_rest d) as [|x t]; [injection H as <- <-; exact I|].
    destruct (modify_credits s (sd_cid d) 1 false) as [s1 [|]] eqn:E.
    + injection H as <- <-. apply inv_modify in E; [exact E|exact I].
    + destruct (Nat.ltb _ 9); injection H as <- <-; exact I.
  - unfold send_frame in H. destruct (nth_error (c_send s) k) as [d|]; [|injection H as <- <-; exact I]. destruct (sd_have d) as [ch|]; [|injection H as <- <-; exact I]. destruct (put_pdu _ _ _) as [s1 [|]] eqn:E; injection H as <- <-; apply quiet_put in E; exact (inv_quiet _ _ E I).
Qed.
Lemma inv_hist : forall m es s, khist m es s -> inv s.
Proof.
  intros m es s H. induction H as [|es s w o s' r H IH T K].
  - split; [|split; intros; contradiction]. split; [right; cbn; lia|]. split; [intros [|k] wt E; discriminate|]. split; [constructor|]. split; [constructor|]. split; [intros k i []|constructor].
  - eapply inv_step; eassumption.
Qed.
