(** Who waits for a signaling answer: exactly calls of Open that sent a request and have not returned. *)
Require Import Verif.Base Verif.M_attsrv Verif.M_gattcli Verif.M_coc Verif.S_coc Verif.P_gattcli Verif.P_gattcli3 Verif.P_coc Verif.P_coc2 Verif.P_coc3 Verif.P_coc4 Verif.P_coc5 Verif.P_coc6.

Definition samep (s s' : cst) : Prop := c_pend s' = c_pend s /\ c_wait s' = c_wait s.
Lemma samep_refl : forall s, samep s s. Proof. split; reflexivity. Qed.
Lemma samep_put : forall w s p s' b, put_pdu w s p = (s', b) -> samep s s'.
Proof. intros w s p s' b H. unfold put_pdu in H. destruct (w (c_log s)); injection H as <- <-; split; reflexivity. Qed.
Lemma samep_response : forall w s id m, samep s (send_response w s id m).
Proof. intros w s id m. unfold send_response. destruct (put_pdu _ _ _) as [s' b] eqn:E. cbn [fst]. now apply samep_put in E. Qed.
Lemma samep_signal : forall w s m, samep s (signal_only w s m).
Proof. intros w s m. unfold signal_only. destruct (put_pdu _ _ _) as [s' b] eqn:E. cbn [fst]. apply samep_put in E. exact E. Qed.
Lemma samep_modify : forall s cid n add s' b, modify_credits s cid n add = (s', b) -> samep s s'.
Proof.
  intros s cid n add s' b H. unfold modify_credits in H. destruct (aget (c_lut s) cid) as [v|]; [|injection H as <- <-; split; reflexivity].
  destruct add; [destruct (_ >? 65535)|destruct (n >? _)]; injection H as <- <-; split; reflexivity.
Qed.
Lemma samep_push : forall s ch b s' ok, push_chan s ch b = Ret (s', ok) -> samep s s'.
Proof. intros s [n|] b s' ok H; cbn [push_chan] in H; [|injection H as <- <-; split; reflexivity]. destruct (nth_error (c_chans s) n) as [[q [|]]|]; [destruct (Nat.ltb _ _)| |]; try discriminate; injection H as <- <-; split; reflexivity. Qed.
Lemma samep_receive : forall w s cid data s' ok, coc_receive w s cid data = Ret (s', ok) -> samep s s'.
Proof.
  intros w s cid data s' ok H. unfold coc_receive in H. destruct (find_local (c_lut s) cid) as [i|]; [|injection H as <- <-; split; reflexivity].
  match type of H with (let! (_, _) := ?X in _) = _ => destruct X as [[size buf]|]; [|discriminate] end. cbn [gbind] in H.
  match type of H with (let! (_, _) := ?X in _) = _ => destruct X as [[s1 k]|] eqn:E; [|discriminate] end. cbn [gbind] in H. injection H as <- <-.
  assert (S1 : samep s s1).
  { destruct (_ >=? size); [|injection E as <- <-; split; reflexivity]. destruct (_ >? size); [eapply samep_push; exact E|]. destruct (ci_chan i); [eapply samep_push; exact E|injection E as <- <-; split; reflexivity]. }
  destruct S1 as [A B]. destruct (samep_signal w s1 (SCredit cid 1)) as [A' B']. split; congruence.
Qed.

Definition invP (s : cst) : Prop := forall id k, aget (c_pend s) id = Some k -> exists wt, nth_error (c_wait s) k = Some wt /\ w_id wt = id /\ w_done wt = false.
Lemma invP_same : forall s s', samep s s' -> invP s -> invP s'.
Proof. intros s s' [A B] I id k G. rewrite A in G. rewrite B. exact (I id k G). Qed.
Lemma invP_open : forall w s psm s' r, invP s -> open_start w s psm = (s', r) -> invP s'.
Proof.
  intros w s psm s' r I H. unfold open_start, next_cid in H. destruct (_ || _) eqn:E; [injection H as <- <-; exact I|].
  unfold put_pdu in H. cbn [set_pend set_sig set_next c_log c_sig c_wait c_pend] in H. destruct (w (c_log s)); injection H as <- <-; intros id k G; cbn [set_wait set_log set_pend set_sig set_next c_pend c_wait c_sig] in *.
  - rewrite aget_aset in G. destruct (id =? next_sig (c_sig s)) eqn:Q.
    + injection G as <-. apply Z.eqb_eq in Q. eexists. rewrite nth_error_app2 by lia. rewrite Nat.sub_diag. split; [reflexivity|]. split; [symmetry; exact Q|reflexivity].
    + destruct (I id k G) as (wt & N & X). exists wt. rewrite nth_error_app1; [auto|]. apply nth_error_Some. congruence.
  - rewrite aget_adel, aget_aset in G. destruct (id =? next_sig (c_sig s)); [discriminate|]. exact (I id k G).
Qed.
Lemma invP_upd : forall s k wt wt', invP s -> nth_error (c_wait s) k = Some wt -> w_id wt' = w_id wt -> invP (set_pend (adel (c_pend s) (w_id wt)) (set_wait (upd (c_wait s) k wt') s)).
Proof.
  intros s k wt wt' I N E id j G. cbn [set_pend set_wait c_pend c_wait] in *. rewrite aget_adel in G. destruct (id =? w_id wt) eqn:Q; [discriminate|]. destruct (I id j G) as (x & X & Y & Z). exists x. rewrite nth_error_upd.
  destruct (Nat.eqb k j) eqn:KJ; [|auto]. apply Nat.eqb_eq in KJ. subst j. rewrite N in X. injection X as <-. lia.
Qed.
Lemma invP_finish : forall s k s' r, invP s -> open_finish s k = Ret (s', r) -> invP s'.
Proof.
  intros s k s' r I E. unfold open_finish in E. destruct (nth_error (c_wait s) k) as [wt|] eqn:N; [|injection E as <- <-; exact I]. destruct (w_done wt); [injection E as <- <-; exact I|].
  set (s2 := set_pend _ _) in E. assert (S2 : invP s2) by (apply invP_upd; auto).
  clearbody s2. destruct (w_rsp wt) as [b|]; [|injection E as <- <-; exact S2]. destruct (sc_code b) as [code|]; [|discriminate]. cbn [gbind] in E. destruct (negb (code =? 21)); [injection E as <- <-; exact S2|]. destruct (sc_id b) as [id|]; [|discriminate]. cbn [gbind] in E. destruct (negb (id =? c_sig s)); [injection E as <- <-; exact S2|].
  destruct (sc_data b) as [d|]; [|discriminate]. cbn [gbind] in E. destruct (sig_unmarshal 21 d) as [[| | | | | | | |dcid mtu mps credits result| | |]|]; try (injection E as <- <-; exact S2). destruct (negb (result =? 0)); [injection E as <- <-; exact S2|]. unfold add_channel in E. destruct (aget (c_lut s2) dcid); injection E as <- <-; exact S2.
Qed.
Lemma invP_cmd : forall w m s b s', invP s -> handle_cmd w m s b = Ret s' -> invP s'.
Proof.
  intros w m s b s' P H. destruct (sc_code b) as [code|] eqn:C; [|unfold handle_cmd in H; rewrite C in H; discriminate].
  destruct (code_cases w m s b _ C) as [E|[E|[E|[[EC E]|[EC E]]]]]; rewrite E in H; clear E.
  - unfold handle_disconnect in H. destruct (sc_data b) as [d|]; [|discriminate]. cbn [gbind] in H. destruct (sig_unmarshal 6 d) as [[| | |dcid scid| | | | | | | |]|]; try (injection H as <-; exact P). destruct (sc_id b) as [id|] eqn:I; [|discriminate]. cbn [gbind] in H.
    destruct (dcid =? 4); cbn [negb] in H; [destruct (scid =? 4); cbn [negb] in H|]; injection H as <-; try exact P; (eapply invP_same; [apply samep_response|exact P]).
  - unfold handle_param_update in H. destruct m; cbn [negb] in H.
    + destruct (sc_data b) as [d|]; [|discriminate]. cbn [gbind] in H. destruct (sig_unmarshal 18 d) as [[| | | | |x1 x2 x3 x4| | | | | |]|]; try (injection H as <-; exact P). destruct (sc_id b) as [id|] eqn:I; [|discriminate]. cbn [gbind] in H. injection H as <-.
      eapply invP_same; [apply samep_response|]. exact P.
    + destruct (sc_id b) as [id|] eqn:I; [|discriminate]. cbn [gbind] in H. injection H as <-. eapply invP_same; [apply samep_response|exact P].
  - injection H as <-. exact P.
  - unfold handle_credit in H. destruct (sc_data b) as [d|]; [|discriminate]. cbn [gbind] in H. destruct (sig_unmarshal 22 d) as [[| | | | | | | | |x n| |]|]; try (injection H as <-; exact P). injection H as <-.
    destruct (modify_credits s x n true) as [s1 b1] eqn:M. apply samep_modify in M. cbn [fst]. eapply invP_same; eassumption.
  - unfold handle_other in H. destruct (sc_id b) as [id|] eqn:I; [|discriminate]. cbn [gbind] in H. destruct (aget (c_pend s) id) as [k|] eqn:G; [|injection H as <-; eapply invP_same; [apply samep_response|exact P]].
    destruct (P id k G) as (wt & N & Q & D). rewrite N in H. injection H as <-. subst id. apply invP_upd; auto.
Qed.
Lemma invP_loop : forall n w m s b s', invP s -> sig_loop n w m s b = Ret s' -> invP s'.
Proof.
  induction n as [|n IH]; intros w m s b s' P H; cbn [sig_loop] in H; [injection H as <-; exact P|]. destruct b as [|x b]; [injection H as <-; exact P|].
  destruct (handle_cmd w m s (x :: b)) as [s1|] eqn:E; [|discriminate]. cbn [gbind] in H. destruct (sc_len (x :: b)) as [l|] eqn:L; [|discriminate]. cbn [gbind] in H. destruct (gfrom (x :: b) (4 + l)) as [r|] eqn:G; [|discriminate]. cbn [gbind] in H.
  eapply IH; [|exact H]. eapply invP_cmd; eassumption.
Qed.
Lemma invP_step : forall w m s o s' r, invP s -> kstep w m s o = Ret (s', r) -> invP s'.
Proof.
  intros w m s o s' r P H. destruct o; cbn [kstep] in H.
  - destruct (open_start w s psm) as [s1 [k|]] eqn:E; injection H as <- <-; eapply invP_open; eassumption.
  - destruct (open_finish s k) as [[s1 c]|] eqn:E; [|discriminate]. cbn [gbind] in H. injection H as <- <-. eapply invP_finish; eassumption.
  - destruct (gslice pdu 2 4) as [h|]; [|discriminate]. cbn [gbind] in H. destruct (gle16 h) as [cid|]; [|discriminate]. cbn [gbind] in H. destruct (cid =? 5).
    + destruct (handle_signal w m s pdu) as [s1|] eqn:E; [|discriminate]. cbn [gbind] in H. injection H as <- <-. unfold handle_signal in E. destruct (gslice pdu 0 2) as [h'|]; [|discriminate]. cbn [gbind] in E. destruct (gle16 h') as [dl|]; [|discriminate]. cbn [gbind] in E. destruct (gfrom pdu 4) as [b|] eqn:G; [|discriminate]. cbn [gbind] in E.
      destruct (dl >? 515); [destruct (sc_id b) as [id|] eqn:I; [|discriminate]; cbn [gbind] in E; injection E as <-; eapply invP_same; [apply samep_response|exact P]|]. destruct (sc_code b); [|discriminate]. cbn [gbind] in E. destruct (sc_id b); [|discriminate]. cbn [gbind] in E. eapply invP_loop; eassumption.
    + destruct (_ && _); [|injection H as <- <-; exact P]. destruct (gfrom pdu 4) as [b|]; [|discriminate]. cbn [gbind] in H. destruct (coc_receive w s cid b) as [[s1 ok]|] eqn:E; [|discriminate]. cbn [gbind] in H. injection H as <- <-. eapply invP_same; [eapply samep_receive; exact E|exact P].
  - destruct (coc_subscribe s local) as [s1 x] eqn:E. assert (s' = s1) as -> by (destruct x; injection H as <- <-; reflexivity). clear H. eapply invP_same; [|exact P]. unfold coc_subscribe in E; destruct (find_local (c_lut s) local) as [i|]; [|injection E as <- <-; split; reflexivity]; destruct (ci_chan i); injection E as <- <-; split; reflexivity.
  - destruct (coc_unsubscribe s local) as [s1 x] eqn:E. injection H as <- <-. eapply invP_same; [|exact P]. unfold coc_unsubscribe in E. destruct (find_local (c_lut s) local) as [i|]; [|injection E as <- <-; split; reflexivity]. injection E as <- <-.
    destruct (ci_chan i) as [n|]; cbn [close_chan]; [destruct (nth_error (c_chans s) n) as [[q o]|]|]; split; reflexivity.
  - destruct (close_channel s remote) as [s1 x] eqn:E. injection H as <- <-. eapply invP_same; [|exact P]. unfold close_channel in E. destruct (aget (c_lut s) remote) as [i|]; [|injection E as <- <-; split; reflexivity]. injection E as <- <-.
    destruct (ci_chan i) as [n|]; cbn [close_chan]; [destruct (nth_error (c_chans s) n) as [[q o]|]|]; split; reflexivity.
  - eapply invP_same; [|exact P]. destruct (nth_error (c_chans s) ch) as [[[|b q] [|]]|]; injection H as <- <-; split; reflexivity.
  - eapply invP_same; [|exact P]. unfold send_start in H. destruct (aget (c_lut s) remote) as [i|]; [|injection H as <- <-; split; reflexivity]. destruct (_ <=? 2); injection H as <- <-; split; reflexivity.
  - eapply invP_same; [|exact P]. unfold send_credit in H. destruct (nth_error (c_send s) k) as [d|]; [|injection H as <- <-; split; reflexivity]. destruct (sd_done d); [injection H as <- <-; split; reflexivity|]. destruct (sd_have d); [injection H as <- <-; split; reflexivity|]. destruct (sd_rest d) as [|x t]; [injection H as <- <-; split; reflexivity|].
    destruct (modify_credits s (sd_cid d) 1 false) as [s1 [|]] eqn:E; [injection H as <- <-; apply samep_modify in E; exact E|]. destruct (Nat.ltb _ 9); injection H as <- <-; split; reflexivity.
  - eapply invP_same; [|exact P]. unfold send_frame in H. destruct (nth_error (c_send s) k) as [d|] eqn:N; [|injection H as <- <-; split; reflexivity]. destruct (sd_have d) as [ch|]; [|injection H as <- <-; split; reflexivity]. unfold put_pdu in H. destruct (w (c_log s)); injection H as <- <-; split; reflexivity.
Qed.
Lemma invP_hist : forall m es s, khist m es s -> invP s.
Proof. intros m es s H. induction H as [|es s w o s' r H IH T K]; [intros id k G; discriminate G|eapply invP_step; eassumption]. Qed.
