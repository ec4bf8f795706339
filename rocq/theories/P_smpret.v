Require Import Verif.Base Verif.M_smp Verif.S_smp Verif.P_smp Verif.P_smp2 Verif.P_smp3 Verif.P_smp4 Verif.P_smp5 Verif.P_smp7 Verif.S_smpret.
Local Open Scope nat_scope.

Section R.
Variable C : prims.

Definition b2 (b : bool) : nat := if b then 1 else 0.
Lemma ret_outs : forall o evs, filter is_ret (map EOut o ++ evs) = filter is_ret evs /\ filter is_success (map EOut o ++ evs) = filter is_success evs.
Proof. induction o as [|x o IH]; intro evs; cbn; [now split|apply IH]. Qed.
Lemma ret_herr : forall evs, Forall (fun x => x = EHandleErr) evs -> filter is_ret evs = [] /\ filter is_success evs = [].
Proof. induction 1 as [|x l -> _ IH]; cbn; [now split|exact IH]. Qed.

(** one step: each call or time-out settles its account *)
Definition W (s : smp) : Prop := waiting s = true -> p_st (ctx s) <> Init.
Lemma ret_step : forall s a s' evs, FI s -> W s -> sstep C s a = Some (Ret (s', evs)) ->
  W s' /\ (p_st (ctx s) <> Init -> p_st (ctx s') <> Init) /\ b2 (waiting s) + b2 (is_pair a) = length (filter is_ret evs) + b2 (waiting s') /\
  length (filter is_success evs) + b2 (rclosed s) <= b2 (rclosed s') /\ (waits (a, evs) = true -> p_st (ctx s) = Init /\ p_st (ctx s') <> Init) /\
  (is_pair a = true -> p_st (ctx s) <> Init -> s' = s /\ evs = [EPairRet false]).
Proof.
  intros s a s' evs F HW H. destruct a as [e pdu|e k oob| |e]; cbn [sstep] in H.
  - destruct (stuck s); [discriminate|]. apply Some_inj in H. destruct (Handle_inv _ _ _ _ _ _ H) as (c & d & Hm & Hh). cbn [is_pair b2 waits fst snd andb].
    destruct Hh as [(Hd & Hc & evs' & -> & Hf & Hw & Hr)|(h & p & o & r & s1 & evs1 & Hd & Hh & Ha & -> & ->)].
    + destruct (ret_herr _ Hf) as [R1 R2]. cbn [filter is_ret is_success]. rewrite R1, R2, Hw, Hr, Hc. unfold W in *. rewrite Hw, Hc. split; [exact HW|]. split; [auto|]. split; [cbn; lia|]. split; [cbn; lia|]. split; [discriminate|]. intros; discriminate.
    + destruct (dispatch_st C _ _ _ (ctx s) _ Hd _ _ _ Hh) as (Hi & _). destruct (ret_outs o evs1) as [R1 R2]. rewrite R1, R2. clear R1 R2 Hh H. destruct F as [F1 F2]. unfold after_handler in Ha. unfold W in *.
      destruct r as [u|].
      * assert (K : forall st, p_st p = st -> st <> Finished -> Ret (mkSmp p (waiting s) (rclosed s) false, []) = Ret (s', evs1) -> (waiting s' = true -> p_st (ctx s') <> Init) /\ (p_st (ctx s) <> Init -> p_st (ctx s') <> Init) /\
          b2 (waiting s) + 0 = length (filter is_ret evs1) + b2 (waiting s') /\ length (filter is_success evs1) + b2 (rclosed s) <= b2 (rclosed s') /\ (false = true -> p_st (ctx s) = Init /\ p_st (ctx s') <> Init) /\ (false = true -> p_st (ctx s) <> Init -> s' = s /\ map EOut o ++ evs1 = [EPairRet false])).
        { intros st _ _ X. injection X as <- <-. cbn. split; [auto|]. split; [exact Hi|]. split; [lia|]. split; [lia|]. split; discriminate. }
        destruct (p_st p) eqn:Es; try (apply (K _ eq_refl); [discriminate|exact Ha]).
        clear K. destruct (rclosed s) eqn:Er; [|destruct (waiting s) eqn:Ew]; injection Ha as <- <-; cbn; rewrite ?Es; (split; [auto; discriminate|]); (split; [discriminate|]); (split; [lia|]); (split; [lia|]); (split; discriminate).
      * destruct (rclosed s) eqn:Er; [discriminate|]. destruct (waiting s) eqn:Ew; injection Ha as <- <-; cbn; (split; [discriminate|]); (split; [discriminate|]); (split; [lia|]); (split; [lia|]); (split; discriminate).
  - apply Some_inj in H. unfold Pair in H. cbn [is_pair b2].
    assert (Hn : p_st (ctx s) <> Init -> Ret (s, [EPairRet false]) = Ret (s', evs) -> W s' /\ (p_st (ctx s) <> Init -> p_st (ctx s') <> Init) /\ b2 (waiting s) + 1 = length (filter is_ret evs) + b2 (waiting s') /\
      length (filter is_success evs) + b2 (rclosed s) <= b2 (rclosed s') /\ (waits (APair e k oob, evs) = true -> p_st (ctx s) = Init /\ p_st (ctx s') <> Init) /\ (true = true -> p_st (ctx s) <> Init -> s' = s /\ evs = [EPairRet false])).
    { intros NI X. injection X as <- <-. split; [exact HW|]. split; [auto|]. cbn. split; [lia|]. split; [lia|]. split; [discriminate|auto]. }
    destruct (p_st (ctx s)) eqn:Es; try (apply Hn; [discriminate|exact H]). clear Hn.
    assert (Hw : waiting s = false) by (destruct (waiting s) eqn:Q; [elim (HW Q); exact Es|reflexivity]).
    unfold StartPairing, sendPairingRequest, send, bind, modify, get, emit, must in H. destruct F as [F1 F2].
    destruct (0 <? length oob)%nat, (e_write e); cbn in H; injection H as <- <-; unfold W; rewrite Hw; cbn; rewrite ?Es; (split; [discriminate|]); (split; [congruence|]); (split; [lia|]); (split; [lia|]); (split; [first [discriminate|intros _; split; [reflexivity|discriminate]]|congruence]).
  - destruct (waiting s) eqn:Ew; [|discriminate]. injection H as <- <-. cbn. split; [discriminate|]. split; [auto|]. split; [lia|]. split; [lia|]. split; discriminate.
  - apply Some_inj in H. destruct (StartEncryption e (ctx s)) as [[[p o] r]|] eqn:E; [|discriminate]. cbn [gbind] in H. injection H as <- <-.
    assert (Hp : wp (StartEncryption e) (ctx s) (fun p o _ => p_st p = p_st (ctx s))) by (wps; sp; reflexivity). specialize (Hp _ _ _ E). cbv beta in Hp.
    destruct (ret_outs o []) as [R1 R2]. rewrite app_nil_r in R1, R2. rewrite R1, R2. unfold W in *. cbn. rewrite Hp. split; [exact HW|]. split; [auto|]. split; [lia|]. split; [lia|]. split; discriminate.
Qed.

Lemma ret_run : forall la ra lat rat l s, srun C (smp_new la ra lat rat) l s -> W s /\ calls l = returns l + b2 (waiting s) /\ successes l <= b2 (rclosed s) /\
  length (filter waits l) <= 1 /\ (existsb waits l = true -> p_st (ctx s) <> Init).
Proof.
  intros la ra lat rat l s H. remember (smp_new la ra lat rat) as z eqn:Hz. induction H as [z|z l s1 a s2 evs H IH Hs]; subst.
  - cbn. split; [intro X; discriminate X|]. split; [lia|]. split; [lia|]. split; [lia|discriminate].
  - specialize (IH eq_refl). destruct IH as (IW & I1 & I2 & I3 & I4). destruct (ret_step s1 a s2 evs (run_FI C la ra lat rat _ _ H) IW Hs) as (S0 & S1 & S2 & S3 & S4 & _).
    unfold calls, returns, successes in *. rewrite !flat_map_app, !filter_app, !app_length, existsb_app. cbn [flat_map snd filter fst existsb]. rewrite !app_nil_r, orb_false_r.
    split; [exact S0|]. split; [destruct (is_pair a); cbn [length b2] in *; lia|]. split; [lia|]. split.
    + destruct (waits (a, evs)) eqn:Q; [|cbn [length]; lia]. destruct (S4 eq_refl) as [X _]. destruct (existsb waits l) eqn:Y; [elim (I4 eq_refl X)|]. cbn [length].
      assert (filter waits l = []) as ->; [|cbn; lia]. clear -Y. induction l as [|x l IH]; [reflexivity|]. cbn [existsb filter] in *. apply orb_false_iff in Y. destruct Y as [Y1 Y2]. rewrite Y1. auto.
    + intro Q. apply orb_true_iff in Q. destruct Q as [Q|Q]; [apply S1, I4, Q|apply (proj2 (S4 Q))].
Qed.
End R.
