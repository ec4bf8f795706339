(** Legacy pairing, the results of Pair, panics and blocking. *)
Require Import Verif.Base Verif.M_smp Verif.S_smp Verif.P_smp Verif.P_smp2 Verif.P_smp3 Verif.P_smp4 Verif.P_smp5.

Section R.
Variable C : prims.
Variable HC : prims_ok C.
Variables (la ra : bytes) (lat rat : Z).
Notation s0 := (smp_new la ra lat rat).
Notation Bv := (B C la ra lat rat).

(** ** Legacy pairing *)
Lemma tk_op_rev : forall p, rev (legacy_tk p) = tk_op p.
Proof. intro p. unfold legacy_tk, tk_op. destruct (p_type p); reflexivity. Qed.
Lemma legacy_tk_len : forall p, length (legacy_tk p) = 16%nat.
Proof. intro p. unfold legacy_tk. destruct (p_type p); apply tk_len. Qed.

Lemma legacy_rand_effect : forall e b p, p_legacy p = true -> wp (smpOnPairingRandom C e b) p (fun p' o r =>
  (o <> [] \/ p_stk p' <> p_stk p \/ (p_st p' = Finished /\ p_st p <> Finished) \/ r = Some tt) ->
  length b = 16%nat /\
  smpC1 C (legacy_tk p) b (buildPairingReq (p_req p)) (buildPairingRsp (p_rsp p)) (p_lat p) (p_rat p) (p_laddr p) (p_raddr p)
    = Ret (Some (p_rconf p)) /\
  exists stk, smpS1 C (legacy_tk p) b (lrand p) = Ret (Some stk) /\ p_stk p' = stk /\
    (forall k ed rn, In (OStartEnc k ed rn) o -> stk <> [] -> key_array stk = Ret k /\ ed = 0 /\ rn = 0)).
Proof.
  intros e b p Hl. wps; sp; try congruence.
  all: try match goal with |- _ \/ _ -> _ => intros [X|[X|[[X1 X2]|X]]]; try congruence end.
  all: match goal with E : len_is 16 _ = true |- _ => apply len_is_eq in E; split; [exact E|] end.
  all: match goal with E : beq_bytes _ _ = true |- _ => apply beq_bytes_eq in E end.
  all: split; [match goal with E : p_rconf _ = _ |- _ => rewrite E; assumption end|].
  all: eexists; (split; [eassumption|]); (split; [reflexivity|]); intros k ed rn Hin Hne; cbn [In app] in Hin;
    try contradiction; repeat (destruct Hin as [Hin|Hin]; [|contradiction]); try discriminate Hin.
  all: try (injection Hin; intros; subst; split; [assumption|split; reflexivity]).
  all: exfalso; match goal with E : _ && negb (len_is 0 _) = false |- _ => rewrite Hl in E; cbn [andb] in E;
     apply negb_false_iff, len_is_eq, length_zero_iff_nil in E; contradiction end.
Qed.

Theorem legacy_confirmed : forall l s e pdu s' evs r k ed rn, srun C s0 l s -> trace_ok l -> length la = 6%nat -> length ra = 6%nat ->
  p_legacy (ctx s) = true -> msg_of pdu = Some (4, r) ->
  sstep C s (AMsg e pdu) = Some (Ret (s', evs)) -> In (EOut (OStartEnc k ed rn)) evs ->
  exists na, p_lrand (ctx s) = Some na /\ length r = 16%nat /\
  v_conf (view_of C l) = rev (c1 C (tk_op (ctx s)) (rev r) (rev (buildPairingRsp (p_rsp (ctx s)))) (rev (buildPairingReq (p_req (ctx s))))
                                 rat lat la ra) /\
  k = rev (s1 C (tk_op (ctx s)) (rev r) (rev na)) /\ ed = 0 /\ rn = 0.
Proof.
  intros l s e pdu s' evs r k ed rn Hrun Hl Hla Hra Hlg Hm H Hin. pose proof (run_B C HC _ _ _ _ _ _ Hrun Hl) as HB.
  cbn [sstep] in H. destruct (stuck s); [discriminate|]. apply Some_inj in H.
  destruct (Handle_inv _ _ _ _ _ _ H) as (c & d & Hm' & Hh). assert (c = 4 /\ d = r) as [-> ->] by (split; congruence).
  destruct Hh as [(Hd & _)|(h & p' & o & res & s1' & evs1 & Hd & Hh & Ha & -> & ->)]; [discriminate|].
  apply Some_inj in Hd. subst h.
  destruct (after_ctx _ _ _ _ _ Ha) as [_ Hn]. apply in_out in Hin; [|assumption].
  destruct (legacy_rand_effect e r _ Hlg _ _ _ Hh) as (Hlen & Hc1 & stk & Hs1 & Hstk & Ho).
  { left. intro X. rewrite X in Hin. contradiction. }
  assert (Hna : p_lrand (ctx s) = Some (lrand (ctx s))).
  { apply lrand_some. unfold smpS1 in Hs1. destruct (_ && _) eqn:E in Hs1; [|discriminate].
    rewrite !andb_true_iff, !len_is_eq in E. tauto. }
  exists (lrand (ctx s)). split; [exact Hna|]. split; [exact Hlen|].
  rewrite (B_laddr _ _ _ _ _ _ _ HB), (B_raddr _ _ _ _ _ _ _ HB), (B_lat _ _ _ _ _ _ _ HB), (B_rat _ _ _ _ _ _ _ HB) in Hc1.
  rewrite C1_spec in Hc1; try assumption; try (rewrite rev_length; assumption); try apply legacy_tk_len; try reflexivity.
  apply Ret_inj, Some_inj in Hc1. rewrite !rev_involutive, tk_op_rev in Hc1.
  rewrite <- (B_conf _ _ _ _ _ _ _ HB), <- Hc1. split; [reflexivity|].
  assert (Hln : length (lrand (ctx s)) = 16%nat).
  { pose proof (B_lrand _ _ _ _ _ _ _ HB) as X. rewrite Hna in X. exact X. }
  rewrite S1_spec in Hs1 by (assumption || apply legacy_tk_len). apply Ret_inj, Some_inj in Hs1. rewrite tk_op_rev in Hs1.
  assert (Lstk : length stk = 16%nat) by (rewrite <- Hs1, rev_length; unfold s1; apply aes_len; assumption).
  destruct (Ho _ _ _ Hin) as (Hk & -> & ->). { intro X. rewrite X in Lstk. discriminate. }
  split; [|split; reflexivity].
  unfold key_array in Hk. rewrite Lstk in Hk. cbn [Nat.leb Nat.sub] in Hk. apply Ret_inj in Hk.
  change (blank 0) with (@nil Z) in Hk. rewrite app_nil_r in Hk. congruence.
Qed.
End R.
