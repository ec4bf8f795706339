(** C176: calls of Pair and their returns. *)
Require Import Verif.Base Verif.M_smp Verif.S_smp Verif.S_smpret Verif.P_smpret Verif.Props_smp.

(** No call returns twice and none without having been made: at every moment all calls but at most one have returned, and one has not exactly
    if it is waiting *)
Theorem C176_each_once : forall C la ra lat rat l s, srun C (smp_new la ra lat rat) l s -> calls l = (returns l + if waiting s then 1 else 0)%nat.
Proof. intros C la ra lat rat l s H. exact (proj1 (proj2 (ret_run C la ra lat rat l s H))). Qed.
Print Assumptions C176_each_once.
(** At most one call in the life of a connection reports success *)
Theorem C176_one_success : forall C la ra lat rat l s, srun C (smp_new la ra lat rat) l s -> (successes l <= 1)%nat.
Proof. intros C la ra lat rat l s H. destruct (ret_run C la ra lat rat l s H) as (_ & _ & X & _). destruct (rclosed s); cbn in X; lia. Qed.
Print Assumptions C176_one_success.
(** At most one call does not return at once *)
Theorem C176_one_waits : forall C la ra lat rat l s, srun C (smp_new la ra lat rat) l s -> (length (filter waits l) <= 1)%nat.
Proof. intros C la ra lat rat l s H. exact (proj1 (proj2 (proj2 (proj2 (ret_run C la ra lat rat l s H))))). Qed.
Print Assumptions C176_one_waits.
(** and after it every other call fails at once, sends nothing and changes nothing *)
Theorem C176_later_calls : forall C la ra lat rat l s e k oob s' evs, srun C (smp_new la ra lat rat) l s -> existsb waits l = true -> sstep C s (APair e k oob) = Some (Ret (s', evs)) ->
  s' = s /\ evs = [EPairRet false].
Proof.
  intros C la ra lat rat l s e k oob s' evs H Q S. destruct (ret_run C la ra lat rat l s H) as (HW & _ & _ & _ & NI).
  exact (proj2 (proj2 (proj2 (proj2 (proj2 (ret_step C s _ s' evs (P_smp7.run_FI C la ra lat rat l s H) HW S))))) eq_refl (NI Q)).
Qed.
Print Assumptions C176_later_calls.
(** A call that waits always can return: its time-out is never prevented; it makes it return an error and changes nothing else *)
Theorem C176_time_out : forall C la ra lat rat l s, srun C (smp_new la ra lat rat) l s -> calls l = S (returns l) ->
  exists s', sstep C s APairTimeout = Some (Ret (s', [EPairRet false])) /\ ctx s' = ctx s /\ waiting s' = false.
Proof.
  intros C la ra lat rat l s H E. pose proof (C176_each_once C la ra lat rat l s H) as X. destruct (waiting s) eqn:W; [|lia]. cbn [sstep]. rewrite W. eexists. split; [reflexivity|]. now split.
Qed.
Print Assumptions C176_time_out.

(** a call that timed out; the next one fails at once *)
Definition ret_trace : list (sact * list ev) :=
  [(APair (ok_env 0) 123456 [], [EOut (OSend (frame (1 :: cfg_bytes default_cfg)))]); (APairTimeout, [EPairRet false]); (APair (ok_env 1) 123456 [], [EPairRet false])].
Lemma ret_trace_runs : exists s, srun toy (smp_new (repeat 1 6) (repeat 2 6) 0 0) ret_trace s.
Proof.
  eexists. change ret_trace with ((([] ++ [(APair (ok_env 0) 123456 [], [EOut (OSend (frame (1 :: cfg_bytes default_cfg)))])]) ++ [(APairTimeout, [EPairRet false])]) ++ [(APair (ok_env 1) 123456 [], [EPairRet false])]).
  eapply srun_snoc; [eapply srun_snoc; [eapply srun_snoc; [apply srun_nil|reflexivity]|reflexivity]|reflexivity].
Qed.
Example C176_example : exists s, srun toy (smp_new (repeat 1 6) (repeat 2 6) 0 0) ret_trace s /\ calls ret_trace = 2%nat /\ returns ret_trace = 2%nat /\ existsb waits ret_trace = true.
Proof. destruct ret_trace_runs as [s H]. exists s. split; [exact H|]. split; [reflexivity|]. split; reflexivity. Qed.

(** ** C177 (ideal): refuted *)
(** A pairing that timed out cannot be tried again on the same connection *)
Theorem C177_try_again_refuted : exists l s e, srun toy (smp_new (repeat 1 6) (repeat 2 6) 0 0) (l ++ [(APairTimeout, [EPairRet false]); (APair e 123456 [], [EPairRet false])]) s /\ calls l = 1%nat /\ returns l = 0%nat.
Proof.
  destruct ret_trace_runs as [s H]. exists [(APair (ok_env 0) 123456 [], [EOut (OSend (frame (1 :: cfg_bytes default_cfg)))])], s, (ok_env 1). split; [exact H|]. split; reflexivity.
Qed.
Print Assumptions C177_try_again_refuted.
