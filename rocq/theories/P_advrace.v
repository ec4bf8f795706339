Require Import Verif.Base Verif.M_advrep Verif.M_advrace Verif.S_advrace.

Lemma exec_all_app : forall l1 l2 s, exec_all s (l1 ++ l2) = match exec_all s l1 with Some s' => exec_all s' l2 | None => None end.
Proof. induction l1 as [|a l1 IH]; intros l2 s; cbn [app exec_all]; [reflexivity|]. destruct (exec s a); [apply IH|reflexivity]. Qed.
Lemma exec_snoc : forall l a s s', exec_all s (l ++ [a]) = Some s' <-> exists s1, exec_all s l = Some s1 /\ exec s1 a = Some s'.
Proof.
  intros. rewrite exec_all_app. destruct (exec_all s l) as [s1|]; cbn [exec_all].
  - destruct (exec s1 a) eqn:E; split.
    + intros H. exists s1. split; [reflexivity|]. now rewrite E.
    + intros (x & Hx & H). injection Hx as <-. now rewrite <- E.
    + discriminate.
    + intros (x & Hx & H). injection Hx as <-. congruence.
  - split; [discriminate|]. intros (x & Hx & _). discriminate.
Qed.
Definition r1 : rst := mkR [] [repeat None hist_size] (Some 0%nat) 0 LIdle [2%nat] [].
Lemma ready_r1 : forall s, ready s <-> s = r1.
Proof. intros s. unfold ready. replace (exec_all r0 [RScan; RScanStep 0; RScanStep 0]) with (Some r1) by reflexivity. split; [now intros [= <-]|now intros ->]. Qed.
Lemma runs_r1 : forall l s, runs l s <-> exec_all r1 l = Some s.
Proof. intros. split; [intros (s0 & H & E); apply ready_r1 in H; now subst|]. intros H. exists r1. split; [now apply ready_r1|exact H]. Qed.
Lemma runs_ind : forall (P : list act -> rst -> Prop), P [] r1 ->
  (forall l s a s', runs l s -> P l s -> exec s a = Some s' -> P (l ++ [a]) s') -> forall l s, runs l s -> P l s.
Proof.
  intros P H0 HS l. induction l as [|a l IH] using rev_ind; intros s H.
  - apply runs_r1 in H. cbn in H. injection H as <-. exact H0.
  - apply runs_r1 in H. apply exec_snoc in H. destruct H as (s1 & H1 & H2). apply runs_r1 in H1. eapply HS; eauto.
Qed.
Lemma runs_snoc : forall l s a s', runs l s -> exec s a = Some s' -> runs (l ++ [a]) s'.
Proof. intros l s a s' H E. apply runs_r1. apply exec_snoc. exists s. split; [now apply runs_r1|exact E]. Qed.

Lemma during_snoc : forall l e l2 a, during l e l2 -> (forall e', a <> RReport e') -> during (l ++ [a]) e (l2 ++ [a]).
Proof.
  intros l e l2 a (l1 & -> & H) N. exists l1. split; [now rewrite <- app_assoc|]. intros e' [J|[J|[]]]%in_app_or; [now apply (H e')|now apply (N e')].
Qed.
Lemma during_start : forall l e, during (l ++ [RReport e]) e [].
Proof. intros. exists l. split; [reflexivity|]. intros e' []. Qed.
Lemma replaced_snoc : forall l e a, replaced l e -> (forall e', a <> RReport e') -> replaced (l ++ [a]) e.
Proof.
  intros l e a (l2 & m & t & m' & s & D & -> & (l1 & -> & R) & Z) N. exists (m ++ RScanStep t :: m' ++ [a]), m, t, (m' ++ [a]), s.
  split; [|split; [reflexivity|split; [exists l1; split; [now rewrite <- app_assoc|exact R]|exact Z]]].
  replace (m ++ RScanStep t :: m' ++ [a]) with ((m ++ RScanStep t :: m') ++ [a]) by now rewrite <- app_assoc.
  now apply during_snoc.
Qed.
Lemma replaced_now : forall l e l2 t s, during l e l2 -> runs l s -> nth_error (r_scan s) t = Some 0%nat -> replaced (l ++ [RScanStep t]) e.
Proof.
  intros l e l2 t s D R Z. exists (l2 ++ [RScanStep t]), l2, t, [], s. split; [apply during_snoc; [exact D|discriminate]|]. split; [reflexivity|].
  split; [exists l; split; [reflexivity|exact R]|exact Z].
Qed.
