Require Import Verif.Base Verif.M_aclw Verif.S_aclw Verif.P_aclw Verif.P_aclw4.
From Coq Require Import Lia Permutation.
Local Open Scope nat_scope.

Definition pool (s : kst) : list nat := k_free s ++ flat_map c_sent (k_conns s).
Lemma nth_split_upd : forall (l : list conn) c x x', nth_error l c = Some x -> exists a b, l = a ++ x :: b /\ upd l c x' = a ++ x' :: b.
Proof.
  induction l as [|y l IH]; intros c x x' N; [destruct c; discriminate|]. destruct c as [|c]; cbn in N.
  - injection N as ->. exists [], l. now split.
  - destruct (IH c x x' N) as (a & b & -> & Q). exists (y :: a), b. split; [reflexivity|]. cbn [upd app]. now rewrite Q.
Qed.
Lemma pool_conn : forall f f' (l : list conn) c x x', nth_error l c = Some x -> Permutation (f' ++ c_sent x') (f ++ c_sent x) -> Permutation (f' ++ flat_map c_sent (upd l c x')) (f ++ flat_map c_sent l).
Proof.
  intros f f' l c x x' N P. destruct (nth_split_upd l c x x' N) as (a & b & -> & ->). rewrite !flat_map_app. cbn [flat_map]. set (A := flat_map c_sent a). set (B := flat_map c_sent b).
  transitivity ((f' ++ c_sent x') ++ A ++ B).
  - rewrite <- !app_assoc. apply Permutation_app_head. rewrite !app_assoc. apply Permutation_app_tail. apply Permutation_app_comm.
  - transitivity ((f ++ c_sent x) ++ A ++ B); [now apply Permutation_app_tail|]. rewrite <- !app_assoc. apply Permutation_app_head. rewrite !app_assoc. apply Permutation_app_tail. apply Permutation_app_comm.
Qed.
Lemma exec_pool : forall s a s', exec s a = Some s' -> Permutation (pool s') (pool s).
Proof.
  intros s a s' E. unfold pool. destruct a as [k|t|t ok|c n|c v|h v]; unfold exec in E.
  - destruct (Nat.ltb (conn_of k) (length (k_conns s))); [|discriminate]. apply some_inj in E. subst s'. reflexivity.
  - unfold step in E. destruct (nth_error (k_thr s) t) as [[k p]|]; [|discriminate]. destruct (nth_error (k_conns s) (conn_of k)) as [x|] eqn:X; [|discriminate].
    destruct p; try discriminate; try (destruct k; try discriminate);
      repeat match goal with
      | H : match ?q with _ => _ end = Some _ |- _ => destruct q eqn:?; try discriminate
      end; apply some_inj in E; subst s'; cbn [with_thr with_lock with_free with_buf with_conn k_free k_conns]; try reflexivity;
      apply (pool_conn _ _ _ _ x); try exact X; cbn [c_sent]; try reflexivity.
    all: try (rewrite app_nil_r; reflexivity).
    all: rewrite app_assoc; symmetry; apply (Permutation_cons_append (_ ++ _)).
  - destruct (nth_error (k_thr s) t) as [[k p]|]; [|discriminate]. destruct p; try discriminate. destruct ok; apply some_inj in E; subst s'; reflexivity.
  - destruct (nth_error (k_conns s) c) as [x|] eqn:X; [|discriminate]. apply some_inj in E. subst s'. cbn [with_conn with_free k_free k_conns]. apply (pool_conn _ _ _ _ x); [exact X|]. cbn [c_sent]. now rewrite <- app_assoc, firstn_skipn.
  - destruct (nth_error (k_conns s) c) as [x|] eqn:X; [|discriminate]. apply some_inj in E. subst s'. cbn [with_conn k_free k_conns]. apply (pool_conn _ _ _ _ x); [exact X|reflexivity].
  - apply some_inj in E. subst s'. cbn [k_free k_conns]. rewrite flat_map_app. cbn [flat_map c_sent app]. now rewrite app_nil_r.
Qed.
Lemma runs_pool : forall cnt n l s, runs cnt n l s -> Permutation (pool s) (seq 0 cnt).
Proof.
  intros cnt n l. induction l as [|a l IH] using rev_ind; intros s R.
  - apply some_inj in R. subst s. unfold pool, k0. cbn [k_free k_conns flat_map]. now rewrite app_nil_r.
  - apply exec_app in R. destruct R as (s1 & R1 & R2). cbn [exec_all] in R2. destruct (exec s1 a) as [s2|] eqn:E; [|discriminate]. apply some_inj in R2. subst s2. transitivity (pool s1); [now apply exec_pool in E|now apply IH].
Qed.
