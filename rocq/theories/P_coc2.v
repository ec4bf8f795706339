(** The identifiers and channels of a connection. *)
Require Import Verif.Base Verif.M_attsrv Verif.M_gattcli Verif.M_coc Verif.S_coc Verif.P_gattcli Verif.P_gattcli3 Verif.P_coc.

Definition local_of (x : Z * coi) : Z := ci_local (snd x).
Definition invA (next : Z) (lut : list (Z * coi)) (wait : list waiter) : Prop :=
  (next = 0 \/ 64 <= next <= 65535) /\
  (forall k wt, nth_error wait k = Some wt -> 64 <= w_local wt <= 65535 /\ (next = 0 \/ w_local wt < next)) /\
  NoDup (map w_local wait) /\
  NoDup (map fst lut) /\
  (forall k i, In (k, i) lut -> ci_remote i = k /\ ci_rx i = None /\ exists j wt, nth_error wait j = Some wt /\ w_done wt = true /\ w_local wt = ci_local i) /\
  NoDup (map local_of lut).
Lemma aset_some : forall lut k i i', aget lut k = Some i -> ci_local i' = ci_local i -> map local_of (aset lut k i') = map local_of lut.
Proof.
  induction lut as [|[a w] m IH]; intros k i i' H E; [discriminate|]. cbn [aget aset] in *. destruct (k =? a); cbn [map local_of snd]; [injection H as ->; f_equal; exact E|]. f_equal. now apply (IH k i).
Qed.
Lemma aset_none : forall {V} (m : list (Z * V)) k v, aget m k = None -> aset m k v = m ++ [(k, v)].
Proof. intros V m k v. induction m as [|[a w] m IH]; cbn [aget aset app]; [reflexivity|]. destruct (k =? a); [discriminate|]. intro H. now rewrite IH. Qed.
Lemma aset_in : forall {V} (m : list (Z * V)) k v x, In x (aset m k v) -> x = (k, v) \/ In x m.
Proof. intros V m k v x. induction m as [|[a w] m IH]; cbn [aset]; [intros [<-|[]]; auto|]. destruct (k =? a) eqn:E; intros [<-|I]; [left|right; now right|right; now left|]; [apply Z.eqb_eq in E; congruence|]. destruct (IH I); [now left|right; now right]. Qed.
Lemma adel_in : forall {V} (m : list (Z * V)) k x, In x (adel m k) -> In x m.
Proof. intros V m k x. induction m as [|[a w] m IH]; cbn [adel]; [tauto|]. destruct (k =? a); [intro I; right; auto|]. intros [<-|I]; [now left|right; auto]. Qed.
Lemma adel_locals : forall (lut : list (Z * coi)) k, NoDup (map local_of lut) -> NoDup (map local_of (adel lut k)).
Proof.
  induction lut as [|[a w] m IH]; intros k N; [constructor|]. cbn [map] in N. apply NoDup_cons_iff in N. destruct N as [N1 N2]. cbn [adel]. destruct (k =? a); [auto|]. cbn [map]. apply NoDup_cons_iff. split; [|auto].
  intro I. apply N1. apply in_map_iff in I. destruct I as (x & E & I). apply in_map_iff. exists x. split; [exact E|]. now apply adel_in in I.
Qed.
Lemma A_entry : forall next lut wait k i i', invA next lut wait -> aget lut k = Some i -> ci_local i' = ci_local i -> ci_remote i' = ci_remote i -> ci_rx i' = None -> invA next (aset lut k i') wait.
Proof.
  intros next lut wait k i i' (A1 & A2 & A3 & A4 & A5 & A6) G L R X. split; [exact A1|]. split; [exact A2|]. split; [exact A3|]. split; [now apply aset_nodup|]. split.
  - intros k' j I. apply aset_in in I. destruct I as [I|I]; [|now apply A5]. injection I as -> ->. destruct (A5 _ _ (aget_in _ _ _ G)) as (B1 & B2 & B3). rewrite R, L. auto.
  - now rewrite (aset_some lut k i).
Qed.
Lemma A_del : forall next lut wait k, invA next lut wait -> invA next (adel lut k) wait.
Proof.
  intros next lut wait k (A1 & A2 & A3 & A4 & A5 & A6). split; [exact A1|]. split; [exact A2|]. split; [exact A3|]. split; [now apply adel_nodup|]. split; [|now apply adel_locals].
  intros k' i I. apply adel_in in I. now apply A5.
Qed.
Lemma upd_same_map : forall {A B} (f : A -> B) l k x y, nth_error l k = Some x -> f y = f x -> map f (upd l k y) = map f l.
Proof. intros A B f l. induction l as [|z l IH]; intros [|k] x y H E; try discriminate; cbn [nth_error upd map] in *; [injection H as ->; now rewrite E|]. f_equal. eapply IH; eassumption. Qed.
Lemma nth_upd_same : forall {A} (l : list A) k x, (k < length l)%nat -> nth_error (upd l k x) k = Some x.
Proof. intros A l k x H. rewrite nth_error_upd, Nat.eqb_refl. now rewrite (proj2 (Nat.ltb_lt _ _) H). Qed.
Lemma A_wait : forall next lut wait k wt wt', invA next lut wait -> nth_error wait k = Some wt -> w_local wt' = w_local wt -> (w_done wt = true -> w_done wt' = true) -> invA next lut (upd wait k wt').
Proof.
  intros next lut wait k wt wt' (A1 & A2 & A3 & A4 & A5 & A6) N L D. assert (KL : (k < length wait)%nat) by (apply nth_error_Some; congruence). split; [exact A1|]. split; [|split; [|split; [exact A4|split; [|exact A6]]]].
  - intros j x X. rewrite nth_error_upd in X. destruct (Nat.eqb k j) eqn:E; [|now apply (A2 j)]. rewrite (proj2 (Nat.ltb_lt _ _) KL) in X. injection X as <-. rewrite L. now apply (A2 k).
  - now rewrite (upd_same_map w_local wait k wt).
  - intros r i I. destruct (A5 r i I) as (B1 & B2 & j & x & J & DX & LX). split; [exact B1|split; [exact B2|]]. destruct (Nat.eq_dec k j) as [->|NE].
    + exists j, wt'. rewrite nth_upd_same by assumption. rewrite N in J. injection J as <-. split; [reflexivity|]. split; [auto|congruence].
    + exists j, x. rewrite nth_error_upd. rewrite (proj2 (Nat.eqb_neq _ _) NE). auto.
Qed.
Lemma A_add : forall next lut wait k wt r c mtu mps rsp, invA next lut wait -> nth_error wait k = Some wt -> w_done wt = false -> aget lut r = None ->
  invA next (aset lut r (mkCI (w_local wt) r c mtu mps None None)) (upd wait k (mkW (w_id wt) (w_local wt) rsp true)).
Proof.
  intros next lut wait k wt r c mtu mps rsp I N D G. assert (I' := A_wait next lut wait k wt (mkW (w_id wt) (w_local wt) rsp true) I N eq_refl (fun _ => eq_refl)).
  assert (KL : (k < length wait)%nat) by (apply nth_error_Some; congruence). destruct I as (A1 & A2 & A3 & A4 & A5 & A6). destruct I' as (C1 & C2 & C3 & C4 & C5 & C6).
  split; [exact C1|]. split; [exact C2|]. split; [exact C3|]. split; [now apply aset_nodup|]. split.
  - intros x i X. apply aset_in in X. destruct X as [X|X]; [|now apply C5]. injection X as -> ->. cbn [ci_remote ci_rx ci_local]. split; [reflexivity|]. split; [reflexivity|].
    exists k, (mkW (w_id wt) (w_local wt) rsp true). rewrite nth_upd_same by assumption. auto.
  - rewrite aset_none by assumption. rewrite map_app. cbn [map local_of snd ci_local].
    assert (NI : ~ In (w_local wt) (map local_of lut)).
    { intro J. apply in_map_iff in J. destruct J as ((x & i) & E & J). destruct (A5 _ _ J) as (_ & _ & j & wj & NJ & DJ & LJ). unfold local_of in E. cbn [snd] in E.
      assert (j = k). { apply (proj1 (NoDup_nth_error (map w_local wait)) A3 j k); [rewrite map_length; apply nth_error_Some; congruence|]. rewrite !nth_error_map, NJ, N. cbn. f_equal. congruence. }
      subst j. congruence. }
    clear - A6 NI. induction lut as [|z lut IH]; cbn [map app] in *; [constructor; [intros []|constructor]|]. apply NoDup_cons_iff in A6. destruct A6 as [N1 N2]. apply NoDup_cons_iff. split; [|apply IH; [exact N2|intro; apply NI; now right]].
    rewrite in_app_iff. intros [X|[X|[]]]; [now apply N1|]. apply NI. left. now symmetry.
Qed.
Lemma A_open : forall next lut wait id, invA next lut wait -> 64 <= next <= 65535 -> invA (u16 (next + 1)) lut (wait ++ [mkW id next None false]).
Proof.
  intros next lut wait id (A1 & A2 & A3 & A4 & A5 & A6) NX. assert (NV : u16 (next + 1) = 0 /\ next = 65535 \/ u16 (next + 1) = next + 1 /\ next < 65535) by (unfold u16; lia).
  split; [lia|]. split; [|split; [|split; [exact A4|split; [|exact A6]]]].
  - intros k wt H. destruct (Nat.lt_ge_cases k (length wait)) as [L|L].
    + rewrite nth_error_app1 in H by assumption. specialize (A2 k wt H). lia.
    + rewrite nth_error_app2 in H by assumption. destruct (k - length wait)%nat as [|[|n]]; try discriminate. injection H as <-. cbn. lia.
  - rewrite map_app. cbn [map w_local].
    assert (NI : ~ In next (map w_local wait)). { intro J. apply in_map_iff in J. destruct J as (x & E & J). apply In_nth_error in J. destruct J as (j & J). specialize (A2 j x J). lia. }
    clear - A3 NI. induction wait as [|z lut IH]; cbn [map app] in *; [constructor; [intros []|constructor]|]. apply NoDup_cons_iff in A3. destruct A3 as [N1 N2]. apply NoDup_cons_iff. split; [|apply IH; [exact N2|intro; apply NI; now right]].
    rewrite in_app_iff. intros [X|[X|[]]]; [now apply N1|]. apply NI. left. now symmetry.
  - intros k i I. destruct (A5 k i I) as (B1 & B2 & j & wt & J & D & L). split; [exact B1|split; [exact B2|]]. exists j, wt. split; [|auto]. rewrite nth_error_app1; [exact J|]. apply nth_error_Some. congruence.
Qed.
Lemma A_next : forall next lut wait, invA next lut wait -> 64 <= next <= 65535 -> invA (u16 (next + 1)) lut wait.
Proof.
  intros next lut wait (A1 & A2 & A) NX. assert (NV : u16 (next + 1) = 0 /\ next = 65535 \/ u16 (next + 1) = next + 1 /\ next < 65535) by (unfold u16; lia).
  split; [lia|]. split; [|exact A]. intros k wt H. specialize (A2 k wt H). lia.
Qed.
