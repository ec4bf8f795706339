Require Import Verif.Base Verif.S_l2cap Verif.M_l2cap Verif.P_l2cap Verif.M_aclw Verif.S_aclw Verif.P_aclw Verif.P_aclw2.
From Coq Require Import Lia.
Local Open Scope nat_scope.

(** An action that leaves the calls as they are *)
Lemma other_inv : forall s bl s', Inv s bl -> k_thr s' = k_thr s -> k_bufsz s' = k_bufsz s -> k_buf s' = k_buf s -> k_lock s' = k_lock s -> k_log s' = k_log s ->
  length (k_conns s) <= length (k_conns s') -> (forall k, conn_of k < length (k_conns s) -> hnd s' k = hnd s k) ->
  (forall t c sdu, nth_error (k_thr s) t = Some (mkT (KWrite c sdu) WLen) -> length sdu <= mtu s (KWrite c sdu) -> length sdu <= mtu s' (KWrite c sdu)) ->
  bufs_ok s' -> Inv s' bl.
Proof.
  intros s bl s' (IT & ND & LG & BK & BO) E1 E2 E3 E4 E5 E6 E7 E8 BO'. split; [|split; [exact ND|split; [congruence|split; [|exact BO']]]].
  - intros t th N. rewrite E1 in N. destruct (IT t th N) as (C & HL & T). split; [lia|]. rewrite E4. split; [exact HL|].
    eapply tinv_frame; [exact T|exact E2|now apply E7| | |tauto|auto].
    + intros c sdu -> L. cbn [t_call] in *. eapply E8; eassumption.
    + intros _. now split.
  - intros t fs I. destruct (BK t fs I) as (NE & th & more & N & BD & F). split; [exact NE|]. exists th, more. rewrite E1, E2. split; [exact N|split; [exact BD|]]. rewrite E7; [exact F|]. now apply (IT t th).
Qed.
Lemma Forall_firstn : forall {A} (P : A -> Prop) n l, Forall P l -> Forall P (firstn n l).
Proof. intros A P n l H. rewrite <- (firstn_skipn n l) in H. now apply Forall_app in H. Qed.
Lemma Forall_skipn : forall {A} (P : A -> Prop) n l, Forall P l -> Forall P (skipn n l).
Proof. intros A P n l H. rewrite <- (firstn_skipn n l) in H. now apply Forall_app in H. Qed.
Lemma conns_upd : forall (P : conn -> Prop) l c x, Forall P l -> P x -> Forall P (upd l c x).
Proof.
  intros P l c x F Px. rewrite Forall_forall in *. intros z Hz. apply In_nth_error in Hz. destruct Hz as (i & Hi). rewrite nth_error_upd in Hi.
  destruct (Nat.eqb c i); [destruct (Nat.ltb c (length l)); [congruence|discriminate]|]. apply F. now apply nth_error_In in Hi.
Qed.

Definition lkI (s : kst) : Prop := forall t, k_lock s = Some t -> t < length (k_thr s).
Lemma step_shape : forall s t s', step s t = Some s' -> t < length (k_thr s) /\ length (k_thr s') = length (k_thr s) /\ k_bufsz s' = k_bufsz s /\ (k_lock s' = k_lock s \/ k_lock s' = None \/ k_lock s' = Some t).
Proof.
  intros s t s' E. unfold step in E. destruct (nth_error (k_thr s) t) as [[k p]|] eqn:N; [|discriminate]. assert (t < length (k_thr s)) by (apply nth_error_Some; congruence).
  split; [assumption|]. destruct (nth_error (k_conns s) (conn_of k)) as [x|]; [|discriminate].
  destruct p; try discriminate; try (destruct k; try discriminate);
    repeat match goal with
    | H : match ?q with _ => _ end = Some _ |- _ => destruct q; try discriminate
    end; apply some_inj in E; subst s'; cbn [with_thr with_lock with_free with_buf with_conn with_log k_thr k_bufsz k_lock]; rewrite ?upd_length; auto.
Qed.
Lemma exec_lk : forall s a s', exec s a = Some s' -> lkI s -> lkI s' /\ k_bufsz s' = k_bufsz s.
Proof.
  intros s a s' E L. destruct a as [k|t|t ok|c n|c v|h v]; unfold exec in E.
  - destruct (Nat.ltb (conn_of k) (length (k_conns s))); [|discriminate]. apply some_inj in E. subst s'. split; [|reflexivity]. intros t H. cbn [k_thr k_lock] in *. rewrite app_length. apply L in H. lia.
  - destruct (step_shape _ _ _ E) as (Lt & E1 & E2 & E3). split; [|exact E2]. intros t' H. rewrite E1. destruct E3 as [Q|[Q|Q]]; rewrite Q in H; [now apply L|discriminate|congruence].
  - destruct (nth_error (k_thr s) t) as [[k p]|] eqn:N; [|discriminate]. destruct p; try discriminate. destruct ok; apply some_inj in E; subst s'; split; try reflexivity; intros t' H;
      cbn [with_log with_lock with_thr k_lock k_thr] in *; [|discriminate]. rewrite upd_length. now apply L.
  - destruct (nth_error (k_conns s) c) as [x|]; [|discriminate]. apply some_inj in E. subst s'. split; [exact L|reflexivity].
  - destruct (nth_error (k_conns s) c) as [x|]; [|discriminate]. apply some_inj in E. subst s'. split; [exact L|reflexivity].
  - apply some_inj in E. subst s'. split; [exact L|reflexivity].
Qed.

Lemma call_inv : forall s bl k s', lkI s -> Inv s bl -> exec s (ACall k) = Some s' -> Inv s' bl.
Proof.
  intros s bl k s' LK (IT & ND & LG & BK & BO) E. unfold exec in E. destruct (Nat.ltb_spec (conn_of k) (length (k_conns s))) as [L|L]; [|discriminate]. apply some_inj in E. subst s'.
  set (p0 := match k with KWrite _ _ => WCheck | KPdu _ p => PLock p (Some []) | KClose _ => CClose end). unfold Inv. cbn [k_thr k_conns k_lock k_log].
  assert (NI : ~ isin (length (k_thr s)) bl).
  { intros I. apply in_map_iff in I. destruct I as ((t & fs) & Q & I). cbn [fst] in Q. subst t. destruct (BK _ _ I) as (_ & th & more & N & _). assert (length (k_thr s) < length (k_thr s)) by (apply nth_error_Some; congruence). lia. }
  split; [|split; [exact ND|split; [exact LG|split; [|exact BO]]]].
  - intros t th N. destruct (Nat.lt_ge_cases t (length (k_thr s))) as [Lt|Lt].
    + rewrite nth_error_app1 in N by exact Lt. exact (IT t th N).
    + rewrite nth_error_app2 in N by exact Lt. destruct (t - length (k_thr s)) as [|d] eqn:D; [|destruct d; discriminate]. assert (t = length (k_thr s)) by lia. subst t. injection N as <-. cbn [t_call t_ph].
      split; [exact L|]. split.
      * split; intros Q; [destruct k; discriminate|]. apply LK in Q. lia.
      * unfold tinv. cbn [t_call t_ph]. destruct k as [c sdu|c p|c]; cbn [p0].
        -- split; [now exists c, sdu|exact NI].
        -- split; [exact I|]. split; [reflexivity|]. split; [reflexivity|exact NI].
        -- split; [now exists c|exact NI].
  - intros t fs I. destruct (BK t fs I) as (NE & th & more & N & BD & F). split; [exact NE|]. exists th, more. cbn [k_thr]. split; [rewrite nth_error_app1; [exact N|apply nth_error_Some; congruence]|]. split; [exact BD|exact F].
Qed.

Lemma completed_inv : forall s bl c n s', Inv s bl -> exec s (ACompleted c n) = Some s' -> Inv s' bl.
Proof.
  intros s bl c n s' IV E. unfold exec in E. destruct (nth_error (k_conns s) c) as [x|] eqn:X; [|discriminate]. apply some_inj in E. subst s'.
  set (x' := mkC (c_handle x) (c_mtu x) (c_done x) (skipn n (c_sent x))).
  assert (Q : forall k, hnd (with_conn (with_free s (k_free s ++ firstn n (c_sent x))) c x') k = hnd s k /\ mtu (with_conn (with_free s (k_free s ++ firstn n (c_sent x))) c x') k = mtu s k)
    by (intros k; eapply (conn_same s c x x'); [exact X|reflexivity|reflexivity|reflexivity]).
  assert (IV2 := IV). destruct IV2 as (_ & _ & _ & _ & BO1 & BO2). assert (BX := proj1 (Forall_forall _ _) BO2 x (nth_error_In _ _ X)). destruct BX as [BX1 BX2].
  apply (other_inv s bl); try reflexivity.
  - exact IV.
  - cbn [with_conn with_free k_conns]. rewrite upd_length. lia.
  - intros k _. apply Q.
  - intros t c0 sdu _ L. now rewrite (proj2 (Q _)).
  - split; cbn [with_conn with_free k_conns k_free k_buf].
    + apply Forall_app. split; [exact BO1|now apply Forall_firstn].
    + apply conns_upd; [exact BO2|]. cbn [x' c_handle c_sent]. split; [exact BX1|now apply Forall_skipn].
Qed.
Lemma mtu_inv : forall s bl c v s', Inv s bl -> (forall t sdu, nth_error (k_thr s) t = Some (mkT (KWrite c sdu) WLen) -> length sdu <= v) -> exec s (AMtu c v) = Some s' -> Inv s' bl.
Proof.
  intros s bl c v s' IV CA E. unfold exec in E. destruct (nth_error (k_conns s) c) as [x|] eqn:X; [|discriminate]. apply some_inj in E. subst s'.
  set (x' := mkC (c_handle x) v (c_done x) (c_sent x)).
  assert (IV2 := IV). destruct IV2 as (_ & _ & _ & _ & BO1 & BO2). assert (BX := proj1 (Forall_forall _ _) BO2 x (nth_error_In _ _ X)).
  apply (other_inv s bl); try reflexivity.
  - exact IV.
  - cbn [with_conn k_conns]. rewrite upd_length. lia.
  - intros k _. unfold hnd. cbn [with_conn k_conns]. destruct (Nat.eq_dec c (conn_of k)) as [->|D]; [now rewrite (nth_upd_eq _ _ _ _ X), X|now rewrite nth_upd_ne].
  - intros t c0 sdu N L. unfold mtu in *. cbn [with_conn k_conns conn_of] in *. destruct (Nat.eq_dec c c0) as [<-|D].
    + rewrite (nth_upd_eq _ _ _ _ X). cbn [x' c_mtu]. eapply CA; exact N.
    + rewrite nth_upd_ne by exact D. exact L.
  - split; cbn [with_conn k_conns k_free k_buf]; [exact BO1|]. apply conns_upd; [exact BO2|exact BX].
Qed.
Lemma connect_inv : forall s bl h v s', Inv s bl -> (0 <= h < 4096)%Z -> exec s (AConnect h v) = Some s' -> Inv s' bl.
Proof.
  intros s bl h v s' IV H E. unfold exec in E. apply some_inj in E. subst s'. assert (IV2 := IV). destruct IV2 as (IT & _ & _ & _ & BO1 & BO2).
  apply (other_inv s bl); try reflexivity.
  - exact IV.
  - cbn [k_conns]. rewrite app_length. lia.
  - intros k L. unfold hnd. cbn [k_conns]. now rewrite nth_error_app1.
  - intros t c sdu N L. unfold mtu in *. cbn [k_conns]. rewrite nth_error_app1; [exact L|]. exact (proj1 (IT t _ N)).
  - split; cbn [k_conns k_free k_buf]; [exact BO1|]. apply Forall_app. split; [exact BO2|]. constructor; [|constructor]. cbn [c_handle c_sent]. split; [exact H|constructor].
Qed.
