(** Every notifier belongs to a configuration descriptor of the table. *)
Require Import Verif.Base Verif.M_uuid Verif.M_attdb Verif.S_attdb Verif.P_attdb Verif.M_attsrv Verif.S_attsrv Verif.P_attsrv Verif.P_attsrv2 Verif.P_attsrv3.

Definition from_table (d : dbt) (n : notif) : Prop := exists a ci, In a (db_attrs d) /\ a_wh a = Some (ACccd ci) /\
  nt_char n = ci_handle ci /\ nt_vh n = ci_vhandle ci /\ Some (nt_handler n) = (if nt_ind n then ci_ih ci else ci_nh ci).
Lemma ft_close : forall d l i, Forall (from_table d) l -> Forall (from_table d) (close_notif l i).
Proof.
  intros d l i F. unfold close_notif. destruct (nth_error l i) as [x|] eqn:N; [|exact F]. assert (X : from_table d (mkN (nt_ind x) (nt_char x) (nt_vh x) (nt_handler x) false)).
  { rewrite Forall_forall in F. exact (F x (nth_error_In _ _ N)). }
  clear N. revert i. induction F as [|y l Y F IH]; intro i; [destruct i; constructor|]. destruct i; cbn [upd]; constructor; auto.
Qed.
Lemma ft_write : forall d s e a data s' st cs, In a (db_attrs d) -> Forall (from_table d) (notifs s) -> att_write s e a data = Ret (s', st, cs) -> Forall (from_table d) (notifs s').
Proof.
  intros d s e a data s' st cs I F H. unfold att_write in H. destruct (a_wh a) as [[i|ci]|] eqn:W; [injection H as <- _ _; exact F| |injection H as <- _ _; exact F].
  destruct (cccd_write s ci data) as [[s1 st1]|] eqn:C; [|discriminate]. cbn [gbind] in H. injection H as <- _ _. unfold cccd_write in C.
  destruct (gle16 data) as [ccc|]; [|discriminate]. cbn [gbind] in C. set (old := ccc_of (cccs s) (ci_handle ci)) in *.
  assert (N1 : forall t t' ok, Forall (from_table d) (notifs t) -> cccd_start_n t ci old ccc = Ret (t', ok) -> Forall (from_table d) (notifs t')).
  { intros t t' ok F1 G. unfold cccd_start_n in G. destruct (_ && _); [|injection G as <- _; exact F1]. destruct (Z.testbit (ci_prop ci) 4); [|injection G as <- _; exact F1].
    destruct (ci_nh ci) as [h|] eqn:NH; [|discriminate]. injection G as <- _. cbn [notifs set_nn]. apply Forall_app. split; [exact F1|]. constructor; [|constructor]. exists a, ci. cbn. now rewrite NH. }
  assert (N2 : forall t t', Forall (from_table d) (notifs t) -> cccd_stop_n t ci old ccc = Ret t' -> Forall (from_table d) (notifs t')).
  { intros t t' F1 G. unfold cccd_stop_n in G. destruct (_ && _); [|injection G as <-; exact F1]. destruct (aget _ _); [|discriminate]. injection G as <-. cbn [notifs set_nn]. now apply ft_close. }
  assert (N3 : forall t t' ok, Forall (from_table d) (notifs t) -> cccd_start_i t ci old ccc = Ret (t', ok) -> Forall (from_table d) (notifs t')).
  { intros t t' ok F1 G. unfold cccd_start_i in G. destruct (_ && _); [|injection G as <- _; exact F1]. destruct (Z.testbit (ci_prop ci) 5); [|injection G as <- _; exact F1].
    destruct (ci_ih ci) as [h|] eqn:NH; [|discriminate]. injection G as <- _. cbn [notifs set_inn]. apply Forall_app. split; [exact F1|]. constructor; [|constructor]. exists a, ci. cbn. now rewrite NH. }
  assert (N4 : forall t t', Forall (from_table d) (notifs t) -> cccd_stop_i t ci old ccc = Ret t' -> Forall (from_table d) (notifs t')).
  { intros t t' F1 G. unfold cccd_stop_i in G. destruct (_ && _); [|injection G as <-; exact F1]. destruct (aget _ _); [|discriminate]. injection G as <-. cbn [notifs set_inn]. now apply ft_close. }
  destruct (cccd_start_n s ci old ccc) as [[t1 ok1]|] eqn:G1; [|discriminate]. cbn [gbind] in C. apply N1 in G1; [|exact F]. destruct ok1; cbn [negb] in C; [|injection C as <- _; exact G1].
  destruct (cccd_stop_n t1 ci old ccc) as [t2|] eqn:G2; [|discriminate]. cbn [gbind] in C. apply N2 in G2; [|exact G1].
  destruct (cccd_start_i t2 ci old ccc) as [[t3 ok3]|] eqn:G3; [|discriminate]. cbn [gbind] in C. apply N3 in G3; [|exact G2]. destruct ok3; cbn [negb] in C; [|injection C as <- _; exact G3].
  destruct (cccd_stop_i t3 ci old ccc) as [t4|] eqn:G4; [|discriminate]. cbn [gbind] in C. apply N4 in G4; [|exact G3]. injection C as <- _. exact G4.
Qed.
Lemma ft_handle : forall d s e r s' o cs, wf_db d -> s_db s = d -> (forall a, prep s = Some a -> In a (db_attrs d)) -> Forall (from_table d) (notifs s) -> handle s e r = Ret (s', o, cs) -> Forall (from_table d) (notifs s').
Proof.
  intros d s e r s' o cs W D PR F H. destruct r as [|op t]; [injection H as <- _ _; exact F|].
  refine (handle_op (fun x => Forall (from_table d) (notifs (fst (fst x)))) s e op t _ _ _ _ _ _ _ _ _ _ _ _ _ H); cbn [fst]; try (intros; exact F).
  - intros _ s1 p G. apply h_mtu_inv in G. destruct G as [(-> & _)|(? & ? & _ & _ & -> & _)]; exact F.
  - intros _ s1 p c G. unfold h_write in G. destruct (Nat.ltb _ 3); [injection G as <- _ _; exact F|]. destruct (r16 _ 1) as [h|]; [|discriminate]. cbn [gbind] in G.
    rewrite D, (attr_at_db d h W) in G. cbn [gbind] in G. destruct (attr_at d h) as [a|] eqn:A; [|injection G as <- _ _; exact F].
    destruct (gfrom _ 3) as [v|]; [|discriminate]. cbn [gbind] in G. destruct (att_write s e a v) as [[[s2 st] c2]|] eqn:E; [|discriminate]. cbn [gbind] in G. injection G as <- _ _.
    eapply ft_write; [|exact F|exact E]. now apply attr_at_in in A.
  - intros _ s1 c G. unfold h_write_cmd in G. destruct (Nat.leb _ 3); [injection G as <- _; exact F|]. destruct (r16 _ 1) as [h|]; [|discriminate]. cbn [gbind] in G.
    rewrite D, (attr_at_db d h W) in G. cbn [gbind] in G. destruct (attr_at d h) as [a|] eqn:A; [|injection G as <- _; exact F].
    destruct (gfrom _ 3) as [v|]; [|discriminate]. cbn [gbind] in G. destruct (att_write s e a v) as [[[s2 st] c2]|] eqn:E; [|discriminate]. cbn [gbind] in G. injection G as <- _.
    eapply ft_write; [|exact F|exact E]. now apply attr_at_in in A.
  - intros _ s1 p G. unfold h_prepare in G. destruct (r16 _ 1) as [h|]; [|discriminate]. cbn [gbind] in G. destruct (Nat.ltb _ 3); [injection G as <- _; exact F|].
    rewrite D, (attr_at_db d h W) in G. cbn [gbind] in G. destruct (attr_at d h) as [a|]; [|injection G as <- _; exact F].
    destruct (a_wh a); [|injection G as <- _; exact F]. destruct (gfrom _ 5); [|discriminate]. cbn [gbind] in G. destruct (r16 _ 3); [|discriminate]. cbn [gbind] in G. injection G as <- _.
    destruct (prep s); exact F.
  - intros _ s1 p c G. unfold h_execute in G. destruct (Nat.ltb _ 2); [injection G as <- _ _; exact F|]. destruct (gidx _ 1) as [f|]; [|discriminate]. cbn [gbind] in G.
    destruct (f =? 0); [injection G as <- _ _; exact F|]. destruct (f =? 1); [|injection G as <- _ _; exact F].
    destruct (prep s) as [a|] eqn:PS; [|discriminate]. destruct (a_wh a) eqn:WH; [|injection G as <- _ _; exact F].
    destruct (att_write s e a (prepdata s)) as [[[s2 st] c2]|] eqn:E; [|discriminate]. cbn [gbind] in G. injection G as <- _ _. cbn [set_prep notifs]. eapply ft_write; [|exact F|exact E]. now apply PR.
Qed.
Lemma reach_ft : forall d s, wf_db d -> table_ok d -> reach d s -> Forall (from_table d) (notifs s).
Proof.
  intros d s W T R. induction R as [rx tx s H|s e r s' o cs R IH B H].
  - unfold new_server in H. destruct (_ || _); [discriminate|]. injection H as <-. constructor.
  - destruct (reach_sinv d s W T R) as (D & _ & _ & P). eapply ft_handle; [exact W|exact D| |exact IH|exact H]. intros a A. exact (proj1 (proj2 (P a A))).
Qed.
