(** Lemmas for C165: the packets of a live connection are those of its handle since it was made. *)
Require Import Verif.Base Verif.M_hci Verif.S_hci Verif.P_hci Verif.P_hci2 Verif.P_hci3 Verif.P_hci4 Verif.P_hci5 Verif.P_hci6 Verif.S_link.
Local Open Scope nat_scope.
Lemma arr_one : forall a, length (arrivals1 a) <= 1.
Proof. intros a. unfold arrivals1. destruct a; try (cbn; lia). destruct (dec_pkt b) as [[]|]; cbn; lia. Qed.
Lemma new_no_arr : forall a x r, new_conns a = x :: r -> arrivals1 a = [] /\ exists b, a = APkt b.
Proof. intros a x r H. unfold new_conns in H. unfold arrivals1. destruct a; try discriminate H. destruct (dec_pkt b) as [[]|]; try discriminate H. split; [reflexivity|eauto]. Qed.
Lemma new_one : forall a, length (new_conns a) <= 1.
Proof. intros a. unfold new_conns. destruct a; try (cbn; lia). destruct (dec_pkt b) as [[]|]; cbn; lia. Qed.
Lemma step_len : forall smp s a s', inv s -> exec smp s a = Ret (Some s') -> length (objs s') = length (objs s) + length (new_conns a).
Proof. intros smp s a s' I E. destruct (step_data _ _ _ _ 0 I E) as (_ & _ & M). apply (f_equal (@length _)) in M. now rewrite app_length, !map_length in M. Qed.
Lemma addressed_live : forall smp l s s' h c, inv s -> exec_all smp s l = Ret (Some s') -> tab s' h = Some c -> c < length (objs s) ->
  tab s h = Some c /\ addressed smp s l c = of_handle h l.
Proof.
  intros smp l. induction l as [|a l IH]; intros s s' h c I E T L.
  - cbn in E. injection E as ->. split; [exact T|reflexivity].
  - cbn [exec_all] in E. destruct (exec smp s a) as [[s1|]|] eqn:X; try discriminate E. cbn [gbind] in E.
    assert (I1 := exec_inv _ _ _ _ I X). assert (L1 := step_len _ _ _ _ I X).
    destruct (IH s1 s' h c I1 E T ltac:(lia)) as [T1 A1].
    assert (T0 : tab s h = Some c).
    { destruct (step_life _ _ _ _ I X) as (_ & TT & _). rewrite TT in T1. destruct (new_conns a) as [|[[h' r] ad] m].
      - destruct (oeqz _ _); [discriminate T1|exact T1].
      - destruct (h =? h')%Z; [|exact T1]. injection T1 as T1. lia. }
    split; [exact T0|]. cbn [addressed]. rewrite X, A1. unfold of_handle at 2. cbn [flat_map]. rewrite filter_app, map_app. fold (of_handle h l). apply f_equal2; [|reflexivity].
    assert (O := arr_one a). destruct (arrivals1 a) as [|[h' p] [|q m]]; [reflexivity| |cbn in O; lia]. cbn [filter fst].
    destruct (Z.eqb_spec h' h) as [->|N].
    + rewrite T0, Nat.eqb_refl. reflexivity.
    + destruct (tab s h') as [c'|] eqn:T'; [|reflexivity]. destruct (Nat.eqb_spec c' c) as [->|]; [|reflexivity].
      destruct (i_tab _ I _ _ T') as (k1 & K1 & H1 & _). destruct (i_tab _ I _ _ T0) as (k2 & K2 & H2 & _). congruence.
Qed.
Lemma addressed_born : forall smp l s s' c, inv s -> exec_all smp s l = Ret (Some s') -> length (objs s) <= c -> c < length (objs s') ->
  exists l1 b l2 s2, l = l1 ++ APkt b :: l2 /\ length (conns_of l1) + length (objs s) = c /\ length (new_conns (APkt b)) = 1 /\
    inv s2 /\ exec_all smp s2 l2 = Ret (Some s') /\ c < length (objs s2) /\ addressed smp s l c = addressed smp s2 l2 c.
Proof.
  intros smp l. induction l as [|a l IH]; intros s s' c I E L1 L2.
  - cbn in E. injection E as ->. lia.
  - cbn [exec_all] in E. destruct (exec smp s a) as [[s1|]|] eqn:X; try discriminate E. cbn [gbind] in E.
    assert (I1 := exec_inv _ _ _ _ I X). assert (L := step_len _ _ _ _ I X).
    assert (A0 : addressed smp s (a :: l) c = addressed smp s1 l c).
    { cbn [addressed]. rewrite X. destruct (arrivals1 a) as [|[h p] m]; [reflexivity|]. destruct (tab s h) as [c'|] eqn:T; [|reflexivity].
      destruct (Nat.eqb_spec c' c) as [->|]; [|reflexivity]. destruct (i_tab _ I _ _ T) as (k & K & _).
      assert (c < length (objs s)) by (apply nth_error_Some; congruence). lia. }
    assert (O := new_one a). destruct (Nat.le_gt_cases (length (objs s1)) c) as [G|G].
    + destruct (IH s1 s' c I1 E G L2) as (l1 & b & l2 & s2 & -> & H1 & H2 & H3 & H4 & H5 & H6).
      exists (a :: l1), b, l2, s2. split; [reflexivity|]. split; [|split; [exact H2|split; [exact H3|split; [exact H4|split; [exact H5|congruence]]]]].
      unfold conns_of in *. cbn [flat_map]. rewrite app_length. lia.
    + destruct (new_conns a) as [|x m] eqn:N; [cbn in L; lia|]. destruct (new_no_arr a x m N) as (_ & b & ->).
      exists [], b, l, s1. cbn [app conns_of flat_map length] in *. rewrite N. cbn [length]. split; [reflexivity|]. split; [lia|]. split; [lia|]. auto.
Qed.
Lemma addressed_all : forall smp l s c k, runs smp l s -> nth_error (objs s) c = Some k -> live s c ->
  exists l1 b l2, l = l1 ++ APkt b :: l2 /\ length (conns_of l1) = c /\ new_conns (APkt b) = [(k_handle k, k_role k, k_addr k)] /\
    addressed smp host0 l c = of_handle (k_handle k) l2.
Proof.
  intros smp l s c k R K (k' & K' & T). assert (k' = k) as -> by congruence.
  assert (L : c < length (objs s)) by (apply nth_error_Some; congruence).
  destruct (addressed_born smp l host0 s c inv0 R (Nat.le_0_l c) L) as (l1 & b & l2 & s2 & E & H1 & H2 & H3 & H4 & H5 & H6).
  exists l1, b, l2. split; [exact E|]. cbn [host0 objs length] in H1. rewrite Nat.add_0_r in H1. split; [exact H1|].
  split; [|rewrite H6; now apply (addressed_live smp l2 s2 s)].
  destruct (trace_data smp l host0 s 0 inv0 R) as (_ & _ & M). cbn [host0 objs map app] in M. subst l.
  assert (M' : map (fun k => (k_handle k, k_role k, k_addr k)) (objs s) = conns_of (l1 ++ APkt b :: l2)) by exact M.
  apply (f_equal (fun x => nth_error x c)) in M'. rewrite (map_nth_error (fun k => (k_handle k, k_role k, k_addr k)) _ _ K) in M'.
  unfold conns_of in *. rewrite flat_map_app, nth_error_app2 in M' by lia. rewrite <- H1, Nat.sub_diag in M'. cbn [flat_map] in M'.
  destruct (new_conns (APkt b)) as [|x [|y m]]; cbn [length] in H2; try lia. cbn [app nth_error] in M'. congruence.
Qed.

Lemma born_unique : forall l1 b l2 l1' b' l2', l1 ++ APkt b :: l2 = l1' ++ APkt b' :: l2' -> length (conns_of l1) = length (conns_of l1') ->
  length (new_conns (APkt b)) = 1 -> length (new_conns (APkt b')) = 1 -> l2 = l2'.
Proof.
  induction l1 as [|a l1 IH]; intros b l2 l1' b' l2' E L N N'.
  - destruct l1' as [|a' l1']; [cbn [app] in E; congruence|]. cbn [app] in E. assert (APkt b = a') as <- by congruence.
    unfold conns_of in L. cbn [flat_map length] in L. rewrite app_length in L. lia.
  - destruct l1' as [|a' l1'].
    + cbn [app] in E. assert (a = APkt b') as -> by congruence. unfold conns_of in L. cbn [flat_map length] in L. rewrite app_length in L. lia.
    + cbn [app] in E. assert (a = a') as <- by congruence. unfold conns_of in L. cbn [flat_map] in L. rewrite !app_length in L.
      apply (IH b l2 l1' b' l2'); [congruence|unfold conns_of; lia|exact N|exact N'].
Qed.
