Require Import Verif.Base Verif.M_advrep Verif.M_advrace Verif.S_advrace Verif.P_advrace Verif.P_advrace2 Verif.P_advrace3 Verif.P_advrace4 Verif.P_advrace5.
From Coq Require Import Lia.

Lemma sequential : forall l s e s1 s', runs l s -> exec s (RReport e) = Some s1 -> fin s1 s' -> outcome s s' e.
Proof.
  intros l s e s1 s' R E F. destruct (inv_runs l s R) as (RO & LO & P). destruct (uniq_runs l s R) as (U & _).
  assert (AL := arr_len s (proj1 RO) (proj1 (proj2 RO))). cbn [exec] in E. destruct (r_loop s) eqn:L; try discriminate. apply some_inj in E. subst s1. unfold last_ok in LO. rewrite L in LO.
  assert (IDLE : fin s s' -> handle_adv_report (as_hist s) e = Ret (as_hist s, None) -> outcome s s' e).
  { intros G H. apply fin_stop in G; [|unfold loop_step; now rewrite L]. subst s'. left. split; [exact L|]. exists None. now split. }
  assert (DIED : fin (with_loop s LDied) s' -> handle_adv_report (as_hist s) e = Panic -> outcome s s' e).
  { intros G H. apply fin_stop in G; [|reflexivity]. subst s'. right. now split. }
  assert (FRESH : forall a, fin (with_loop (with_heap s (r_heap s ++ [a])) (LStore (length (r_heap s)))) s' ->
    handle_adv_report (as_hist s) e = Ret (mkHist (upd (ring (as_hist s)) (Z.to_nat (r_last s)) (Some a)) (if Nat.eqb (S (Z.to_nat (r_last s))) 128 then 0%nat else S (Z.to_nat (r_last s))), Some a) -> outcome s s' e).
  { intros a G H. set (n := length (r_heap s)) in *. destruct RO as (A & (c & HC & CL) & HB).
    assert (LK : length (nth c (r_rings s) []) = 128%nat) by (unfold arr in AL; now rewrite HC in AL).
    set (s0 := with_heap s (r_heap s ++ [a])) in *.
    set (rs := upd (r_rings s) c (upd (nth c (r_rings s) []) (Z.to_nat (r_last s)) (Some n))).
    assert (G2 : fin (mkR (r_heap s ++ [a]) rs (Some c) (r_last s) (LInc n) (r_scan s) (r_out s)) s').
    { assert (G1 : fin (with_loop s0 (LStore2 n (Some c))) s').
      { eapply fin_step; [exact G|]. change (Some (with_loop s0 (LStore2 n (r_cur s))) = Some (with_loop s0 (LStore2 n (Some c)))). now rewrite HC. }
      eapply fin_step; [exact G1|]. unfold loop_step. change (r_loop (with_loop s0 ?p)) with p. cbv beta iota zeta. change (arr (with_loop s0 (LStore2 n (Some c))) (Some c)) with (nth c (r_rings s) []).
      rewrite LK. change (r_last (with_loop s0 (LStore2 n (Some c)))) with (r_last s).
      replace ((0 <=? r_last s) && (r_last s <? Z.of_nat 128))%bool with true by (symmetry; apply Bool.andb_true_iff; lia).
      change (r_cur (with_loop s0 (LStore2 n (Some c)))) with (r_cur s). rewrite HC. reflexivity. }
    assert (G3 := fin_step _ _ _ G2 eq_refl). assert (G4 := fin_step _ _ _ G3 eq_refl). clear G2 G3.
    cbn [with_loop with_last r_heap r_rings r_cur r_last r_scan r_out] in G4.
    set (s4 := mkR (r_heap s ++ [a]) rs (Some c) (r_last s + 1) (LChk n) (r_scan s) (r_out s)) in *.
    assert (A4 : arr s4 (r_cur s4) = upd (nth c (r_rings s) []) (Z.to_nat (r_last s)) (Some n)).
    { change (nth c rs [] = upd (nth c (r_rings s) []) (Z.to_nat (r_last s)) (Some n)). unfold rs. rewrite nth_upd_d, Nat.eqb_refl. destruct (Nat.ltb_spec c (length (r_rings s))); [reflexivity|lia]. }
    assert (G5 : fin (with_loop s4 (if r_last s + 1 =? 128 then LZero n else LOut n)) s').
    { eapply fin_step; [exact G4|]. change (Some (with_loop s4 (if r_last s + 1 =? Z.of_nat (length (arr s4 (r_cur s4))) then LZero n else LOut n)) = Some (with_loop s4 (if r_last s + 1 =? 128 then LZero n else LOut n))).
      rewrite A4, upd_length, LK. reflexivity. }
    set (v := if r_last s + 1 =? 128 then 0 else r_last s + 1).
    assert (G6 : s' = mkR (r_heap s ++ [a]) rs (Some c) v LIdle (r_scan s) (r_out s ++ [n])).
    { unfold v. destruct (r_last s + 1 =? 128).
      - assert (G6 := fin_step _ _ _ G5 eq_refl). assert (G7 := fin_step _ _ _ G6 eq_refl). apply fin_stop in G7; [|reflexivity]. exact G7.
      - assert (G6 := fin_step _ _ _ G5 eq_refl). apply fin_stop in G6; [|reflexivity]. exact G6. }
    assert (EN : entry s' n = a) by (subst s'; unfold entry; cbn [r_heap]; apply entry_snoc_new).
    left. split; [now rewrite G6|]. exists (Some a). split; [|exists n; split; [now rewrite G6|exact EN]]. rewrite H. f_equal. f_equal.
    assert (AR : as_hist s' = mkHist (map (option_map (entry s')) (upd (nth c (r_rings s) []) (Z.to_nat (r_last s)) (Some n))) (Z.to_nat v)).
    { unfold as_hist. f_equal; [|now rewrite G6]. f_equal. rewrite <- A4, G6. reflexivity. }
    rewrite AR. f_equal.
    - change (ring (as_hist s)) with (map (option_map (entry s)) (arr s (r_cur s))). assert (AC : arr s (r_cur s) = nth c (r_rings s) []) by (unfold arr; now rewrite HC). rewrite AC.
      apply nth_error_ext. intros i. rewrite nth_error_upd, map_length, !nth_error_map, nth_error_upd. destruct (Nat.eqb_spec (Z.to_nat (r_last s)) i) as [Q|Q].
      + destruct (Nat.ltb (Z.to_nat (r_last s)) (length (nth c (r_rings s) []))); [|reflexivity]. cbn [option_map]. now rewrite EN.
      + destruct (nth_error (nth c (r_rings s) []) i) as [[j|]|] eqn:Ej; [|reflexivity|reflexivity]. cbn [option_map]. apply HB in Ej. destruct Ej as [Ej _]. f_equal. f_equal.
        subst s'. unfold entry. cbn [r_heap]. symmetry. now apply app_nth1.
    - unfold v. destruct (Z.eqb_spec (r_last s + 1) 128); destruct (Nat.eqb_spec (S (Z.to_nat (r_last s))) 128); try lia. }
  assert (SRCH : forall sr, fin (with_loop s (SStart sr)) s' ->
    handle_adv_report (as_hist s) e = (let! m := sr_search (ring (as_hist s)) (adlast (as_hist s)) sr (Z.of_nat (adlast (as_hist s)) - 1) (S (length (ring (as_hist s)))) in
      match m with None => Ret (as_hist s, None) | Some (k, a') => let! r' := gset (ring (as_hist s)) k (Some a') in Ret (mkHist r' (adlast (as_hist s)), Some a') end) -> outcome s s' e).
  { intros sr F0 HE. set (H := as_hist s) in *. assert (LH : length (ring H) = 128%nat) by (unfold H, as_hist; cbn [ring]; now rewrite map_length).
    assert (F1 := fin_step _ _ _ F0 eq_refl). change (with_loop (with_loop s ?p) ?q) with (with_loop s q) in F1. cbn [with_loop r_last] in F1.
    change (mkR (r_heap s) (r_rings s) (r_cur s) (r_last s) ?p (r_scan s) (r_out s)) with (with_loop s p) in F1.
    assert (HB : forall c i id, nth_error (nth c (r_rings s) []) i = Some (Some id) -> (id < length (r_heap s))%nat) by (intros c i id HH; destruct RO as (_ & _ & C); now apply C in HH).
    assert (SO := search_ok (S (length (ring H))) s sr (r_last s - 1) s' U HB AL ltac:(lia) ltac:(lia)).
    rewrite LH in *. replace (Z.of_nat (adlast H) - 1) with (r_last s - 1) in HE by (unfold H, as_hist; cbn [adlast]; lia).
    assert (D : dist (r_last s) (r_last s - 1) < Z.of_nat 129) by (unfold dist; destruct (Z.leb_spec (r_last s) (r_last s - 1)); lia).
    specialize (SO D F1). unfold outcome. change (sr_search (ring (as_hist s)) (adlast (as_hist s))) with (sr_search (ring H) (adlast H)) in SO.
    change (handle_adv_report (as_hist s) e) with (handle_adv_report H e). rewrite HE.
    destruct (sr_search (ring H) (adlast H) sr (r_last s - 1) 129) as [[[k a']|]|] eqn:SS; cbn [gbind] in *.
    + destruct SO as [(LI & KL & AH & id & OUT & EN)|(_ & Q)]; [|discriminate]. left. split; [exact LI|]. exists (Some a'). split; [|exists id; split; [exact OUT|exact EN]].
      rewrite gset_ok by (rewrite LH; lia). cbn [gbind]. change (as_hist s) with H in AH. now rewrite AH.
    + destruct SO as [(LI & AH & OUT)|(_ & Q)]; [|discriminate]. left. split; [exact LI|]. exists None. split; [now rewrite AH|exact OUT].
    + destruct SO as [(_ & [])|(LI & _)]. right. split; [exact LI|reflexivity]. }
  assert (PASS : forall a, fin (with_loop (with_heap s (r_heap s ++ [a])) (LOut (length (r_heap s)))) s' -> handle_adv_report (as_hist s) e = Ret (as_hist s, Some a) -> outcome s s' e).
  { intros a F0 HE.
    set (H := as_hist s) in *. assert (F1 := fin_step _ _ _ F0 eq_refl). apply fin_stop in F1; [|reflexivity].
    change (s' = mkR (r_heap s ++ [a]) (r_rings s) (r_cur s) (r_last s) LIdle (r_scan s) (r_out s ++ [length (r_heap s)])) in F1. subst s'. left. split; [reflexivity|].
    assert (AH : as_hist (mkR (r_heap s ++ [a]) (r_rings s) (r_cur s) (r_last s) LIdle (r_scan s) (r_out s ++ [length (r_heap s)])) = H).
    { destruct RO as (_ & (c & HC & CL) & HB).
      change (mkHist (map (option_map (entry (mkR (r_heap s ++ [a]) (r_rings s) (r_cur s) (r_last s) LIdle (r_scan s) (r_out s ++ [length (r_heap s)])))) (arr s (r_cur s))) (Z.to_nat (r_last s)) =
        mkHist (map (option_map (entry s)) (arr s (r_cur s))) (Z.to_nat (r_last s))). f_equal.
      assert (AC : arr s (r_cur s) = nth c (r_rings s) []) by (unfold arr; now rewrite HC). rewrite AC. apply nth_error_ext. intros i. rewrite !nth_error_map.
      destruct (nth_error (nth c (r_rings s) []) i) as [[j|]|] eqn:Ej; [|reflexivity|reflexivity]. cbn [option_map]. f_equal. f_equal. apply HB in Ej. destruct Ej as [Ej _].
      unfold entry. cbn [r_heap]. now apply app_nth1. }
    exists (Some a). split; [change (handle_adv_report (as_hist s) e) with (handle_adv_report H e); rewrite HE; now rewrite AH|].
    exists (length (r_heap s)). split; [reflexivity|]. unfold entry. cbn [r_heap with_loop with_heap]. apply entry_snoc_new. }
  revert F IDLE DIED FRESH SRCH PASS. unfold begin, handle_adv_report. set (H := as_hist s).
  destruct (num_reports e) as [[n|]|]; cbn [gbind]; [|auto|auto]. destruct (n =? 1); cbn [negb]; [|auto].
  destruct (event_type e 0) as [[t|]|]; cbn [gbind]; [|auto|auto].
  assert (LH : length (ring H) = 128%nat) by (unfold H, as_hist; cbn [ring]; now rewrite map_length).
  destruct ((t =? 0) || (t =? 2))%bool; [|destruct (t =? 4); [|destruct ((t =? 1) || (t =? 3))%bool]].
  - destruct (new_advertisement e 0) as [[a|]|]; cbn [gbind]; auto. intros F _ _ FRESH _ _. apply (FRESH a F).
    change (adlast H) with (Z.to_nat (r_last s)). rewrite gset_ok by lia. cbn [gbind]. rewrite upd_length, LH. reflexivity.
  - destruct (new_advertisement e 0) as [[sr|]|]; cbn [gbind]; auto. intros F _ _ _ SRCH _. now apply (SRCH sr).
  - destruct (new_advertisement e 0) as [[a|]|]; cbn [gbind]; auto. intros F _ _ _ _ PASS. now apply (PASS a).
  - intros F IDLE _ _ _ _. now apply IDLE.
Qed.
(** A Scan between two reports empties the history. *)
Lemma scan_alone : forall l s t s1 s2, runs l s -> nth_error (r_scan s) t = Some 0%nat -> exec s (RScanStep t) = Some s1 -> exec s1 (RScanStep t) = Some s2 -> as_hist s2 = scan_start 128.
Proof.
  intros l s t s1 s2 R Z E1 E2. cbn [exec] in E1. rewrite Z in E1. apply some_inj in E1. subst s1. cbn [exec r_scan] in E2.
  rewrite nth_error_upd, Nat.eqb_refl in E2. assert (LT : (t < length (r_scan s))%nat) by (apply nth_error_Some; congruence). destruct (Nat.ltb_spec t (length (r_scan s))); [|lia].
  apply some_inj in E2. subst s2. unfold as_hist, scan_start. cbn [r_cur r_last r_rings]. f_equal. unfold arr. cbn [r_rings]. rewrite app_nth2, Nat.sub_diag by lia. cbn [nth]. reflexivity.
Qed.
