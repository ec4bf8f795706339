Require Import Verif.Base Verif.M_advrep Verif.M_advrace Verif.S_advrace Verif.P_advrace Verif.P_advrace2 Verif.P_advrace3 Verif.P_advrace4.
From Coq Require Import Lia.

Definition uniq (s : rst) : Prop := forall c i j id, nth_error (nth c (r_rings s) []) i = Some (Some id) -> nth_error (nth c (r_rings s) []) j = Some (Some id) -> i = j.
Definition newid (s : rst) : Prop := match r_loop s with LStore a | LStore2 a _ => forall c i, nth_error (nth c (r_rings s) []) i <> Some (Some a) | _ => True end.
Lemma uniq_runs : forall l s, runs l s -> uniq s /\ newid s.
Proof.
  apply runs_ind.
  - split; [|exact Coq.Init.Logic.I]. intros c i j id H. exfalso.
    assert (N : nth_error (nth c ([] ++ [repeat None hist_size]) []) i = Some (Some id)) by exact H. apply nth_snoc_repeat in N. destruct c, i; discriminate.
  - intros l s a s' R (U & N) E. destruct (inv_runs l s R) as ((A & B & C) & _ & P). destruct a as [e| | |t]; cbn [exec] in E.
    + destruct (r_loop s) eqn:L; try discriminate. apply some_inj in E. subst s'. apply begin_cases.
      * split; [exact U|]. unfold newid. now rewrite L.
      * split; [exact U|exact Coq.Init.Logic.I].
      * intros a0 t0 A0 T0 TT0. split; [exact U|]. unfold newid. cbn [with_loop with_heap r_loop r_rings]. intros c i HH. apply C in HH. lia.
      * intros. split; [exact U|exact Coq.Init.Logic.I].
      * intros. split; [exact U|exact Coq.Init.Logic.I].
    + unfold loop_step in E. unfold newid in N. destruct (r_loop s) as [|a|a c|a|a v|a|a|a|sr|sr idx|sr|sr idx|sr idx|sr idx|sr idx|sr idx| |] eqn:L; try discriminate.
      all: try (apply some_inj in E; subst s'; split; [exact U|exact Coq.Init.Logic.I]).
      1: { apply some_inj in E; subst s'. split; [exact U|exact N]. }
      1: { destruct c as [k|]; cbn [arr] in E; [|destruct ((0 <=? r_last s) && (r_last s <? Z.of_nat (length (@nil (option nat)))))%bool; apply some_inj in E; subst s'; (split; [exact U|exact Coq.Init.Logic.I])].
        destruct ((0 <=? r_last s) && (r_last s <? Z.of_nat (length (nth k (r_rings s) []))))%bool; apply some_inj in E; subst s'; (split; [|exact Coq.Init.Logic.I]); [|exact U].
        assert (X : forall c i id, nth_error (nth c (upd (r_rings s) k (upd (nth k (r_rings s) []) (Z.to_nat (r_last s)) (Some a))) []) i = Some (Some id) -> (c = k /\ i = Z.to_nat (r_last s) /\ id = a) \/ (nth_error (nth c (r_rings s) []) i = Some (Some id) /\ ~ (c = k /\ i = Z.to_nat (r_last s) /\ (k < length (r_rings s))%nat))).
        { intros c i id H. rewrite nth_upd_d in H. destruct (Nat.eqb_spec c k) as [->|Nc]; cbn [andb] in H; [|right; split; [exact H|tauto]].
          destruct (Nat.ltb_spec k (length (r_rings s))); [|right; split; [exact H|lia]]. rewrite nth_error_upd in H. destruct (Nat.eqb_spec (Z.to_nat (r_last s)) i) as [<-|Ni].
          - destruct (Nat.ltb (Z.to_nat (r_last s)) (length (nth k (r_rings s) []))); [|discriminate]. left. split; [reflexivity|]. split; [reflexivity|]. congruence.
          - right. split; [exact H|]. intros (_ & Q & _). congruence. }
        intros c i j id H1 H2. cbn [r_rings] in H1, H2. apply X in H1. apply X in H2. destruct H1 as [(-> & -> & ->)|(H1 & Q1)], H2 as [(E1 & E2 & E3)|(H2 & Q2)].
        -- now subst j.
        -- exfalso. exact (N _ _ H2).
        -- subst c id. exfalso. exact (N _ _ H1).
        -- eapply U; eauto. }
      all: repeat match type of E with context[match ?x with _ => _ end] => destruct x end; apply some_inj in E; subst s'; (split; [exact U|exact Coq.Init.Logic.I]).
    + apply some_inj in E; subst s'. split; [exact U|exact N].
    + destruct (nth_error (r_scan s) t) as [[|[|]]|]; try discriminate; apply some_inj in E; subst s'.
      * split.
        -- intros c i j id H1 H2. cbn [r_rings] in H1, H2. apply nth_snoc_repeat in H1. apply nth_snoc_repeat in H2. eapply U; eauto.
        -- unfold newid in *. cbn [r_loop r_rings]. destruct (r_loop s); auto; intros c0 i H; apply nth_snoc_repeat in H; exact (N _ _ H).
      * split; [exact U|exact N].
Qed.

(** The event loop alone *)
Definition fin (s s' : rst) : Prop := (exists n, exec_all s (repeat RLoop n) = Some s') /\ loop_step s' = None.
Lemma fin_step : forall s s1 s', fin s s' -> loop_step s = Some s1 -> fin s1 s'.
Proof.
  intros s s1 s' ((n & E) & Z) S. split; [|exact Z]. destruct n as [|n].
  - cbn in E. apply some_inj in E. subst s'. congruence.
  - cbn [repeat exec_all exec] in E. rewrite S in E. now exists n.
Qed.
Lemma fin_stop : forall s s', fin s s' -> loop_step s = None -> s' = s.
Proof.
  intros s s' ((n & E) & Z) S. destruct n as [|n]; [cbn in E; apply some_inj in E; congruence|]. cbn [repeat exec_all exec] in E. now rewrite S in E.
Qed.
Lemma nth_error_ext : forall {A} (l l' : list A), (forall i, nth_error l i = nth_error l' i) -> l = l'.
Proof.
  intros A. induction l as [|x l IH]; intros [|y l'] H; [reflexivity|specialize (H 0%nat); discriminate|specialize (H 0%nat); discriminate|].
  f_equal; [specialize (H 0%nat); cbn in H; congruence|]. apply IH. intros i. exact (H (S i)).
Qed.
Definition outcome (s s' : rst) (e : bytes) : Prop :=
  (r_loop s' = LIdle /\ exists o, handle_adv_report (as_hist s) e = Ret (as_hist s', o) /\
     match o with None => handed s' = handed s | Some a => exists id, handed s' = handed s ++ [id] /\ entry s' id = a end) \/
  (r_loop s' = LDied /\ handle_adv_report (as_hist s) e = Panic).
Definition sroutcome (s s' : rst) (sr : advert) (r : gopt (nat * advert)) : Prop :=
  (r_loop s' = LIdle /\ match r with
    | Panic => False
    | Ret None => as_hist s' = as_hist s /\ handed s' = handed s
    | Ret (Some (k, a')) => (k < length (arr s (r_cur s)))%nat /\ as_hist s' = mkHist (upd (ring (as_hist s)) k (Some a')) (adlast (as_hist s)) /\ exists id, handed s' = handed s ++ [id] /\ entry s' id = a'
    end) \/
  (r_loop s' = LDied /\ r = Panic).
Definition same_data (s1 s : rst) : Prop := r_heap s1 = r_heap s /\ r_rings s1 = r_rings s /\ r_cur s1 = r_cur s /\ r_last s1 = r_last s /\ r_out s1 = r_out s.
Definition dist (last idx : Z) : Z := if last <=? idx then idx - last else idx + 128 - last.

Lemma slot_gidx : forall s idx x, 0 <= idx -> slot s idx = Some x -> gidx (map (option_map (entry s)) (arr s (r_cur s))) (Z.to_nat idx) = Ret (option_map (entry s) x).
Proof.
  intros s idx x I H. unfold slot in H. destruct (Z.ltb_spec idx 0); [lia|]. unfold gidx. rewrite nth_error_map, H. reflexivity.
Qed.
Lemma search_ok : forall f s sr idx s', uniq s -> (forall c i id, nth_error (nth c (r_rings s) []) i = Some (Some id) -> (id < length (r_heap s))%nat) ->
  length (arr s (r_cur s)) = 128%nat -> 0 <= r_last s <= 127 -> -1 <= idx <= 127 -> dist (r_last s) idx < Z.of_nat f ->
  fin (with_loop s (SCmp sr idx)) s' -> sroutcome s s' sr (sr_search (ring (as_hist s)) (adlast (as_hist s)) sr idx f).
Proof.
  induction f as [|f IH]; intros s sr idx s' U HB AL LO ID DI F.
  { exfalso. unfold dist in DI. destruct (Z.leb_spec (r_last s) idx); lia. }
  cbn [sr_search]. set (R := ring (as_hist s)). set (LA := adlast (as_hist s)).
  assert (EL : Z.of_nat LA = r_last s) by (unfold LA, as_hist; cbn [adlast]; lia). rewrite EL.
  assert (ER : R = map (option_map (entry s)) (arr s (r_cur s))) by reflexivity.
  assert (LR : length R = 128%nat) by (rewrite ER, map_length; exact AL).
  assert (IDLE : fin (with_loop s LIdle) s' -> sroutcome s s' sr (Ret None)).
  { intros G. apply fin_stop in G; [|reflexivity]. subst s'. left. split; [reflexivity|]. split; reflexivity. }
  assert (S1 := fin_step _ _ _ F eq_refl). cbn [with_loop r_last] in S1.
  change (mkR (r_heap s) (r_rings s) (r_cur s) (r_last s) ?p (r_scan s) (r_out s)) with (with_loop s p) in S1.
  destruct (Z.eqb_spec idx (r_last s)) as [Q|Q]; [now apply IDLE|].
  set (idx' := if idx =? -1 then Z.of_nat (length R) - 1 else idx).
  assert (I' : 0 <= idx' <= 127) by (unfold idx'; rewrite LR; destruct (Z.eqb_spec idx (-1)); lia).
  assert (S2 : if (idx =? -1) && (idx' =? r_last s) then fin (with_loop s LIdle) s' else fin (with_loop s (SNil sr idx')) s').
  { unfold idx'. destruct (Z.eqb_spec idx (-1)) as [Q1|Q1]; cbn [andb]; [|exact S1].
    assert (T1 : loop_step (with_loop s (SWrap sr)) = Some (with_loop s (SWrap2 sr (Z.of_nat 128 - 1)))).
    { change (loop_step (with_loop s (SWrap sr))) with (Some (with_loop s (SWrap2 sr (Z.of_nat (length (arr s (r_cur s))) - 1)))). now rewrite AL. }
    assert (S4 := fin_step _ _ _ (fin_step _ _ _ S1 T1) eq_refl). cbn [with_loop r_last] in S4. rewrite LR.
    change (mkR (r_heap s) (r_rings s) (r_cur s) (r_last s) ?p (r_scan s) (r_out s)) with (with_loop s p) in S4.
    destruct (Z.of_nat 128 - 1 =? r_last s); exact S4. }
  destruct ((idx =? -1) && (idx' =? r_last s))%bool eqn:W; [now apply IDLE|].
  assert (SX : exists x, slot s idx' = Some x).
  { unfold slot. destruct (Z.ltb_spec idx' 0); [lia|]. destruct (nth_error (arr s (r_cur s)) (Z.to_nat idx')) eqn:E; [now eexists|]. apply nth_error_None in E. lia. }
  destruct SX as (x & SX). rewrite ER, (slot_gidx s idx' x) by (lia || assumption). cbn [gbind].
  assert (S3 := fin_step _ _ _ S2 eq_refl). change (slot (with_loop s (SNil sr idx')) idx') with (slot s idx') in S3. rewrite SX in S3.
  destruct x as [id|]; cbn [option_map]; [|now apply IDLE]. change (with_loop (with_loop s ?p) ?q) with (with_loop s q) in S3.
  assert (DIED : fin (with_loop s LDied) s' -> sroutcome s s' sr Panic).
  { intros G. apply fin_stop in G; [|reflexivity]. subst s'. right. now split. }
  assert (ST : loop_step (with_loop s (SAddr sr idx')) = match ad_addr (entry s id) with Panic => Some (with_loop s LDied) | Ret None => Some (with_loop s LIdle) | Ret (Some ah) =>
     match ad_addr sr with Panic => Some (with_loop s LDied) | Ret None => Some (with_loop s LIdle) | Ret (Some asr) => Some (with_loop s (if beq_bytes (fst ah) (fst asr) then SSet sr idx' else SCmp sr (idx' - 1))) end end).
  { assert (QX : slot (with_loop s (SAddr sr idx')) idx' = Some (Some id)) by exact SX. unfold loop_step. change (r_loop (with_loop s ?p)) with p. cbv beta iota. rewrite QX. reflexivity. }
  destruct (ad_addr (entry s id)) as [[ah|]|]; cbn [obind]; [|apply IDLE; exact (fin_step _ _ _ S3 ST)|apply DIED; exact (fin_step _ _ _ S3 ST)].
  destruct (ad_addr sr) as [[asr|]|]; cbn [obind]; [|apply IDLE; exact (fin_step _ _ _ S3 ST)|apply DIED; exact (fin_step _ _ _ S3 ST)].
  assert (S4 := fin_step _ _ _ S3 ST). clear S3 ST. destruct (beq_bytes (fst ah) (fst asr)).
  - assert (ST : loop_step (with_loop s (SSet sr idx')) = match set_scan_response (entry s id) sr with Panic => Some (with_loop s LDied) | Ret None => Some (with_loop s LIdle) | Ret (Some a) => Some (with_loop (with_heap s (upd (r_heap s) id a)) (SRes sr idx')) end).
    { assert (QX : slot (with_loop s (SSet sr idx')) idx' = Some (Some id)) by exact SX. unfold loop_step. change (r_loop (with_loop s ?p)) with p. cbv beta iota. rewrite QX. reflexivity. }
    destruct (set_scan_response (entry s id) sr) as [[a'|]|] eqn:M; cbn [obind]; [|apply IDLE; exact (fin_step _ _ _ S4 ST)|apply DIED; exact (fin_step _ _ _ S4 ST)].
    assert (S5 := fin_step _ _ _ S4 ST). assert (S6 := fin_step _ _ _ S5 eq_refl).
    change (slot (with_loop (with_heap s (upd (r_heap s) id a')) (SRes sr idx')) idx') with (slot s idx') in S6. rewrite SX in S6.
    assert (S7 := fin_step _ _ _ S6 eq_refl). apply fin_stop in S7; [|reflexivity]. subst s'. left. split; [reflexivity|].
    assert (NT : nth_error (arr s (r_cur s)) (Z.to_nat idx') = Some (Some id)) by (unfold slot in SX; destruct (Z.ltb_spec idx' 0); [lia|exact SX]).
    assert (LT : (Z.to_nat idx' < length (arr s (r_cur s)))%nat) by (apply nth_error_Some; congruence).
    assert (HX : exists c, r_cur s = Some c) by (unfold arr in NT; destruct (r_cur s) as [c|]; [now exists c|destruct (Z.to_nat idx'); discriminate]). destruct HX as (c & HC).
    assert (IL : (id < length (r_heap s))%nat) by (unfold arr in NT; rewrite HC in NT; now apply HB in NT).
    split; [exact LT|]. split.
    + change (mkHist (map (option_map (entry (mkR (upd (r_heap s) id a') (r_rings s) (r_cur s) (r_last s) LIdle (r_scan s) (r_out s ++ [id])))) (arr s (r_cur s))) (adlast (as_hist s)) =
        mkHist (upd (map (option_map (entry s)) (arr s (r_cur s))) (Z.to_nat idx') (Some a')) (adlast (as_hist s))). f_equal.
      apply nth_error_ext. intros i. rewrite nth_error_upd, map_length, !nth_error_map.
      assert (EE : forall j, entry (mkR (upd (r_heap s) id a') (r_rings s) (r_cur s) (r_last s) LIdle (r_scan s) (r_out s ++ [id])) j = if Nat.eqb j id then a' else entry s j).
      { intros j. unfold entry. cbn [r_heap]. rewrite nth_upd_d. destruct (Nat.ltb_spec id (length (r_heap s))); [|lia]. now rewrite Bool.andb_true_r. }
      destruct (Nat.eqb_spec (Z.to_nat idx') i) as [<-|Ni].
      * rewrite NT. destruct (Nat.ltb_spec (Z.to_nat idx') (length (arr s (r_cur s)))); [|lia]. cbn [option_map]. rewrite EE, Nat.eqb_refl. reflexivity.
      * destruct (nth_error (arr s (r_cur s)) i) as [[j|]|] eqn:Ej; [|reflexivity|reflexivity]. cbn [option_map]. rewrite EE. destruct (Nat.eqb_spec j id) as [->|]; [|reflexivity].
        exfalso. apply Ni. unfold arr in NT, Ej. rewrite HC in NT, Ej. exact (U _ _ _ _ NT Ej).
    + exists id. split; [reflexivity|]. unfold entry. cbn [r_heap with_heap with_loop]. rewrite nth_upd_d, Nat.eqb_refl. destruct (Nat.ltb_spec id (length (r_heap s))); [reflexivity|lia].
  - change LA with (adlast (as_hist s)). rewrite <- ER. apply (IH s sr (idx' - 1) s' U HB AL LO); [lia| |exact S4].
    unfold dist in *. unfold idx' in *. rewrite LR in *. apply Bool.andb_false_iff in W. destruct (Z.eqb_spec idx (-1)) as [Q1|Q1].
    + destruct W as [W|W]; [discriminate|]. apply Z.eqb_neq in W. destruct (Z.leb_spec (r_last s) idx); [lia|]. destruct (Z.leb_spec (r_last s) (Z.of_nat 128 - 1 - 1)); lia.
    + destruct (Z.leb_spec (r_last s) idx), (Z.leb_spec (r_last s) (idx - 1)); lia.
Qed.
