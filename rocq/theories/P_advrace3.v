Require Import Verif.Base Verif.M_advrep Verif.M_advrace Verif.S_advrace Verif.P_advrace Verif.P_advrace2.
From Coq Require Import Lia.

Lemma new_fields : forall e i a, new_advertisement e i = Ret (Some a) -> ad_e a = e /\ ad_i a = i /\ ad_sr a = None.
Proof.
  intros e i a H. unfold new_advertisement, obind in H. destruct (rep_data e i) as [[d|]|]; try discriminate.
  destruct (M_adv.NewRawPacket [d]) as [[p|]|]; try discriminate. now injection H as <-.
Qed.
Lemma set_fields : forall a sr a', set_scan_response a sr = Ret (Some a') -> ad_e a' = ad_e a /\ ad_i a' = ad_i a /\ ad_sr a' = Some (ad_e sr, ad_i sr).
Proof.
  intros a sr a' H. unfold set_scan_response, obind in H. destruct (rep_data (ad_e a) (ad_i a)) as [[d|]|]; try discriminate.
  destruct (rep_data (ad_e sr) (ad_i sr)) as [[d'|]|]; try discriminate.
  destruct (M_adv.NewRawPacket [d; d']) as [[p|]|]; try discriminate. now injection H as <-.
Qed.
(** The outcomes of taking a report *)
Lemma begin_cases : forall s e (P : rst -> Prop), P s -> P (with_loop s LDied) ->
  (forall a t, advertised e a -> of_type e t -> (t = 0 \/ t = 2) -> P (with_loop (with_heap s (r_heap s ++ [a])) (LStore (length (r_heap s))))) ->
  (forall a, advertised e a -> of_type e 4 -> P (with_loop s (SStart a))) ->
  (forall a t, advertised e a -> of_type e t -> (t = 1 \/ t = 3) -> P (with_loop (with_heap s (r_heap s ++ [a])) (LOut (length (r_heap s))))) ->
  P (begin s e).
Proof.
  intros s e P P0 PD PA PS PN. unfold begin. destruct (num_reports e) as [[n|]|]; auto. destruct (n =? 1); auto.
  destruct (event_type e 0) as [[t|]|] eqn:T; auto.
  destruct ((t =? 0) || (t =? 2)) eqn:E1; [|destruct (t =? 4) eqn:E2; [|destruct ((t =? 1) || (t =? 3)) eqn:E3; [|auto]]].
  all: destruct (new_advertisement e 0) as [[a|]|] eqn:A; auto.
  - apply (PA a t); auto. apply Bool.orb_true_iff in E1. lia.
  - apply Z.eqb_eq in E2. subst t. now apply PS.
  - apply (PN a t); auto. apply Bool.orb_true_iff in E3. lia.
Qed.
Lemma entry_snoc_old : forall h id (a d : advert), (id < length h)%nat -> nth id (h ++ [a]) d = nth id h d.
Proof. intros. now apply app_nth1. Qed.
Lemma entry_snoc_new : forall h (a d : advert), nth (length h) (h ++ [a]) d = a.
Proof. intros. rewrite app_nth2, Nat.sub_diag by lia. reflexivity. Qed.
Lemma report_inv : forall l s e s', Inv l s -> exec s (RReport e) = Some s' -> Inv (l ++ [RReport e]) s'.
Proof.
  intros l s e s' (RO & LO & PC) E. cbn [exec] in E. destruct (r_loop s) eqn:L; try discriminate. apply some_inj in E. subst s'.
  assert (HE : forall a p, rings_ok (l ++ [RReport e]) (with_loop (with_heap s (r_heap s ++ [a])) p)).
  { intros a p. destruct RO as (A & B & C). split; [exact A|split; [exact B|]]. intros c i id H. destruct (C c i id H) as [C1 C2]. cbn [with_loop with_heap r_heap]. split; [rewrite app_length; lia|].
    unfold entry. cbn [with_loop with_heap r_heap]. rewrite app_nth1 by exact C1. now apply scannable_snoc. }
  assert (RO' : forall p, rings_ok (l ++ [RReport e]) (with_loop s p)) by (intros; apply rings_snoc; now apply (rings_frame l s)).
  assert (LO' : 0 <= r_last s <= 127) by (unfold last_ok in LO; now rewrite L in LO).
  apply begin_cases.
  - split; [now apply rings_snoc|split; [exact LO|]]. unfold pcinv. now rewrite L.
  - split; [apply RO'|split; [exact LO'|exact I]].
  - intros a t A T TT. split; [apply HE|split; [exact LO'|]]. unfold pcinv. cbn [with_loop r_loop]. destruct (new_fields _ _ _ A) as (F1 & F2 & F3).
    exists e, []. unfold entry. cbn [with_loop with_heap r_heap]. rewrite entry_snoc_new, app_length. cbn [length].
    split; [apply during_start|]. split; [destruct TT; subst t; auto|]. repeat split; auto. lia.
  - intros a A T. split; [apply RO'|split; [exact LO'|]]. unfold pcinv. cbn [with_loop r_loop].
    exists e, []. split; [apply during_start|]. split; [exact T|split; [exact A|split; [now destruct (new_fields _ _ _ A) as (_ & _ & ->)|exact I]]].
  - intros a t A T TT. split; [apply HE|split; [exact LO'|]]. unfold pcinv. cbn [with_loop r_loop]. destruct (new_fields _ _ _ A) as (F1 & F2 & F3).
    exists e, []. unfold entry. cbn [with_loop with_heap r_heap]. rewrite entry_snoc_new, app_length. cbn [length].
    split; [apply during_start|]. split; [lia|]. left. split; [exact A|split; [exact F1|split; [exact F3|]]]. exists t. split; [exact T|]. destruct TT; auto.
Qed.
Lemma nth_upd_d : forall {A} (l : list A) i j x d, nth j (upd l i x) d = if (Nat.eqb j i && Nat.ltb i (length l))%bool then x else nth j l d.
Proof.
  intros A l i j x d. destruct (Nat.eqb_spec j i) as [->|N]; cbn [andb].
  - destruct (Nat.ltb_spec i (length l)).
    + apply nth_error_nth. rewrite nth_error_upd. rewrite Nat.eqb_refl. destruct (Nat.ltb_spec i (length l)); [reflexivity|lia].
    + rewrite !nth_overflow; rewrite ?upd_length; auto.
  - destruct (nth_error l j) eqn:E.
    + rewrite (nth_error_nth l j d E). apply nth_error_nth. rewrite nth_error_upd. destruct (Nat.eqb_spec i j); [congruence|]. exact E.
    + apply nth_error_None in E. rewrite !nth_overflow; rewrite ?upd_length; auto.
Qed.
Lemma entry_upd : forall s id a j p, (id < length (r_heap s))%nat ->
  entry (with_loop (with_heap s (upd (r_heap s) id a)) p) j = if Nat.eqb j id then a else entry s j.
Proof.
  intros. unfold entry. cbn [with_loop with_heap r_heap]. rewrite nth_upd_d. destruct (Nat.ltb_spec id (length (r_heap s))); [|lia]. now rewrite Bool.andb_true_r.
Qed.
Lemma slot_lt : forall l s idx id, rings_ok l s -> slot s idx = Some (Some id) -> (id < length (r_heap s))%nat /\ scannable l (entry s id).
Proof. intros l s idx id (_ & _ & C) H. apply slot_ring in H. destruct H as (c & i & H). now apply C in H. Qed.
Lemma snoc_fresh : forall l s s' a, (forall x, entry s' x = entry s x) -> length (r_heap s') = length (r_heap s) -> fresh_ok l s a -> fresh_ok (l ++ [RLoop]) s' a.
Proof.
  intros l s s' a E H (e & l2 & D & R). exists e, (l2 ++ [RLoop]). rewrite E, H. split; [now apply during_snoc|exact R].
Qed.
Lemma replaced_rloop : forall l e, replaced l e -> replaced (l ++ [RLoop]) e.
Proof. intros. now apply replaced_snoc. Qed.
Lemma during_rloop : forall l e l2, during l e l2 -> during (l ++ [RLoop]) e (l2 ++ [RLoop]).
Proof. intros. now apply during_snoc. Qed.

Lemma loop_inv : forall l s s', Inv l s -> exec s RLoop = Some s' -> Inv (l ++ [RLoop]) s'.
Proof.
  intros l s s' (RO & LO & PC) E. cbn [exec] in E. unfold loop_step in E.
  assert (RW : forall p, rings_ok (l ++ [RLoop]) (with_loop s p)) by (intros; apply rings_snoc; now apply (rings_frame l s)).
  assert (AL := arr_len s (proj1 RO) (proj1 (proj2 RO))).
  assert (ST : forall i, 0 <= i <= 127 -> exists x, slot s i = Some x) by (intros; apply slot_in; [apply RO|apply RO|assumption]).
  assert (NR : forall e, RLoop <> RReport e) by discriminate.
  unfold last_ok in LO. unfold pcinv in PC. destruct (r_loop s) as [|a|a c|a|a v|a|a|a|sr|sr idx|sr|sr idx|sr idx|sr idx|sr idx|sr idx| |] eqn:L; try discriminate.
  - apply some_inj in E; subst s'. split; [apply RW|split; [exact LO|]]. cbn [pcinv with_loop r_loop]. split; [now apply (snoc_fresh l s)|]. destruct RO as (_ & (k & K & KL) & _). exists k. now split.
  - destruct PC as [PC (k & -> & KL)]. cbn [arr] in E.
    assert (LK : length (nth k (r_rings s) []) = 128%nat) by (pose proof (proj1 RO) as F; rewrite Forall_forall in F; exact (F _ (nth_In (r_rings s) [] KL))).
    rewrite LK in E. replace ((0 <=? r_last s) && (r_last s <? Z.of_nat 128))%bool with true in E by (symmetry; apply Bool.andb_true_iff; lia).
    apply some_inj in E; subst s'. split; [|split].
    + destruct RO as (A & (c0 & B & BL) & C). split; [|split].
      * cbn [r_rings]. apply Forall_forall. intros r Hr. apply (In_nth _ _ []) in Hr. destruct Hr as (j & Hj & <-). rewrite nth_upd_d.
        destruct (Nat.eqb j k && Nat.ltb k (length (r_rings s)))%bool; [now rewrite upd_length|]. rewrite upd_length in Hj. rewrite Forall_forall in A. apply A. now apply nth_In.
      * exists c0. cbn [r_cur r_rings]. split; [exact B|]. now rewrite upd_length.
      * intros c i id H. cbn [r_rings] in H. rewrite nth_upd_d in H. cbn [r_heap]. match goal with |- _ /\ scannable _ ?x => change x with (entry s id) end.
        destruct (Nat.eqb_spec c k) as [->|N]; cbn [andb] in H; [|destruct (C c i id H); split; [easy|now apply scannable_snoc]].
        destruct (Nat.ltb_spec k (length (r_rings s))); [|lia]. rewrite nth_error_upd in H.
        destruct ((Nat.eqb_spec (Z.to_nat (r_last s)) i)) as [<-|N].
        -- destruct (Nat.ltb (Z.to_nat (r_last s)) (length (nth k (r_rings s) []))); [|discriminate]. assert (id = a) by congruence. subst id.
           destruct PC as (e & l2 & D & T & A1 & A2 & A3 & A4 & A5). split; [exact A2|]. unfold scannable. rewrite A3. split; [|split; [exact A4|exact T]].
           destruct D as (l1 & -> & _). apply in_or_app. left. apply in_or_app. right. now left.
        -- destruct (C k i id H). split; [easy|now apply scannable_snoc].
    + exact LO.
    + cbn [pcinv r_loop]. now apply (snoc_fresh l s).
  - apply some_inj in E; subst s'. split; [apply RW|split; [exact LO|]]. cbn [pcinv with_loop r_loop]. split; [now apply (snoc_fresh l s)|exact LO].
  - apply some_inj in E; subst s'. destruct PC as [PC V]. split; [apply rings_snoc; now apply (rings_frame l s)|split; [unfold last_ok; cbn; lia|]]. cbn [pcinv with_loop r_loop]. now apply (snoc_fresh l s).
  - rewrite AL in E. apply some_inj in E; subst s'. split; [apply RW|]. destruct (Z.eqb_spec (r_last s) (Z.of_nat 128)) as [Q|Q].
    + split; [exact LO|]. cbn [pcinv with_loop r_loop]. now apply (snoc_fresh l s).
    + split; [unfold last_ok; cbn [with_loop r_loop r_last]; lia|]. cbn [pcinv with_loop r_loop]. destruct PC as (e & l2 & D & T & A1 & A2 & A3 & A4 & A5).
      exists e, (l2 ++ [RLoop]). split; [now apply during_rloop|]. split; [exact A2|]. left. split; [exact A1|split; [exact A3|split; [exact A5|]]]. destruct T as [T|T]; [exists 0|exists 2]; auto.
  - apply some_inj in E; subst s'. split; [apply rings_snoc; now apply (rings_frame l s)|split; [unfold last_ok; cbn; lia|]]. cbn [pcinv with_loop r_loop]. destruct PC as (e & l2 & D & T & A1 & A2 & A3 & A4 & A5).
    exists e, (l2 ++ [RLoop]). split; [now apply during_rloop|]. split; [exact A2|]. left. split; [exact A1|split; [exact A3|split; [exact A5|]]]. destruct T as [T|T]; [exists 0|exists 2]; auto.
  - apply some_inj in E; subst s'. split; [apply rings_snoc; now apply (rings_frame l s)|split; [exact LO|exact Coq.Init.Logic.I]].
  - apply some_inj in E; subst s'. split; [apply RW|split; [exact LO|]]. cbn [pcinv with_loop r_loop]. eapply sresp_snoc; [exact NR| |exact PC]. cbv beta. intros; lia.
  - apply some_inj in E; subst s'. split; [apply RW|]. destruct (Z.eqb_spec idx (r_last s)); [now split|]. destruct (Z.eqb_spec idx (-1)) as [Q|Q].
    + split; [exact LO|]. cbn [pcinv with_loop r_loop]. eapply sresp_snoc; [exact NR| |exact PC]. auto.
    + split; [exact LO|]. cbn [pcinv with_loop r_loop]. eapply sresp_snoc; [exact NR| |exact PC]. cbv beta. intros; lia.
  - rewrite AL in E. apply some_inj in E; subst s'. split; [apply RW|split; [exact LO|]]. cbn [pcinv with_loop r_loop]. eapply sresp_snoc; [exact NR| |exact PC]. cbv beta. intros; lia.
  - apply some_inj in E; subst s'. split; [apply RW|]. destruct (Z.eqb_spec idx (r_last s)); [now split|]. split; [exact LO|]. cbn [pcinv with_loop r_loop]. eapply sresp_snoc; [exact NR| |exact PC]. cbv beta. intros; lia.
  - apply some_inj in E; subst s'. split; [apply RW|]. assert (I : 0 <= idx <= 127) by (destruct PC as (e & l2 & _ & _ & _ & _ & H); exact H).
    destruct (ST idx I) as ([id|] & SI); rewrite SI; [|now split]. split; [exact LO|]. cbn [pcinv with_loop r_loop]. eapply sresp_snoc; [exact NR| |exact PC]. cbv beta.
    intros e l2 D _. split; [exact I|]. left. exists id. exact SI.
  - destruct PC as (e & l2 & D & T & A & SN & I & G). destruct (slot s idx) as [[id|]|] eqn:SI.
    + destruct (ad_addr (entry s id)) as [[ah|]|] eqn:AH; [destruct (ad_addr sr) as [[asr|]|] eqn:AS|..]; try (apply some_inj in E; subst s'; split; [apply RW|split; [exact LO|exact Coq.Init.Logic.I]]).
      apply some_inj in E; subst s'. destruct (beq_bytes (fst ah) (fst asr)) eqn:B; (split; [apply RW|split; [exact LO|]]); cbn [pcinv with_loop r_loop].
      * exists e, (l2 ++ [RLoop]). split; [now apply during_rloop|]. split; [exact T|split; [exact A|split; [exact SN|]]]. split; [exact I|]. left. exists id. split; [exact SI|].
        apply beq_bytes_eq in B. destruct ah as [x rx], asr as [y ry]. cbn in B. subst y. exists x, rx, ry. now split.
      * exists e, (l2 ++ [RLoop]). split; [now apply during_rloop|]. split; [exact T|split; [exact A|split; [exact SN|]]]. lia.
    + apply some_inj in E; subst s'. split; [apply RW|split; [exact LO|]]. cbn [pcinv with_loop r_loop]. destruct G as [(id & Q)|(_ & Q)]; [discriminate|]. exists e. split; [exact T|now apply replaced_rloop].
    + destruct (ST idx I) as (x & Q). congruence.
  - destruct PC as (e & l2 & D & T & A & SN & I & G). destruct (slot s idx) as [[id|]|] eqn:SI.
    + destruct (slot_lt l s idx id RO SI) as [IL SC].
      destruct (set_scan_response (entry s id) sr) as [[a'|]|] eqn:M; try (apply some_inj in E; subst s'; split; [apply RW|split; [exact LO|exact Coq.Init.Logic.I]]).
      apply some_inj in E; subst s'. destruct (set_fields _ _ _ M) as (F1 & F2 & F3). split; [|split; [exact LO|]].
      * destruct RO as (A' & B & C). split; [exact A'|split; [exact B|]]. intros c i j H. destruct (C c i j H) as [C1 C2]. cbn [with_loop with_heap r_heap]. rewrite upd_length. split; [exact C1|].
        rewrite entry_upd by exact IL. destruct (Nat.eqb_spec j id) as [->|N]; [|now apply scannable_snoc]. apply scannable_snoc. unfold scannable in *. now rewrite F1, F2.
      * cbn [pcinv with_loop r_loop]. exists e, (l2 ++ [RLoop]). split; [now apply during_rloop|]. split; [exact T|split; [exact A|split; [exact SN|]]]. split; [exact I|]. left. exists id. split; [exact SI|].
        exists (entry s id). rewrite entry_upd by exact IL. rewrite Nat.eqb_refl. split; [exact M|split; [|now apply scannable_snoc]].
        destruct G as [(id' & Q & SA)|(Q & _)]; [|congruence]. assert (id' = id) by congruence. now subst id'.
    + apply some_inj in E; subst s'. split; [apply RW|split; [exact LO|]]. cbn [pcinv with_loop r_loop]. destruct G as [(id & Q & _)|(_ & Q)]; [discriminate|]. exists e. split; [exact T|now apply replaced_rloop].
    + destruct (ST idx I) as (x & Q). congruence.
  - destruct PC as (e & l2 & D & T & A & SN & I & G). apply some_inj in E; subst s'. split; [apply RW|]. destruct (ST idx I) as ([id|] & SI); rewrite SI; [|now split].
    split; [exact LO|]. cbn [pcinv with_loop r_loop]. exists e, (l2 ++ [RLoop]). split; [now apply during_rloop|]. destruct (slot_lt l s idx id RO SI) as [IL SC]. split; [exact IL|].
    right. split; [exact T|]. destruct G as [(id' & Q & b & M & SA & Sb)|(Q & _)]; [|congruence]. assert (id' = id) by congruence. subst id'.
    exists sr, b. split; [exact A|split; [exact M|split; [exact SA|now apply scannable_snoc]]].
Qed.
Lemma inv_runs : forall l s, runs l s -> Inv l s.
Proof.
  apply runs_ind.
  - split; [|split].
    + split; [constructor; [reflexivity|constructor]|]. split; [exists 0%nat; split; [reflexivity|cbn; lia]|]. intros c i id H. exfalso. cbn [r1 r_rings] in H.
      assert (N : nth_error (nth c ([] ++ [repeat None hist_size]) []) i = Some (Some id)) by exact H. apply nth_snoc_repeat in N. destruct c, i; discriminate.
    + unfold last_ok. cbn. lia.
    + exact Coq.Init.Logic.I.
  - intros l s [e| | |t] s' R IV E.
    + eapply report_inv; eauto.
    + eapply loop_inv; eauto.
    + eapply rscan_inv; eauto.
    + eapply scan_inv; eauto.
Qed.
