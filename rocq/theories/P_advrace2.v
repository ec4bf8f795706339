Require Import Verif.Base Verif.M_advrep Verif.M_advrace Verif.S_advrace Verif.P_advrace.
From Coq Require Import Lia.

Definition rings_ok (l : list act) (s : rst) : Prop :=
  Forall (fun r => length r = 128%nat) (r_rings s) /\ (exists c, r_cur s = Some c /\ (c < length (r_rings s))%nat) /\
  (forall c i id, nth_error (nth c (r_rings s) []) i = Some (Some id) -> (id < length (r_heap s))%nat /\ scannable l (entry s id)).
Definition last_ok (s : rst) : Prop := 0 <= r_last s <= match r_loop s with LChk _ | LZero _ => 128 | _ => 127 end.
Definition cvalid (s : rst) (c : option nat) : Prop := exists k, c = Some k /\ (k < length (r_rings s))%nat.
Definition fresh_ok (l : list act) (s : rst) (a : nat) : Prop := exists e l2, during l e l2 /\ (of_type e 0 \/ of_type e 2) /\ advertised e (entry s a) /\ (a < length (r_heap s))%nat /\ ad_e (entry s a) = e /\ ad_i (entry s a) = 0%nat /\ ad_sr (entry s a) = None.
Definition sresp (l : list act) (sr : advert) (P : bytes -> Prop) : Prop := exists e l2, during l e l2 /\ of_type e 4 /\ advertised e sr /\ ad_sr sr = None /\ P e.
Definition gone (l : list act) (s : rst) (idx : Z) (e : bytes) : Prop := slot s idx = Some None /\ replaced l e.
Definition pcinv (l : list act) (s : rst) : Prop :=
  match r_loop s with
  | LIdle | LDied => True
  | LNil => exists e, of_type e 4 /\ replaced l e
  | LStore a | LInc a | LChk a | LZero a => fresh_ok l s a
  | LInc2 a v => fresh_ok l s a /\ 0 <= v <= 127
  | LStore2 a c => fresh_ok l s a /\ cvalid s c
  | LOut a => exists e l2, during l e l2 /\ (a < length (r_heap s))%nat /\ right_for l e (entry s a)
  | SStart sr | SWrap sr => sresp l sr (fun _ => True)
  | SCmp sr idx => sresp l sr (fun _ => -1 <= idx <= 127)
  | SWrap2 sr idx => sresp l sr (fun _ => idx = 127)
  | SNil sr idx => sresp l sr (fun _ => 0 <= idx <= 127)
  | SAddr sr idx => sresp l sr (fun e => 0 <= idx <= 127 /\ ((exists id, slot s idx = Some (Some id)) \/ gone l s idx e))
  | SSet sr idx => sresp l sr (fun e => 0 <= idx <= 127 /\ ((exists id, slot s idx = Some (Some id) /\ same_address (entry s id) sr) \/ gone l s idx e))
  | SRes sr idx => sresp l sr (fun e => 0 <= idx <= 127 /\
      ((exists id, slot s idx = Some (Some id) /\ exists b, merged b sr (entry s id) /\ same_address b sr /\ scannable l b) \/ gone l s idx e))
  end.
Definition Inv (l : list act) (s : rst) : Prop := rings_ok l s /\ last_ok s /\ pcinv l s.

Lemma scannable_snoc : forall l a x, scannable l x -> scannable (l ++ [a]) x.
Proof. intros l a x (H & R). split; [apply in_or_app; now left|exact R]. Qed.
Lemma right_for_snoc : forall l a e x, right_for l e x -> right_for (l ++ [a]) e x.
Proof. intros l a e x [H|(H & sr & b & A & B & C & D)]; [now left|]. right. split; [exact H|]. exists sr, b. split; [exact A|split; [exact B|split; [exact C|now apply scannable_snoc]]]. Qed.
Lemma fresh_snoc : forall l a s x, (forall e, a <> RReport e) -> fresh_ok l s x -> fresh_ok (l ++ [a]) s x.
Proof. intros l a s x N (e & l2 & D & R). exists e, (l2 ++ [a]). split; [now apply during_snoc|exact R]. Qed.
Lemma sresp_snoc : forall l a sr (P Q : bytes -> Prop), (forall e, a <> RReport e) -> (forall e l2, during l e l2 -> P e -> Q e) -> sresp l sr P -> sresp (l ++ [a]) sr Q.
Proof. intros l a sr P Q N H (e & l2 & D & T & A & S0 & X). exists e, (l2 ++ [a]). split; [now apply during_snoc|]. split; [exact T|split; [exact A|split; [exact S0|eauto]]]. Qed.
Lemma fresh_frame : forall l s s' a, r_heap s' = r_heap s -> fresh_ok l s a -> fresh_ok l s' a.
Proof. intros l s s' a E (e & l2 & R). exists e, l2. unfold entry in *. now rewrite E. Qed.

Lemma slot_in : forall s idx, Forall (fun r => length r = 128%nat) (r_rings s) -> (exists c, r_cur s = Some c /\ (c < length (r_rings s))%nat) -> 0 <= idx <= 127 -> exists x, slot s idx = Some x.
Proof.
  intros s idx F (c & E & L) H. unfold slot. destruct (Z.ltb_spec idx 0); [lia|]. unfold arr. rewrite E.
  rewrite Forall_forall in F. pose proof (F _ (nth_In (r_rings s) [] L)) as G.
  destruct (nth_error (nth c (r_rings s) []) (Z.to_nat idx)) eqn:N; [now eexists|]. apply nth_error_None in N. lia.
Qed.
Lemma arr_len : forall s, Forall (fun r => length r = 128%nat) (r_rings s) -> (exists c, r_cur s = Some c /\ (c < length (r_rings s))%nat) -> length (arr s (r_cur s)) = 128%nat.
Proof. intros s F (c & E & L). unfold arr. rewrite E. rewrite Forall_forall in F. exact (F _ (nth_In (r_rings s) [] L)). Qed.
Lemma slot_ring : forall s idx id, slot s idx = Some (Some id) -> exists c i, nth_error (nth c (r_rings s) []) i = Some (Some id).
Proof.
  intros s idx id H. unfold slot in H. destruct (idx <? 0); [discriminate|]. unfold arr in H. destruct (r_cur s) as [c|].
  - now exists c, (Z.to_nat idx).
  - destruct (Z.to_nat idx); discriminate.
Qed.

Lemma same_inv : forall l a s s' , (forall e, a <> RReport e) -> r_heap s' = r_heap s -> r_rings s' = r_rings s -> r_cur s' = r_cur s -> r_loop s' = r_loop s ->
  pcinv l s -> pcinv (l ++ [a]) s'.
Proof.
  intros l a s s' N H R C L P. unfold pcinv in *. rewrite L.
  assert (EN : forall id, entry s' id = entry s id) by (intros; unfold entry; now rewrite H).
  assert (SL : forall i, slot s' i = slot s i) by (intros; unfold slot, arr; now rewrite R, C).
  destruct (r_loop s); auto; try (apply fresh_snoc; [exact N|]; now apply (fresh_frame l s)).
  - destruct P as [P (k & -> & K)]. split; [apply fresh_snoc; [exact N|]; now apply (fresh_frame l s)|]. exists k. now rewrite R.
  - destruct P as [P K]. split; [apply fresh_snoc; [exact N|]; now apply (fresh_frame l s)|exact K].
  - destruct P as (e & l2 & D & LT & RF). exists e, (l2 ++ [a]). split; [now apply during_snoc|]. split; [now rewrite H|]. rewrite EN. now apply right_for_snoc.
  - eapply sresp_snoc; [eassumption| |eassumption]; auto.
  - eapply sresp_snoc; [eassumption| |eassumption]; auto.
  - eapply sresp_snoc; [eassumption| |eassumption]; auto.
  - eapply sresp_snoc; [eassumption| |eassumption]; auto.
  - eapply sresp_snoc; [eassumption| |eassumption]; auto.
  - eapply sresp_snoc; [exact N| |exact P]. cbv beta. intros e l2 D [I [(id & S)|(S & Q)]]; (split; [exact I|]); [left|right].
    + exists id. now rewrite SL.
    + split; [now rewrite SL|now apply replaced_snoc].
  - eapply sresp_snoc; [exact N| |exact P]. cbv beta. intros e l2 D [I [(id & S & A)|(S & Q)]]; (split; [exact I|]); [left|right].
    + exists id. rewrite SL, EN. now split.
    + split; [now rewrite SL|now apply replaced_snoc].
  - eapply sresp_snoc; [exact N| |exact P]. cbv beta. intros e l2 D [I [(id & S & b & A & B & Sc)|(S & Q)]]; (split; [exact I|]); [left|right].
    + exists id. rewrite SL, EN. split; [exact S|]. exists b. split; [exact A|split; [exact B|now apply scannable_snoc]].
    + split; [now rewrite SL|now apply replaced_snoc].
  - destruct P as (e & T & Q). exists e. split; [exact T|now apply replaced_snoc].
Qed.
Lemma rings_snoc : forall l a s, rings_ok l s -> rings_ok (l ++ [a]) s.
Proof. intros l a s (A & B & C). split; [exact A|split; [exact B|]]. intros c i id H. destruct (C c i id H). split; [easy|now apply scannable_snoc]. Qed.
Lemma rings_frame : forall l s s', r_heap s' = r_heap s -> r_rings s' = r_rings s -> r_cur s' = r_cur s -> rings_ok l s -> rings_ok l s'.
Proof. intros l s s' H R C (A & B & D). unfold rings_ok, entry in *. rewrite H, R, C. auto. Qed.

Lemma nth_snoc_repeat : forall (R : list (list (option nat))) c i id n, nth_error (nth c (R ++ [repeat None n]) []) i = Some (Some id) -> nth_error (nth c R []) i = Some (Some id).
Proof.
  intros R c i id n H. destruct (Nat.lt_ge_cases c (length R)) as [L|L].
  - now rewrite app_nth1 in H.
  - rewrite app_nth2 in H by exact L. destruct (c - length R)%nat as [|k]; cbn [nth] in H.
    + apply nth_error_In in H. apply repeat_spec in H. discriminate.
    + destruct k, i; discriminate.
Qed.
Lemma some_inj : forall {A} (x y : A), Some x = Some y -> x = y.
Proof. congruence. Qed.
Lemma scan_inv : forall l s t s', runs l s -> Inv l s -> exec s (RScanStep t) = Some s' -> Inv (l ++ [RScanStep t]) s'.
Proof.
  intros l s t s' RN (RO & LO & PC) E. cbn [exec] in E. destruct (nth_error (r_scan s) t) as [[|[|]]|] eqn:Z; try discriminate; apply some_inj in E; subst s'.
  - assert (NR : forall e, RScanStep t <> RReport e) by discriminate. destruct RO as (A & (c & B & BL) & C). split; [|split].
    + unfold rings_ok; cbn [r_rings r_cur r_heap entry]. split; [apply Forall_app; split; [exact A|constructor; [now rewrite repeat_length|constructor]]|].
      split; [exists (length (r_rings s)); split; [reflexivity|rewrite app_length; cbn; lia]|].
      intros k i id H. apply nth_snoc_repeat in H. destruct (C k i id H) as [C1 C2]. split; [exact C1|]. now apply scannable_snoc.
    + exact LO.
    + assert (SN : forall i, 0 <= i <= 127 -> slot (mkR (r_heap s) (r_rings s ++ [repeat None hist_size]) (Some (length (r_rings s))) (r_last s) (r_loop s) (upd (r_scan s) t 1%nat) (r_out s)) i = Some None).
      { intros i Hi. unfold slot. destruct (Z.ltb_spec i 0); [lia|]. cbn [r_cur r_rings arr]. rewrite app_nth2, Nat.sub_diag by lia. cbn [nth].
        unfold hist_size. apply nth_error_repeat. lia. }
      unfold pcinv in *. cbn [r_loop]. destruct (r_loop s); auto; try (apply fresh_snoc; [exact NR|]; now apply (fresh_frame l s)).
      * destruct PC as [P (k & -> & K)]. split; [apply fresh_snoc; [exact NR|]; now apply (fresh_frame l s)|]. exists k. cbn [r_rings]. rewrite app_length. split; [reflexivity|lia].
      * destruct PC as [P K]. split; [apply fresh_snoc; [exact NR|]; now apply (fresh_frame l s)|exact K].
      * destruct PC as (e & l2 & D & LT & RF). exists e, (l2 ++ [RScanStep t]). split; [now apply during_snoc|]. split; [exact LT|]. now apply right_for_snoc.
      * eapply sresp_snoc; [eassumption| |eassumption]; auto.
      * eapply sresp_snoc; [eassumption| |eassumption]; auto.
      * eapply sresp_snoc; [eassumption| |eassumption]; auto.
      * eapply sresp_snoc; [eassumption| |eassumption]; auto.
      * eapply sresp_snoc; [eassumption| |eassumption]; auto.
      * eapply sresp_snoc; [exact NR| |exact PC]. cbv beta. intros e l2 D [J _]. split; [exact J|right]. split; [now apply SN|]. eapply replaced_now; eauto.
      * eapply sresp_snoc; [exact NR| |exact PC]. cbv beta. intros e l2 D [J _]. split; [exact J|right]. split; [now apply SN|]. eapply replaced_now; eauto.
      * eapply sresp_snoc; [exact NR| |exact PC]. cbv beta. intros e l2 D [J _]. split; [exact J|right]. split; [now apply SN|]. eapply replaced_now; eauto.
      * destruct PC as (e & T & Q). exists e. split; [exact T|now apply replaced_snoc].
  - split; [|split].
    + apply rings_snoc. now apply (rings_frame l s).
    + unfold last_ok. cbn [r_last r_loop]. destruct (r_loop s); lia.
    + now apply (same_inv l _ s).
Qed.
Lemma rscan_inv : forall l s s', Inv l s -> exec s RScan = Some s' -> Inv (l ++ [RScan]) s'.
Proof.
  intros l s s' (RO & LO & PC) E. injection E as <-. split; [|split].
  - apply rings_snoc. now apply (rings_frame l s).
  - exact LO.
  - now apply (same_inv l _ s).
Qed.
