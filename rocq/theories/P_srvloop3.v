(** The notification and indication buffers: exactly one of each, and large enough. *)
Require Import Verif.Base Verif.M_attdb Verif.M_attsrv Verif.S_attsrv Verif.P_attsrv2 Verif.P_attsrv3 Verif.M_srvloop Verif.S_srvloop Verif.P_srvloop Verif.P_srvloop2.

Definition b2n (b : bool) : nat := if b then 1 else 0.
Definition cnt {A} (f : A -> bool) (l : list A) : nat := length (filter f l).
Lemma cnt_app : forall {A} (f : A -> bool) a b, cnt f (a ++ b) = (cnt f a + cnt f b)%nat.
Proof. intros. unfold cnt. now rewrite filter_app, app_length. Qed.
Lemma cnt_cons : forall {A} (f : A -> bool) x l, cnt f (x :: l) = (b2n (f x) + cnt f l)%nat.
Proof. intros. unfold cnt. cbn [filter]. destruct (f x); reflexivity. Qed.
Lemma cnt_upd : forall {A} (f : A -> bool) l k x y, nth_error l k = Some y -> (cnt f (upd l k x) + b2n (f y) = cnt f l + b2n (f x))%nat.
Proof.
  intros A f l. induction l as [|z l IH]; intros k x y N; [destruct k; discriminate|]. destruct k as [|k]; cbn [upd].
  - cbn in N. injection N as ->. rewrite !cnt_cons. lia.
  - cbn in N. rewrite !cnt_cons. specialize (IH k x y N). lia.
Qed.
Lemma cnt_pos : forall {A} (f : A -> bool) l, (0 < cnt f l)%nat -> exists k x, nth_error l k = Some x /\ f x = true.
Proof.
  intros A f l. induction l as [|z l IH]; intro H; [cbn in H; lia|]. rewrite cnt_cons in H. destruct (f z) eqn:E; [exists 0%nat, z; auto|].
  cbn in H. destruct (IH H) as (k & x & N & F). exists (S k), x. auto.
Qed.
Lemma cnt_zero : forall {A} (f : A -> bool) l k x, cnt f l = 0%nat -> nth_error l k = Some x -> f x = false.
Proof.
  intros A f l. induction l as [|z l IH]; intros k x H N; [destruct k; discriminate|]. rewrite cnt_cons in H. destruct k; cbn in N; [injection N as <-; destruct (f z); [cbn in H; lia|reflexivity]|].
  apply (IH k x); [lia|exact N].
Qed.
Lemma cnt_two : forall {A} (f : A -> bool) l j k x y, cnt f l = 1%nat -> nth_error l j = Some x -> nth_error l k = Some y -> f x = true -> f y = true -> j = k.
Proof.
  intros A f l. induction l as [|z l IH]; intros j k x y H NJ NK FX FY; [destruct j; discriminate|]. rewrite cnt_cons in H.
  destruct j as [|j], k as [|k]; cbn in NJ, NK; try reflexivity.
  - injection NJ as <-. rewrite FX in H. cbn in H. assert (cnt f l = 0)%nat by lia. pose proof (cnt_zero f l k y H0 NK). congruence.
  - injection NK as <-. rewrite FY in H. cbn in H. assert (cnt f l = 0)%nat by lia. pose proof (cnt_zero f l j x H0 NJ). congruence.
  - f_equal. apply (IH j k x y); auto. destruct (f z); cbn in H; [|exact H]. exfalso. assert (cnt f l = 0)%nat by lia. pose proof (cnt_zero f l j x H0 NJ). congruence.
Qed.

Definition buf_of (p : cphase) : option nat := match p with CBuf n | CSent n | CWait n => Some n | _ => None end.
Definition holds (ind : bool) (c : caller) : bool := Bool.eqb (c_ind c) ind && match buf_of (c_ph c) with Some _ => true | None => false end.
Definition here (o : option nat) : nat := match o with Some _ => 1 | None => 0 end.
Definition big (o : option nat) : Prop := match o with Some n => (23 <= n)%nat | None => True end.
Definition mtu_big (h : hphase) : Prop := match h with HMtuN _ m _ | HMtuI _ m _ => (23 <= m)%nat | _ => True end.
Record kinv (s : ls) : Prop := mkK {
  k_n : (cnt (holds false) (callers s) + here (nbuf s) = 1)%nat;
  k_i : (cnt (holds true) (callers s) + here (ibuf s) = 1)%nat;
  k_ph : Forall (fun c => c_ind c = false -> forall n, c_ph c <> CSent n /\ c_ph c <> CWait n) (callers s);
  k_big : Forall (fun c => big (buf_of (c_ph c))) (callers s);
  k_nb : big (nbuf s); k_ib : big (ibuf s); k_mtu : mtu_big (hd s); k_tx : (23 <= txlen (sv s))%nat }.
Lemma kinv_init : forall s, notlen s = 23%nat -> indlen s = 23%nat -> txlen s = 23%nat -> kinv (linit s).
Proof. intros s A B C. constructor; cbn [linit callers nbuf ibuf hd sv]; rewrite ?A, ?B, ?C; try constructor; cbn; auto; lia. Qed.
Lemma handle_tx : forall s e r s' o cs, (23 <= txlen s)%nat -> handle s e r = Ret (s', o, cs) -> (23 <= txlen s')%nat.
Proof.
  intros s e r s' o cs M H. destruct (handle_env _ _ _ _ _ _ H) as (_ & M' & _).
  assert (23 <= mtu_after (Z.of_nat (txlen s)) r).
  { destruct r as [|op t]; [cbn; lia|]. destruct (Z.eq_dec op 2) as [->|]; [|rewrite mtu_after_other by assumption; lia].
    unfold mtu_after. destruct t as [|a [|b [|? ?]]]; try lia. destruct (23 <=? de16 a b) eqn:?; lia. }
  lia.
Qed.
Lemma after_big : forall k old new o, (23 <= txlen new)%nat -> mtu_big (after_handle k old new o).
Proof. intros. unfold after_handle. destruct (Nat.eqb (txlen old) (txlen new)); [|exact H]. destruct o as [[|]|]; exact Logic.I. Qed.
(** a change of phase of one caller together with its buffer channel *)
Lemma kinv_caller : forall s s' k c p, kinv s -> nth_error (callers s) k = Some c -> callers s' = upd (callers s) k (set_ph p c) ->
  (c_ind c = true -> nbuf s' = nbuf s /\ (here (buf_of (c_ph c)) + here (ibuf s) = here (buf_of p) + here (ibuf s'))%nat) ->
  (c_ind c = false -> ibuf s' = ibuf s /\ (here (buf_of (c_ph c)) + here (nbuf s) = here (buf_of p) + here (nbuf s'))%nat) ->
  (c_ind c = false -> forall n, p <> CSent n /\ p <> CWait n) -> big (buf_of p) -> big (nbuf s') -> big (ibuf s') -> hd s' = hd s -> sv s' = sv s -> kinv s'.
Proof.
  intros s s' k c p [KN KI KP KB B1 B2 KM KT] N C HI HN P BP BN BI HD SV.
  assert (UN := cnt_upd (holds false) _ _ (set_ph p c) _ N). assert (UI := cnt_upd (holds true) _ _ (set_ph p c) _ N).
  unfold holds in UN at 2 4, UI at 2 4. cbn [set_ph c_ind c_ph] in UN, UI.
  constructor; rewrite ?C, ?HD, ?SV; auto.
  - destruct (c_ind c); cbn [Bool.eqb andb] in UN.
    + destruct (HI eq_refl) as [-> _]. cbn in UN. lia.
    + destruct (HN eq_refl) as [_ E]. destruct (buf_of (c_ph c)), (buf_of p); cbn [here b2n] in *; lia.
  - destruct (c_ind c); cbn [Bool.eqb andb] in UI.
    + destruct (HI eq_refl) as [_ E]. destruct (buf_of (c_ph c)), (buf_of p); cbn [here b2n] in *; lia.
    + destruct (HN eq_refl) as [-> _]. cbn in UI. lia.
  - apply Forall_upd; [exact KP|]. exact P.
  - apply Forall_upd; [exact KB|]. exact BP.
Qed.
Lemma kinv_give_back : forall s k c n r s', kinv s -> nth_error (callers s) k = Some c -> buf_of (c_ph c) = Some n -> give_back k c n r s = Some s' -> kinv s'.
Proof.
  intros s k c n r s' K N B H. assert (BC : (23 <= n)%nat). { pose proof (k_big s K) as F. pose proof (Forall_nth _ _ _ _ F N) as Q. cbn beta in Q. rewrite B in Q. exact Q. }
  pose proof (give_back_core _ _ _ _ _ _ H) as [CO _]. unfold core in CO. injection CO as _ _ _ _ HD SV.
  unfold give_back in H. destruct (cbuf c s) eqn:Q; [discriminate|]. injection H as <-.
  assert (E : callers (upd_caller k (CRet r) (set_cbuf c (Some n) s)) = upd (callers s) k (set_ph (CRet r) c)).
  { unfold upd_caller. destruct (set_cbuf_fields c (Some n) s) as (_ & _ & _ & _ & _ & _ & _ & ->). rewrite N. reflexivity. }
  assert (NB : nbuf (upd_caller k (CRet r) (set_cbuf c (Some n) s)) = if c_ind c then nbuf s else Some n).
  { destruct (upd_caller_fields k (CRet r) (set_cbuf c (Some n) s)) as (_ & _ & _ & _ & _ & _ & _ & -> & _). unfold set_cbuf. destruct (c_ind c); reflexivity. }
  assert (IB : ibuf (upd_caller k (CRet r) (set_cbuf c (Some n) s)) = if c_ind c then Some n else ibuf s).
  { destruct (upd_caller_fields k (CRet r) (set_cbuf c (Some n) s)) as (_ & _ & _ & _ & _ & _ & _ & _ & ->). unfold set_cbuf. destruct (c_ind c); reflexivity. }
  apply (kinv_caller s _ k c (CRet r) K N E).
  - intro I. rewrite NB, IB, I, B. unfold cbuf in Q. rewrite I in Q. rewrite Q. split; reflexivity.
  - intro I. rewrite NB, IB, I, B. unfold cbuf in Q. rewrite I in Q. rewrite Q. split; reflexivity.
  - intros _ m. split; discriminate.
  - exact Logic.I.
  - rewrite NB. destruct (c_ind c); [apply K|exact BC].
  - rewrite IB. destruct (c_ind c); [exact BC|apply K].
  - exact HD.
  - exact SV.
Qed.
Lemma give_back_ok : forall s k c n r, kinv s -> nth_error (callers s) k = Some c -> buf_of (c_ph c) = Some n -> exists s', give_back k c n r s = Some s'.
Proof.
  intros s k c n r K N B. unfold give_back. assert (Q : cbuf c s = None); [|rewrite Q; eauto].
  assert (H : holds (c_ind c) c = true) by (unfold holds; rewrite B; destruct (c_ind c); reflexivity).
  unfold cbuf. destruct (c_ind c).
  - pose proof (k_i s K) as E. destruct (ibuf s); [|reflexivity]. cbn [here] in E. assert (Z0 : cnt (holds true) (callers s) = 0%nat) by lia. pose proof (cnt_zero _ _ _ _ Z0 N). congruence.
  - pose proof (k_n s K) as E. destruct (nbuf s); [|reflexivity]. cbn [here] in E. assert (Z0 : cnt (holds false) (callers s) = 0%nat) by lia. pose proof (cnt_zero _ _ _ _ Z0 N). congruence.
Qed.
Lemma notify_ok : forall op n h data, (23 <= n)%nat -> exists p, notify_pdu op n h data = Ret p.
Proof. intros. unfold notify_pdu. assert (Q : Nat.ltb n 3 = false) by (apply Nat.ltb_ge; lia). rewrite Q. eauto. Qed.
Lemma set_rd_kinv : forall r s, kinv s -> kinv (set_rd r s).
Proof. intros r s [A B C D E F G H]. constructor; assumption. Qed.
Lemma kinv_step : forall s a s' v, kinv s -> lstep s a = Some (s', v) -> kinv s' /\ (hd s' = HPanic -> match a with AHandle _ | AClean => True | _ => False end).
Proof.
  intros s a s' v K H. apply lstep_cases in H. destruct H as [NP [H|H]].
  - pose proof K as [KN KI KP KB B1 B2 KM KT].
    destruct H; (split; [|try solve [intros _; exact Logic.I]; try (cbn; congruence)]); try (constructor; first [assumption|exact Logic.I]).
    + constructor; cbn [set_hd set_sv callers nbuf ibuf hd sv]; auto; [apply after_big|]; eapply handle_tx; eauto.
    + constructor; cbn [set_hd set_nbuf callers nbuf ibuf hd sv]; auto; [rewrite H0 in KN; exact KN|rewrite H in KM; exact KM|rewrite H in KM; exact KM].
    + constructor; cbn [set_hd set_ibuf callers nbuf ibuf hd sv]; auto; [rewrite H0 in KI; exact KI|rewrite H in KM; exact KM|destruct rsp; exact Logic.I].
    + cbn. destruct rsp; discriminate.
  - pose proof (call_core _ _ _ _ H) as (HD & _). destruct H.
    + destruct K as [KN KI KP KB B1 B2 KM KT]. split; [|cbn; congruence]. constructor; cbn [set_callers callers nbuf ibuf hd sv]; auto.
      * rewrite cnt_app, cnt_cons. unfold holds at 2. cbn [c_ph c_ind buf_of]. rewrite andb_false_r. unfold cnt at 2. cbn [b2n filter length]. lia.
      * rewrite cnt_app, cnt_cons. unfold holds at 2. cbn [c_ph c_ind buf_of]. rewrite andb_false_r. unfold cnt at 2. cbn [b2n filter length]. lia.
      * apply Forall_app. split; [exact KP|]. constructor; [|constructor]. intros _ m. split; discriminate.
      * apply Forall_app. split; [exact KB|]. constructor; [|constructor]. exact Logic.I.
    + pose proof (give_back_core _ _ _ _ _ _ H2) as [CO _]. unfold core in CO. injection CO as _ _ _ _ HDD _. split; [|cbn; congruence].
      apply set_rd_kinv. eapply kinv_give_back; [exact K|exact H0|now rewrite H1|exact H2].
    + split; [|cbn; congruence]. now apply set_rd_kinv.
    + destruct HD as [HD|HD]; [|split; [|congruence]].
      { exfalso. destruct (upd_caller_fields k (CBuf n) (set_cbuf c None s)) as (_ & _ & _ & _ & _ & A6 & _). destruct (set_cbuf_fields c None s) as (_ & _ & _ & _ & _ & B6 & _). congruence. }
      assert (E : callers (upd_caller k (CBuf n) (set_cbuf c None s)) = upd (callers s) k (set_ph (CBuf n) c)).
      { unfold upd_caller. destruct (set_cbuf_fields c None s) as (_ & _ & _ & _ & _ & _ & _ & ->). rewrite H. reflexivity. }
      assert (NB : nbuf (upd_caller k (CBuf n) (set_cbuf c None s)) = if c_ind c then nbuf s else None).
      { destruct (upd_caller_fields k (CBuf n) (set_cbuf c None s)) as (_ & _ & _ & _ & _ & _ & _ & -> & _). unfold set_cbuf. destruct (c_ind c); reflexivity. }
      assert (IB : ibuf (upd_caller k (CBuf n) (set_cbuf c None s)) = if c_ind c then None else ibuf s).
      { destruct (upd_caller_fields k (CBuf n) (set_cbuf c None s)) as (_ & _ & _ & _ & _ & _ & _ & _ & ->). unfold set_cbuf. destruct (c_ind c); reflexivity. }
      apply (kinv_caller s _ k c (CBuf n) K H E).
      * intro I. rewrite NB, IB, I, H0. unfold cbuf in H1. rewrite I in H1. rewrite H1. split; reflexivity.
      * intro I. rewrite NB, IB, I, H0. unfold cbuf in H1. rewrite I in H1. rewrite H1. split; reflexivity.
      * intros _ m. split; discriminate.
      * cbn. unfold cbuf in H1. destruct (c_ind c); [pose proof (k_ib s K) as Q|pose proof (k_nb s K) as Q]; rewrite H1 in Q; exact Q.
      * rewrite NB. destruct (c_ind c); [apply K|exact Logic.I].
      * rewrite IB. destruct (c_ind c); [exact Logic.I|apply K].
      * exact HD.
      * destruct (upd_caller_fields k (CBuf n) (set_cbuf c None s)) as (_ & _ & _ & _ & _ & _ & A6 & _). destruct (set_cbuf_fields c None s) as (_ & _ & _ & _ & _ & _ & B6 & _). congruence.
    + assert (E : callers (upd_caller k (CSent n) s) = upd (callers s) k (set_ph (CSent n) c)) by (unfold upd_caller; rewrite H; reflexivity).
      destruct (upd_caller_fields k (CSent n) s) as (_ & _ & _ & _ & _ & A6 & A7 & A8 & A9). split; [|rewrite A6; congruence].
      apply (kinv_caller s _ k c (CSent n) K H E); rewrite ?A8, ?A9, ?H0; auto; try (split; reflexivity); try apply K; try congruence.
      pose proof (Forall_nth _ _ _ _ (k_big s K) H) as Q. cbn beta in Q. rewrite H0 in Q. exact Q.
    + pose proof (give_back_core _ _ _ _ _ _ H4) as [CO _]. unfold core in CO. injection CO as _ _ _ _ HDD _. split; [|cbn; congruence].
      eapply kinv_give_back; [exact K|exact H|now rewrite H0|exact H4].
    + assert (E : callers (upd_caller k (CWait n) s) = upd (callers s) k (set_ph (CWait n) c)) by (unfold upd_caller; rewrite H; reflexivity).
      destruct (upd_caller_fields k (CWait n) s) as (_ & _ & _ & _ & _ & A6 & A7 & A8 & A9). split; [|rewrite A6; congruence].
      apply (kinv_caller s _ k c (CWait n) K H E); rewrite ?A8, ?A9, ?H0; auto; try (split; reflexivity); try apply K.
      * intro I. exfalso. pose proof (Forall_nth _ _ _ _ (k_ph s K) H) as Q. cbn beta in Q. destruct (Q I n) as [Q1 _]. contradiction.
      * pose proof (Forall_nth _ _ _ _ (k_big s K) H) as Q. cbn beta in Q. rewrite H0 in Q. exact Q.
    + pose proof (give_back_core _ _ _ _ _ _ H1) as [CO _]. unfold core in CO. injection CO as _ _ _ _ HDD _. split; [|cbn; congruence].
      eapply kinv_give_back; [exact K|exact H|now rewrite H0|exact H1].
    + pose proof (give_back_core _ _ _ _ _ _ H2) as [CO _]. unfold core in CO. injection CO as _ _ _ _ HDD _. split; [|cbn; congruence].
      eapply kinv_give_back; [exact K|exact H|now rewrite H0|exact H2].
    + exfalso. pose proof (Forall_nth _ _ _ _ (k_big s K) H) as Q. cbn beta in Q. rewrite H0 in Q. destruct (notify_ok (if c_ind c then 29 else 27) n (c_vh c) (c_data c) Q) as [p E]. congruence.
Qed.
Lemma new_server_lens : forall d rx tx s, new_server d rx tx = Some s -> notlen s = 23%nat /\ indlen s = 23%nat /\ txlen s = 23%nat.
Proof. intros d rx tx s H. unfold new_server in H. destruct ((rx <? 23) || (rx >? 515)); [discriminate|]. injection H as <-. auto. Qed.
Lemma kinv_run : forall d rx tx s0 l s t, new_server d rx tx = Some s0 -> lrun (linit s0) l s t -> kinv s.
Proof.
  intros d rx tx s0 l s t N H. destruct (new_server_lens _ _ _ _ N) as (A & B & C). remember (linit s0) as i eqn:E. induction H; subst; [now apply kinv_init|]. apply (kinv_step s1 a s2 v); auto.
Qed.
