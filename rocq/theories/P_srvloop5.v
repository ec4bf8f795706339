(** Progress: every step of the library's goroutines brings the end nearer, and what remains when nothing can happen. *)
Require Import Verif.Base Verif.M_attdb Verif.M_attsrv Verif.M_srvloop Verif.S_srvloop Verif.P_srvloop Verif.P_srvloop2 Verif.P_srvloop3 Verif.P_srvloop4.

Definition rw (r : rphase) : nat := match r with RTake => 6 | RRead _ => 5 | RConf _ => 7 | RSend _ => 14 | RFail => 4 | RShut1 => 3 | RShut2 => 2 | RStopped => 1 end.
Definition hw (h : hphase) : nat := match h with HGot _ => 10 | HMtuN _ _ _ => 9 | HMtuI _ _ _ => 8 | HWrite _ _ => 7 | HPut _ => 6 | HWait => 3 | HClean => 2 | HDone => 1 | HPanic => 0 end.
Definition cw (c : caller) : nat := match c_ph c with CNew => 5 | CBuf _ => 4 | CSent _ => 3 | CWait _ => 2 | CRet _ => 1 end.
Fixpoint csum (l : list caller) : nat := match l with [] => 0 | c :: r => cw c + csum r end.
(** how much work is left *)
Definition work (s : ls) : nat := 20 * length (inq s) + rw (rd s) + hw (hd s) + csum (callers s).
Lemma csum_upd : forall l k x y, nth_error l k = Some y -> (csum (upd l k x) + cw y = csum l + cw x)%nat.
Proof.
  induction l as [|z l IH]; intros k x y N; [destruct k; discriminate|]. destruct k as [|k]; cbn [upd csum]; cbn in N.
  - injection N as ->. lia.
  - specialize (IH k x y N). lia.
Qed.
Lemma upd_caller_callers : forall k p s c, nth_error (callers s) k = Some c -> callers (upd_caller k p s) = upd (callers s) k (set_ph p c).
Proof. intros k p s c N. unfold upd_caller. rewrite N. reflexivity. Qed.
Lemma give_back_callers : forall k c n r s s', nth_error (callers s) k = Some c -> give_back k c n r s = Some s' -> callers s' = upd (callers s) k (set_ph (CRet r) c).
Proof.
  intros k c n r s s' N H. unfold give_back in H. destruct (cbuf c s); [discriminate|]. injection H as <-.
  destruct (set_cbuf_fields c (Some n) s) as (_ & _ & _ & _ & _ & _ & _ & E). rewrite <- E in N |- *. now apply upd_caller_callers.
Qed.
Lemma after_hw : forall k old new o, (hw (after_handle k old new o) <= 9)%nat.
Proof. intros. unfold after_handle. destruct (Nat.eqb (txlen old) (txlen new)); destruct o as [[|]|]; cbn; lia. Qed.
Lemma work_decreases : forall s a s' v, lstep s a = Some (s', v) -> external a = false -> (work s' < work s)%nat.
Proof.
  intros s a s' v H X. apply lstep_cases in H. destruct H as [NP [H|H]].
  - destruct H; try discriminate X; unfold work; cbn [set_in set_down set_bufs set_pool set_rd set_hd set_sv set_nbuf set_ibuf inq rd hd callers];
      repeat match goal with G : rd _ = _ |- _ => rewrite G in *; clear G | G : hd _ = _ |- _ => rewrite G in *; clear G | G : inq _ = _ |- _ => rewrite G in *; clear G end; cbn [rw hw length]; try lia.
    + pose proof (after_hw k (sv s) s' o). lia.
    + destruct rsp; cbn [hw]; lia.
  - destruct H; try discriminate X.
    + pose proof (give_back_core _ _ _ _ _ _ H2) as [CO RD]. unfold core in CO. injection CO as E1 _ _ _ E5 _. pose proof (give_back_callers _ _ _ _ _ _ H0 H2) as EC.
      pose proof (csum_upd _ _ (set_ph (CRet COk) c) _ H0) as U. unfold work. cbn [set_rd inq rd hd callers]. rewrite EC, E1, E5, H. unfold cw in U. cbn [set_ph c_ph] in U. rewrite H1 in U. cbn [rw]. lia.
    + unfold work. cbn [set_rd inq rd hd callers]. rewrite H. cbn [rw]. lia.
    + destruct (upd_caller_fields k (CBuf n) (set_cbuf c None s)) as (A1 & A2 & A3 & A4 & A5 & A6 & _). destruct (set_cbuf_fields c None s) as (B1 & B2 & B3 & B4 & B5 & B6 & B7 & B8).
      assert (N : nth_error (callers (set_cbuf c None s)) k = Some c) by (rewrite B8; exact H). pose proof (upd_caller_callers k (CBuf n) _ _ N) as EC.
      pose proof (csum_upd _ _ (set_ph (CBuf n) c) _ H) as U. unfold work. rewrite EC, A1, A5, A6, B1, B5, B6, B8. unfold cw in U. cbn [set_ph c_ph] in U. rewrite H0 in U. lia.
    + destruct (upd_caller_fields k (CSent n) s) as (A1 & A2 & A3 & A4 & A5 & A6 & _). pose proof (upd_caller_callers k (CSent n) _ _ H) as EC.
      pose proof (csum_upd _ _ (set_ph (CSent n) c) _ H) as U. unfold work. rewrite EC, A1, A5, A6. unfold cw in U. cbn [set_ph c_ph] in U. rewrite H0 in U. lia.
    + pose proof (give_back_core _ _ _ _ _ _ H4) as [CO RD]. unfold core in CO. injection CO as E1 _ _ _ E5 _. pose proof (give_back_callers _ _ _ _ _ _ H H4) as EC.
      pose proof (csum_upd _ _ (set_ph (CRet (if ok then COk else CErrWrite)) c) _ H) as U. unfold work. rewrite EC, E1, E5, RD. unfold cw in U. cbn [set_ph c_ph] in U. rewrite H0 in U. lia.
    + destruct (upd_caller_fields k (CWait n) s) as (A1 & A2 & A3 & A4 & A5 & A6 & _). pose proof (upd_caller_callers k (CWait n) _ _ H) as EC.
      pose proof (csum_upd _ _ (set_ph (CWait n) c) _ H) as U. unfold work. rewrite EC, A1, A5, A6. unfold cw in U. cbn [set_ph c_ph] in U. rewrite H0 in U. lia.
    + pose proof (give_back_core _ _ _ _ _ _ H1) as [CO RD]. unfold core in CO. injection CO as E1 _ _ _ E5 _. pose proof (give_back_callers _ _ _ _ _ _ H H1) as EC.
      pose proof (csum_upd _ _ (set_ph (CRet CErrTimeout) c) _ H) as U. unfold work. rewrite EC, E1, E5, RD. unfold cw in U. cbn [set_ph c_ph] in U. rewrite H0 in U. lia.
    + pose proof (give_back_core _ _ _ _ _ _ H2) as [CO RD]. unfold core in CO. injection CO as E1 _ _ _ E5 _. pose proof (give_back_callers _ _ _ _ _ _ H H2) as EC.
      pose proof (csum_upd _ _ (set_ph (CRet CErrClosed) c) _ H) as U. unfold work. rewrite EC, E1, E5, RD. unfold cw in U. cbn [set_ph c_ph] in U. rewrite H0 in U. lia.
    + unfold work. cbn [set_hd inq rd hd callers hw]. destruct (hd s); cbn [hw]; try lia. now elim NP.
Qed.
(** The handling goroutine leaves its loop only when the reading one has ended. *)
Definition einv (s : ls) : Prop := hd s = HClean \/ hd s = HDone -> seq_closed (rd s) = true.
Lemma einv_step : forall s a s' v, einv s -> lstep s a = Some (s', v) -> einv s'.
Proof.
  intros s a s' v E H. apply lstep_cases in H. destruct H as [NP [H|H]]; unfold einv in *.
  - destruct H; cbn [set_in set_down set_bufs set_pool set_rd set_hd set_sv set_nbuf set_ibuf rd hd];
      repeat match goal with G : rd _ = _ |- _ => rewrite G in *; clear G | G : hd _ = _ |- _ => rewrite G in *; clear G end; cbn [seq_closed] in *; auto; try (intros [Q|Q]; discriminate Q).
    + intros Q. unfold after_handle in Q. destruct (Nat.eqb (txlen (sv s)) (txlen s')); destruct o as [[|]|]; destruct Q as [Q|Q]; discriminate Q.
    + intros Q. destruct rsp; destruct Q as [Q|Q]; discriminate Q.
  - pose proof (call_core _ _ _ _ H) as (HD & _ & _ & _ & _ & _ & HR & _). destruct HD as [HD|HD]; rewrite HD; [intros [Q|Q]; discriminate Q|]. intro Q. apply E in Q. destruct HR as [-> |(k & E1 & E2)]; [exact Q|].
    rewrite E1 in Q. discriminate.
Qed.
Lemma einv_run : forall s0 l s t, lrun (linit s0) l s t -> einv s.
Proof. intros s0 l s t H. remember (linit s0) as i eqn:E. induction H; subst; [intros [Q|Q]; discriminate Q|]. eapply einv_step; eauto. Qed.

Definition done_calls (s : ls) : Prop := Forall (fun c => exists r, c_ph c = CRet r) (callers s).
Definition idle (s : ls) : Prop := (exists k, rd s = RRead k) /\ inq s = [] /\ down s = false /\ hd s = HWait.
Definition ended (s : ls) : Prop := rd s = RStopped /\ hd s = HDone.
Lemma live_lstep : forall s a, hd s <> HPanic -> lstep s a = live_step s a.
Proof. intros s a NP. unfold lstep. destruct (hd s); try reflexivity. now elim NP. Qed.
Lemma cnt_in : forall (l : list nat), NoDup l -> Forall (fun k => k < 2)%nat l -> (length l <= 2)%nat.
Proof.
  intros l N F. assert (I : incl l [0; 1]%nat). { intros x X. rewrite Forall_forall in F. specialize (F x X). cbn. lia. }
  exact (NoDup_incl_length N I).
Qed.
(** what a quiet state looks like, timers aside *)
Lemma quiet_shape : forall s, oinv s -> kinv s -> einv s -> hd s <> HPanic -> quiet_but_timers s ->
  ((idle s \/ ended s) /\ done_calls s) \/
  (awaiting_confirmation s /\ conf_closed (rd s) = false /\ nbuf s <> None /\ ibuf s = None /\ Forall (fun c => c_ind c = false -> exists r, c_ph c = CRet r) (callers s) /\
   ((idle s) \/ (exists k m rsp, hd s = HMtuI k m rsp) /\ ((exists k, rd s = RRead k) /\ inq s = [] /\ down s = false \/ exists k, rd s = RSend k))).
Proof.
  intros s O K E NP Q.
  assert (QL : forall a, external a = false -> timer a = false -> live_step s a = None) by (intros a A B; rewrite <- live_lstep by exact NP; now apply Q).
  assert (CPH : forall k c, nth_error (callers s) k = Some c -> c_ph c = CNew \/ (exists n, c_ph c = CWait n) \/ exists r, c_ph c = CRet r).
  { intros k c N. destruct (c_ph c) eqn:P; eauto.
    - exfalso. specialize (QL (ACWrite k false) eq_refl eq_refl). cbn [live_step] in QL. rewrite N, P in QL.
      pose proof (Forall_nth _ _ _ _ (k_big s K) N) as B. cbn beta in B. rewrite P in B. destruct (notify_ok (if c_ind c then 29 else 27) n (c_vh c) (c_data c) B) as [p PE]. rewrite PE in QL. cbn [may_write negb orb andb] in QL.
      destruct (give_back_ok s k c n CErrWrite K N ltac:(now rewrite P)) as [s' G]. rewrite G in QL. discriminate.
    - exfalso. specialize (QL (ACSelect k) eq_refl eq_refl). cbn [live_step] in QL. rewrite N, P in QL. discriminate. }
  assert (NB : nbuf s <> None).
  { intro B. pose proof (k_n s K) as C. rewrite B in C. cbn [here] in C. destruct (cnt_pos (holds false) (callers s) ltac:(lia)) as (k & c & N & HC). unfold holds in HC. apply andb_true_iff in HC. destruct HC as [I HB]. apply eqb_prop in I.
    destruct (CPH k c N) as [P|[[n P]|[r P]]]; rewrite P in HB; try discriminate. pose proof (Forall_nth _ _ _ _ (k_ph s K) N) as F. cbn beta in F. destruct (F I n) as [_ F2]. contradiction. }
  assert (IB : ibuf s = None -> awaiting_confirmation s).
  { intro B. pose proof (k_i s K) as C. rewrite B in C. cbn [here] in C. destruct (cnt_pos (holds true) (callers s) ltac:(lia)) as (k & c & N & HC). unfold holds in HC. apply andb_true_iff in HC. destruct HC as [I HB].
    destruct (CPH k c N) as [P|[[n P]|[r P]]]; rewrite P in HB; try discriminate. exists k, c, n. auto. }
  assert (AW : awaiting_confirmation s -> ibuf s = None /\ conf_closed (rd s) = false).
  { intros (k & c & n & N & P). assert (I : c_ind c = true). { destruct (c_ind c) eqn:I; [reflexivity|]. pose proof (Forall_nth _ _ _ _ (k_ph s K) N) as F. cbn beta in F. destruct (F I n) as [_ F2]. contradiction. }
    assert (HC : holds true c = true) by (unfold holds; now rewrite I, P). split.
    - pose proof (k_i s K) as C. destruct (ibuf s); [|reflexivity]. cbn [here] in C. assert (Z0 : cnt (holds true) (callers s) = 0%nat) by lia. pose proof (cnt_zero _ _ _ _ Z0 N). congruence.
    - destruct (conf_closed (rd s)) eqn:CC; [|reflexivity]. exfalso. specialize (QL (ACClosed k) eq_refl eq_refl). cbn [live_step] in QL. rewrite N, P, CC in QL.
      destruct (give_back_ok s k c n CErrClosed K N ltac:(now rewrite P)) as [s' G]. rewrite G in QL. discriminate. }
  assert (NW : forall k c, nth_error (callers s) k = Some c -> c_ph c = CNew -> c_ind c = true /\ ibuf s = None).
  { intros k c N P. specialize (QL (ACTake k) eq_refl eq_refl). cbn [live_step] in QL. rewrite N, P in QL. unfold cbuf in QL. destruct (c_ind c); [destruct (ibuf s); [discriminate|auto]|]. destruct (nbuf s); [discriminate|now elim NB]. }
  assert (OH : forall k, own_hd (hd s) = [k] -> exists r, req_of s k = Some r).
  { intros k H. pose proof (o_range s O) as R. rewrite H in R. rewrite !Forall_app in R. destruct R as (_ & R & _). apply Forall_cons_iff in R. destruct R as [R _].
    unfold req_of. destruct (nth_error (bufs s) k) as [b|] eqn:N; [eauto|]. apply nth_error_None in N. rewrite (o_bufs s O) in N. lia. }
  assert (HS : hd s = HWait \/ (exists k m rsp, hd s = HMtuI k m rsp) /\ ibuf s = None \/ hd s = HDone).
  { destruct (hd s) eqn:H; auto.
    - destruct (OH k eq_refl) as [r R]. specialize (QL (AHandle (fun _ => [])) eq_refl eq_refl). cbn [live_step] in QL. rewrite H, R in QL. destruct (handle (sv s) (fun _ => []) r) as [[[? ?] ?]|]; discriminate.
    - specialize (QL AMtuN eq_refl eq_refl). cbn [live_step] in QL. rewrite H in QL. destruct (nbuf s); [discriminate|now elim NB].
    - specialize (QL AMtuI eq_refl eq_refl). cbn [live_step] in QL. rewrite H in QL. destruct (ibuf s) eqn:B; [discriminate|]. right. left. eauto.
    - specialize (QL (AHWrite false) eq_refl eq_refl). cbn [live_step] in QL. rewrite H in QL. discriminate.
    - specialize (QL AHPut eq_refl eq_refl). cbn [live_step] in QL. rewrite H in QL. destruct (Nat.ltb (length (pool s)) 2) eqn:L; [discriminate|]. apply Nat.ltb_ge in L.
      pose proof (cnt_in _ (o_nodup s O) (o_range s O)) as C. rewrite H in C. rewrite !app_length in C. cbn [own_hd length] in C. lia.
    - specialize (QL AClean eq_refl eq_refl). cbn [live_step] in QL. rewrite H in QL. destruct (cleanup (sv s) (cccs (sv s))); discriminate.
    - now elim NP. }
  assert (RS : (exists k, rd s = RRead k) /\ inq s = [] /\ down s = false \/ (exists k, rd s = RSend k) /\ hd s <> HWait \/ rd s = RStopped).
  { destruct (rd s) as [|k|k|k| | | |] eqn:R; auto.
    - specialize (QL ATake eq_refl eq_refl). cbn [live_step] in QL. rewrite R in QL. destruct (pool s) eqn:P; [|discriminate].
      pose proof (o_all s O NP) as A. rewrite R in A. specialize (A eq_refl). rewrite P in A. cbn [own_rd app] in A. rewrite app_nil_r in A. destruct (hd s); cbn in A; discriminate.
    - left. specialize (QL ARead eq_refl eq_refl). cbn [live_step] in QL. rewrite R in QL. unfold step_read in QL. destruct (inq s) as [|p q] eqn:I.
      + destruct (down s) eqn:D; [discriminate|]. eauto.
      + exfalso. destruct (Nat.ltb max_mtu (length p)); [discriminate|]. destruct p as [|c p]; [discriminate|]. destruct (nth_error (bufs s) k) as [b|] eqn:N; [destruct (c =? 30); discriminate|].
        apply nth_error_None in N. rewrite (o_bufs s O) in N. pose proof (o_range s O) as RR. rewrite R in RR. cbn [own_rd app] in RR. apply Forall_cons_iff in RR. destruct RR as [RR _]. lia.
    - destruct (existsb is_waiting (callers s)) eqn:W.
      + apply existsb_exists in W. destruct W as (c & I & W). apply In_nth_error in I. destruct I as [j N]. unfold is_waiting in W. destruct (c_ph c) eqn:P; try discriminate.
        specialize (QL (AConf (Some j)) eq_refl eq_refl). cbn [live_step] in QL. rewrite R, N, P in QL. destruct (give_back_ok s j c n COk K N ltac:(now rewrite P)) as [s' G]. rewrite G in QL. discriminate.
      + specialize (QL (AConf None) eq_refl eq_refl). cbn [live_step] in QL. rewrite R, W in QL. discriminate.
    - right. left. split; [eauto|]. intro H. specialize (QL ASeq eq_refl eq_refl). cbn [live_step] in QL. rewrite R, H in QL. discriminate.
    - specialize (QL AShut eq_refl eq_refl). cbn [live_step] in QL. rewrite R in QL. discriminate.
    - specialize (QL AShut eq_refl eq_refl). cbn [live_step] in QL. rewrite R in QL. discriminate.
    - specialize (QL AShut eq_refl eq_refl). cbn [live_step] in QL. rewrite R in QL. discriminate. }
  assert (HE : hd s = HWait -> seq_closed (rd s) = false).
  { intro H. specialize (QL AHEnd eq_refl eq_refl). cbn [live_step] in QL. rewrite H in QL. destruct (seq_closed (rd s)); [discriminate|reflexivity]. }
  assert (HN : Forall (fun c => c_ind c = false -> exists r, c_ph c = CRet r) (callers s)).
  { apply Forall_forall. intros c I F. apply In_nth_error in I. destruct I as [k N]. destruct (CPH k c N) as [P|[[n P]|P]]; [|exfalso|exact P].
    - destruct (NW k c N P). congruence.
    - pose proof (Forall_nth _ _ _ _ (k_ph s K) N) as G. cbn beta in G. destruct (G F n) as [_ F2]. contradiction. }
  destruct (ibuf s) as [n|] eqn:IBE.
  - left. assert (DC : done_calls s).
    { apply Forall_forall. intros c I. apply In_nth_error in I. destruct I as [k N]. destruct (CPH k c N) as [P|[[m P]|P]]; [| |exact P].
      - destruct (NW k c N P). discriminate.
      - destruct (AW (ex_intro _ k (ex_intro _ c (ex_intro _ m (conj N P))))). discriminate. }
    split; [|exact DC]. destruct HS as [H|[[_ H]|H]]; [|discriminate|].
    + left. destruct RS as [(R & I & D)|[(_ & R)|R]]; [split; [exact R|]; auto|contradiction|]. specialize (HE H). rewrite R in HE. discriminate.
    + right. split; [|exact H]. specialize (E (or_intror H)). destruct RS as [([k R] & _)|[([k R] & _)|R]]; [rewrite R in E; discriminate|rewrite R in E; discriminate|exact R].
  - right. pose proof (IB eq_refl) as A. destruct (AW A) as [_ CC]. split; [exact A|]. split; [exact CC|]. split; [exact NB|]. split; [reflexivity|]. split; [exact HN|].
    destruct HS as [H|[[H _]|H]].
    + left. destruct RS as [(R & I & D)|[(_ & R)|R]]; [split; [exact R|]; auto|contradiction|]. rewrite R in CC. discriminate.
    + right. split; [exact H|]. destruct RS as [R|[(R & _)|R]]; [left; exact R|right; exact R|]. rewrite R in CC. discriminate.
    + specialize (E (or_intror H)). destruct RS as [([k R] & _)|[([k R] & _)|R]]; [rewrite R in E; discriminate|rewrite R in E; discriminate|rewrite R in CC; discriminate].
Qed.
Lemma quiet_full : forall s, oinv s -> kinv s -> einv s -> hd s <> HPanic -> quiet s -> (idle s \/ ended s) /\ done_calls s.
Proof.
  intros s O K E NP Q. destruct (quiet_shape s O K E NP) as [H|(A & _)]; [intros a X _; now apply Q|exact H|].
  exfalso. destruct A as (k & c & n & N & P). specialize (Q (ACTimeout k) eq_refl). rewrite live_lstep in Q by exact NP. cbn [live_step] in Q. rewrite N, P in Q.
  destruct (give_back_ok s k c n CErrTimeout K N ltac:(now rewrite P)) as [s' G]. rewrite G in Q. discriminate.
Qed.
