Require Import Verif.Base Verif.M_attdb Verif.M_attsrv Verif.M_srvloop Verif.S_srvloop.

Ltac step_inv H :=
  unfold lstep, live_step, step_read, give_back in H;
  repeat match type of H with
  | context [match ?x with _ => _ end] => let E := fresh "Q" in destruct x eqn:E; try discriminate H
  end.
Ltac fin H := injection H as <- <-.

Lemma flat_map_snoc : forall {A B} (f : A -> list B) l x, flat_map f (l ++ [x]) = flat_map f l ++ f x.
Proof. intros. rewrite flat_map_app. cbn [flat_map]. now rewrite app_nil_r. Qed.
Lemma arrived_app : forall a b, arrived (a ++ b) = arrived a ++ arrived b.
Proof. intros. apply flat_map_app. Qed.
Lemma reads_app : forall a b, reads (a ++ b) = reads a ++ reads b.
Proof. intros. apply flat_map_app. Qed.
Lemma servings_app : forall a b, servings (a ++ b) = servings a ++ servings b.
Proof. intros. apply flat_map_app. Qed.
Lemma requests_app : forall a b, requests (a ++ b) = requests a ++ requests b.
Proof. intros. apply filter_app. Qed.
Lemma view_app : forall a b, request_view (a ++ b) = request_view a ++ request_view b.
Proof. intros. apply filter_app. Qed.
Lemma turns_app : forall a b, turns (a ++ b) = turns a ++ turns b.
Proof. intros. apply flat_map_app. Qed.

Lemma upd_caller_fields : forall k p s, inq (upd_caller k p s) = inq s /\ down (upd_caller k p s) = down s /\ bufs (upd_caller k p s) = bufs s /\
  pool (upd_caller k p s) = pool s /\ rd (upd_caller k p s) = rd s /\ hd (upd_caller k p s) = hd s /\ sv (upd_caller k p s) = sv s /\
  nbuf (upd_caller k p s) = nbuf s /\ ibuf (upd_caller k p s) = ibuf s.
Proof. intros. unfold upd_caller. destruct (nth_error (callers s) k); repeat split. Qed.
Lemma set_cbuf_fields : forall c v s, inq (set_cbuf c v s) = inq s /\ down (set_cbuf c v s) = down s /\ bufs (set_cbuf c v s) = bufs s /\
  pool (set_cbuf c v s) = pool s /\ rd (set_cbuf c v s) = rd s /\ hd (set_cbuf c v s) = hd s /\ sv (set_cbuf c v s) = sv s /\ callers (set_cbuf c v s) = callers s.
Proof. intros. unfold set_cbuf. destruct (c_ind c); repeat split. Qed.

(** The part of the state a goroutine of a Notifier.Write call leaves alone. *)
Definition core (s : ls) := (inq s, down s, bufs s, pool s, hd s, sv s).
Lemma give_back_core : forall k c n r s s', give_back k c n r s = Some s' -> core s' = core s /\ rd s' = rd s.
Proof.
  intros k c n r s s' H. unfold give_back in H. destruct (cbuf c s); [discriminate|]. injection H as <-.
  destruct (upd_caller_fields k (CRet r) (set_cbuf c (Some n) s)) as (A1 & A2 & A3 & A4 & A5 & A6 & A7 & _).
  destruct (set_cbuf_fields c (Some n) s) as (B1 & B2 & B3 & B4 & B5 & B6 & B7 & _). unfold core. split; congruence.
Qed.

(** ---- what a step does to the two main goroutines ---- *)
Inductive core_step (s : ls) : act -> ls -> list vis -> Prop :=
| cs_arrive : forall p, down s = false -> core_step s (AArrive p) (set_in (inq s ++ [p]) s) []
| cs_down : core_step s ADown (set_down true s) []
| cs_take : forall k r, rd s = RTake -> pool s = k :: r -> core_step s ATake (set_rd (RRead k) (set_pool r s)) []
| cs_eof : forall k, rd s = RRead k -> inq s = [] -> down s = true -> core_step s ARead (set_rd RFail s) []
| cs_bad : forall k p q, rd s = RRead k -> inq s = p :: q -> p = [] \/ (max_mtu < length p)%nat -> core_step s ARead (set_rd RFail (set_in q s)) [VRead p]
| cs_conf : forall k p q b t, rd s = RRead k -> inq s = p :: q -> (length p <= max_mtu)%nat -> p = 30 :: t -> nth_error (bufs s) k = Some b ->
    core_step s ARead (set_rd (RConf k) (set_bufs (upd (bufs s) k (mkB (blit (b_data b) p) (b_len b))) (set_in q s))) [VRead p]
| cs_req : forall k p q b c t, rd s = RRead k -> inq s = p :: q -> (length p <= max_mtu)%nat -> p = c :: t -> c <> 30 -> nth_error (bufs s) k = Some b ->
    core_step s ARead (set_rd (RSend k) (set_bufs (upd (bufs s) k (mkB (blit (b_data b) p) (length p))) (set_in q s))) [VRead p]
| cs_seq : forall k, rd s = RSend k -> hd s = HWait -> core_step s ASeq (set_rd RTake (set_hd (HGot k) s)) []
| cs_shut1 : rd s = RFail -> core_step s AShut (set_rd RShut1 s) []
| cs_shut2 : rd s = RShut1 -> core_step s AShut (set_rd RShut2 s) []
| cs_shut3 : rd s = RShut2 -> core_step s AShut (set_down true (set_rd RStopped s)) [VClose]
| cs_handle : forall k e r s' o cs, hd s = HGot k -> req_of s k = Some r -> handle (sv s) e r = Ret (s', o, cs) ->
    core_step s (AHandle e) (set_hd (after_handle k (sv s) s' o) (set_sv s' s)) [VHandle e r o cs]
| cs_panic : forall k e r, hd s = HGot k -> req_of s k = Some r -> handle (sv s) e r = Panic -> core_step s (AHandle e) (set_hd HPanic s) []
| cs_mtun : forall k m rsp n, hd s = HMtuN k m rsp -> nbuf s = Some n -> core_step s AMtuN (set_hd (HMtuI k m rsp) (set_nbuf (Some m) s)) []
| cs_mtui : forall k m rsp n, hd s = HMtuI k m rsp -> ibuf s = Some n ->
    core_step s AMtuI (set_hd (match rsp with [] => HPut k | _ => HWrite k rsp end) (set_ibuf (Some m) s)) []
| cs_write : forall k rsp ok, hd s = HWrite k rsp -> may_write s rsp ok = true -> core_step s (AHWrite ok) (set_hd (HPut k) s) [VWrite SRsp rsp ok]
| cs_put : forall k, hd s = HPut k -> (length (pool s) < 2)%nat -> core_step s AHPut (set_hd HWait (set_pool (pool s ++ [k]) s)) []
| cs_end : hd s = HWait -> seq_closed (rd s) = true -> core_step s AHEnd (set_hd HClean s) []
| cs_clean : forall l, hd s = HClean -> cleanup (sv s) (cccs (sv s)) = Ret l ->
    core_step s AClean (set_hd HDone (set_sv (set_nn (sv s) (nn (sv s)) l) s)) [VDone]
| cs_cpanic : hd s = HClean -> cleanup (sv s) (cccs (sv s)) = Panic -> core_step s AClean (set_hd HPanic s) [].
(** every other step: a call of the application, or a hand-over of a confirmation *)
Inductive call_step (s : ls) : act -> ls -> list vis -> Prop :=
| ks_new : forall nt data n, nth_error (notifs (sv s)) nt = Some n -> call_step s (ACall nt data) (set_callers (callers s ++ [mkC (nt_ind n) (nt_vh n) data CNew]) s) []
| ks_conf : forall j c n k s', rd s = RConf k -> nth_error (callers s) j = Some c -> c_ph c = CWait n -> give_back j c n COk s = Some s' ->
    call_step s (AConf (Some j)) (set_rd (RRead k) s') [VConf (Some j); VRet j COk]
| ks_spur : forall k, rd s = RConf k -> existsb is_waiting (callers s) = false -> call_step s (AConf None) (set_rd (RRead k) s) [VConf None]
| ks_take : forall k c n, nth_error (callers s) k = Some c -> c_ph c = CNew -> cbuf c s = Some n -> call_step s (ACTake k) (upd_caller k (CBuf n) (set_cbuf c None s)) []
| ks_sent : forall k c n p, nth_error (callers s) k = Some c -> c_ph c = CBuf n -> c_ind c = true -> notify_pdu 29 n (c_vh c) (c_data c) = Ret p ->
    may_write s p true = true -> call_step s (ACWrite k true) (upd_caller k (CSent n) s) [VWrite (SCall k) p true]
| ks_write : forall k c n p ok s', nth_error (callers s) k = Some c -> c_ph c = CBuf n -> ok && c_ind c = false ->
    notify_pdu (if c_ind c then 29 else 27) n (c_vh c) (c_data c) = Ret p -> may_write s p ok = true ->
    give_back k c n (if ok then COk else CErrWrite) s = Some s' ->
    call_step s (ACWrite k ok) s' [VWrite (SCall k) p ok; VRet k (if ok then COk else CErrWrite)]
| ks_select : forall k c n, nth_error (callers s) k = Some c -> c_ph c = CSent n -> call_step s (ACSelect k) (upd_caller k (CWait n) s) []
| ks_timeout : forall k c n s', nth_error (callers s) k = Some c -> c_ph c = CWait n -> give_back k c n CErrTimeout s = Some s' -> call_step s (ACTimeout k) s' [VRet k CErrTimeout]
| ks_closed : forall k c n s', nth_error (callers s) k = Some c -> c_ph c = CWait n -> conf_closed (rd s) = true -> give_back k c n CErrClosed s = Some s' ->
    call_step s (ACClosed k) s' [VRet k CErrClosed]
| ks_panic : forall k ok c n, nth_error (callers s) k = Some c -> c_ph c = CBuf n -> notify_pdu (if c_ind c then 29 else 27) n (c_vh c) (c_data c) = Panic ->
    call_step s (ACWrite k ok) (set_hd HPanic s) [].
Lemma lstep_cases : forall s a s' v, lstep s a = Some (s', v) -> hd s <> HPanic /\ (core_step s a s' v \/ call_step s a s' v).
Proof.
  intros s a s' v H. assert (NP : hd s <> HPanic) by (intro E; unfold lstep in H; rewrite E in H; discriminate). split; [exact NP|].
  assert (L : live_step s a = Some (s', v)) by (unfold lstep in H; destruct (hd s); try exact H; discriminate). clear H.
  destruct a; cbn [live_step] in L.
  - destruct (down s) eqn:Q; [discriminate|]. injection L as <- <-. left. now constructor.
  - injection L as <- <-. left. constructor.
  - destruct (nth_error (notifs (sv s)) nt) eqn:Q; [|discriminate]. injection L as <- <-. right. now constructor.
  - destruct (rd s) eqn:Q; try discriminate. destruct (pool s) eqn:Q1; [discriminate|]. injection L as <- <-. left. now constructor.
  - destruct (rd s) eqn:Q; try discriminate. unfold step_read in L. destruct (inq s) as [|p q] eqn:Q1.
    + destruct (down s) eqn:Q2; [|discriminate]. injection L as <- <-. left. now apply cs_eof with k.
    + cbn [set_in] in L. destruct (Nat.ltb max_mtu (length p)) eqn:Q2; [injection L as <- <-; left; apply cs_bad with k; [exact Q|exact Q1|right; now apply Nat.ltb_lt]|].
      apply Nat.ltb_ge in Q2. destruct p as [|c t] eqn:QP; [injection L as <- <-; left; apply cs_bad with k; auto|]. destruct (nth_error (bufs s) k) as [b|] eqn:Q3; [|discriminate].
      rewrite <- QP in *. destruct (c =? 30) eqn:Q4; injection L as <- <-; left.
      * apply Z.eqb_eq in Q4. subst c. now apply (cs_conf s k p q b t).
      * apply Z.eqb_neq in Q4. now apply (cs_req s k p q b c t).
  - destruct k as [j|].
    + destruct (rd s) eqn:Q; try discriminate. destruct (nth_error (callers s) j) as [c|] eqn:Q1; [|discriminate]. destruct (c_ph c) eqn:Q2; try discriminate.
      destruct (give_back j c n COk s) eqn:Q3; [|discriminate]. injection L as <- <-. right. now apply ks_conf with c n.
    + destruct (rd s) eqn:Q; try discriminate. destruct (existsb is_waiting (callers s)) eqn:Q1; [discriminate|]. injection L as <- <-. right. now constructor.
  - destruct (rd s) eqn:Q; try discriminate. destruct (hd s) eqn:Q1; try discriminate. injection L as <- <-. left. now constructor.
  - destruct (rd s) eqn:Q; try discriminate; injection L as <- <-; left; now constructor.
  - destruct (hd s) eqn:Q; try discriminate. destruct (req_of s k) as [r|] eqn:Q1; [|discriminate]. destruct (handle (sv s) e r) as [[[s2 o] cs]|] eqn:Q2; injection L as <- <-; left; [now apply cs_handle|now apply cs_panic with k r].
  - destruct (hd s) eqn:Q; try discriminate. destruct (nbuf s) eqn:Q1; [|discriminate]. injection L as <- <-. left. now apply cs_mtun with n.
  - destruct (hd s) eqn:Q; try discriminate. destruct (ibuf s) eqn:Q1; [|discriminate]. injection L as <- <-. left. now apply cs_mtui with n.
  - destruct (hd s) eqn:Q; try discriminate. destruct (may_write s rsp ok) eqn:Q1; [|discriminate]. injection L as <- <-. left. now constructor.
  - destruct (hd s) eqn:Q; try discriminate. destruct (Nat.ltb (length (pool s)) 2) eqn:Q1; [|discriminate]. injection L as <- <-. left. constructor; [exact Q|now apply Nat.ltb_lt].
  - destruct (hd s) eqn:Q; try discriminate. destruct (seq_closed (rd s)) eqn:Q1; [|discriminate]. injection L as <- <-. left. now constructor.
  - destruct (hd s) eqn:Q; try discriminate. destruct (cleanup (sv s) (cccs (sv s))) eqn:Q1; injection L as <- <-; left; now constructor.
  - destruct (nth_error (callers s) k) as [c|] eqn:Q; [|discriminate]. destruct (c_ph c) eqn:Q1; try discriminate. destruct (cbuf c s) eqn:Q2; [|discriminate]. injection L as <- <-. right. now constructor.
  - destruct (nth_error (callers s) k) as [c|] eqn:Q; [|discriminate]. destruct (c_ph c) eqn:Q1; try discriminate.
    destruct (notify_pdu (if c_ind c then 29 else 27) n (c_vh c) (c_data c)) as [p|] eqn:Q2; [|injection L as <- <-; right; now apply ks_panic with c n].
    destruct (may_write s p ok) eqn:Q3; [|discriminate]. destruct (ok && c_ind c) eqn:Q4.
    + apply andb_true_iff in Q4. destruct Q4 as [-> Q4]. rewrite Q4 in Q2. injection L as <- <-. right. now apply ks_sent with c.
    + destruct (give_back k c n (if ok then COk else CErrWrite) s) eqn:Q5; [|discriminate]. injection L as <- <-. right. now apply ks_write with c n.
  - destruct (nth_error (callers s) k) as [c|] eqn:Q; [|discriminate]. destruct (c_ph c) eqn:Q1; try discriminate. injection L as <- <-. right. now apply ks_select with c.
  - destruct (nth_error (callers s) k) as [c|] eqn:Q; [|discriminate]. destruct (c_ph c) eqn:Q1; try discriminate. destruct (give_back k c n CErrTimeout s) eqn:Q2; [|discriminate]. injection L as <- <-. right. now apply ks_timeout with c n.
  - destruct (nth_error (callers s) k) as [c|] eqn:Q; [|discriminate]. destruct (c_ph c) eqn:Q1; try discriminate. destruct (conf_closed (rd s)) eqn:Q2; [|discriminate]. destruct (give_back k c n CErrClosed s) eqn:Q3; [|discriminate].
    injection L as <- <-. right. now apply ks_closed with c n.
Qed.
(** a call step leaves the server and the buffers alone, and the reading goroutine where it was or back in Read *)
Lemma call_core : forall s a s' v, call_step s a s' v -> (hd s' = HPanic \/ hd s' = hd s) /\ inq s' = inq s /\ down s' = down s /\ bufs s' = bufs s /\ pool s' = pool s /\ sv s' = sv s /\
  (rd s' = rd s \/ exists k, rd s = RConf k /\ rd s' = RRead k) /\ (forall e p o cs, ~ In (VHandle e p o cs) v) /\ (forall p ok, ~ In (VWrite SRsp p ok) v) /\ (forall p, ~ In (VRead p) v) /\
  match a with AArrive _ => False | _ => True end.
Proof.
  intros s a s' v H. destruct H;
    repeat match goal with G : give_back _ _ _ _ _ = Some _ |- _ => apply give_back_core in G; destruct G as [G ?]; unfold core in G; injection G as ? ? ? ? ? ? end;
    try match goal with |- context [upd_caller ?k ?p ?x] => destruct (upd_caller_fields k p x) as (A1 & A2 & A3 & A4 & A5 & A6 & A7 & _) end;
    try match goal with |- context [set_cbuf ?c ?p ?x] => destruct (set_cbuf_fields c p x) as (B1 & B2 & B3 & B4 & B5 & B6 & B7 & _) end;
    cbn [set_rd set_callers set_hd hd inq down bufs pool sv rd];
    (split; [first [left; reflexivity|right; congruence]|]); do 5 (split; [congruence|]);
    (split; [first [left; congruence|right; eexists; split; [eassumption|reflexivity]]|]);
    (split; [cbn [In]; intros; intuition discriminate|]); (split; [cbn [In]; intros; intuition discriminate|]); (split; [cbn [In]; intros; intuition discriminate|exact Logic.I]).
Qed.
