(** Properties C170 and the ideal C171: a transport (socket or h4) used by several goroutines, in a process that opens and closes other files. *)
Require Import Verif.Base Verif.M_sock Verif.S_sock Verif.P_sock Verif.P_sock2.
Local Open Scope nat_scope.

(** C170.  No call ever closes a file that is not the transport's: a file of the rest of the process stays open until the rest of the process closes it. *)
Theorem C170_others_untouched : forall raw s0 l s a s' n o, runs raw s0 l s -> exec raw s a = Some s' -> table s n = Some o -> o <> 0 -> table s' n = Some o \/ a = ACloseOther n.
Proof.
  intros raw s0 l s a s' n o R E T N. assert (I := runs_inv _ _ _ _ R). destruct a as [op|i|i pl|i d|i ok|i ok|m|m]; cbn [exec] in E.
  - injection E as <-. now left.
  - destruct (exec_moved raw s (AStep i) s' E) as [? ? ? ? X|? ? ? ? ? ? ? X|? ? ? ? ? ? ? ? ? X|? ? ? ? ? ? ? ? X|i' o' r s' J _ _ _ X|m s' TN X|m q s' TN X C].
    1-4: left; congruence.
    + exfalso. destruct (nth_error (calls s) i) as [[o1 p]|] eqn:K; [|discriminate E]. cbn [k_op k_ph] in E. destruct (v_closer _ I _ _ J eq_refl) as [_ TB]. assert (Y : table s' own_fd = table s own_fd) by (destruct p; cbn [step] in E; try discriminate E; try destruct (rmu s); try destruct (wmu s); try destruct (cmu s); try discriminate E; try destruct (done s); injection E as <-; reflexivity).
      rewrite X in Y. unfold set_tab in Y. rewrite Nat.eqb_refl, TB in Y. discriminate Y.
    + left. rewrite X. unfold set_tab. destruct (Nat.eqb n m) eqn:Q; [apply Nat.eqb_eq in Q; congruence|exact T].
    + exfalso. assert (Y : table s' m = table s m). { destruct (nth_error (calls s) i) as [[o1 p]|] eqn:K; [|discriminate E]. cbn [k_op k_ph] in E. destruct p; cbn [step] in E; try discriminate E; try destruct (rmu s); try destruct (wmu s); try destruct (cmu s); try discriminate E; try destruct (done s); injection E as <-; reflexivity. }
      rewrite X in Y. unfold set_tab in Y. rewrite Nat.eqb_refl, TN in Y. discriminate Y.
  - destruct (nth_error (calls s) i) as [[o1 p]|]; [|discriminate E]. destruct p; try discriminate E. destruct (target raw s), pl; try discriminate E; injection E as <-; now left.
  - destruct (nth_error (calls s) i) as [[o1 p]|]; [|discriminate E]. destruct p; try discriminate E. destruct (target raw s), d; try discriminate E; injection E as <-; now left.
  - destruct (nth_error (calls s) i) as [[o1 p]|]; [|discriminate E]. destruct o1; try discriminate E. destruct p; try discriminate E. destruct (target raw s), ok; try discriminate E; injection E as <-; now left.
  - destruct (nth_error (calls s) i) as [[o1 p]|] eqn:K; [|discriminate E]. destruct p; try discriminate E. injection E as <-. destruct (v_closer _ I _ _ K eq_refl) as [_ TB]. left. cbn [table]. unfold set_tab. destruct (Nat.eqb n own_fd) eqn:Q; [apply Nat.eqb_eq in Q; congruence|exact T].
  - destruct (table s m) eqn:TM; [discriminate E|]. injection E as <-. left. cbn [table]. unfold set_tab. destruct (Nat.eqb n m) eqn:Q; [apply Nat.eqb_eq in Q; congruence|exact T].
  - destruct (table s m) as [[|q]|] eqn:TM; try discriminate E. injection E as <-. cbn [table]. unfold set_tab. destruct (Nat.eqb n m) eqn:Q; [right; apply Nat.eqb_eq in Q; congruence|now left].
Qed.
Print Assumptions C170_others_untouched.
(** When a Close has returned — any Close, also a second one running at the same time — the transport's file is closed, and it stays so. *)
Theorem C170_released : forall raw s0 l s i r, runs raw s0 l s -> returned s i OpClose r -> released s /\ (r = RsOk \/ r = RsErr).
Proof.
  intros raw s0 l s i r R H. split.
  - apply (runs_rel _ _ _ _ R _ _ H). split; [reflexivity|]. exists r. cbn [k_ph]. auto.
  - assert (T := v_typed _ (runs_inv _ _ _ _ R) _ _ H). unfold typed in T. cbn [k_op k_ph] in T. destruct r; try contradiction; auto.
Qed.
Print Assumptions C170_released.
(** Until some Close has passed its first mutex, the transport's file is open under its number. *)
Theorem C170_open_until_close : forall raw s0 l s, runs raw s0 l s -> (forall i p, nth_error (calls s) i = Some (mkCall OpClose p) -> p = ClLock) -> table s own_fd = Some 0.
Proof.
  intros raw s0 l s R H. assert (I := runs_inv _ _ _ _ R). destruct (done s) eqn:D; [|exact (v_open _ I D)]. destruct (v_released _ I D) as [(i & [o p] & K & C)|X].
  - exfalso. assert (T := v_typed _ I _ _ K). cbn [k_ph] in C. destruct p; try discriminate C; (destruct o; try contradiction); specialize (H _ _ K); discriminate H.
  - exfalso. revert H X D. destruct R as [F E]. revert E. pose (P := fun s : st => done s = true -> exists i p, nth_error (calls s) i = Some (mkCall OpClose p) /\ p <> ClLock).
    assert (PS : inv s /\ P s -> done s = true -> (forall i p, nth_error (calls s) i = Some (mkCall OpClose p) -> p = ClLock) -> False).
    { intros [_ Q] D H. destruct (Q D) as (i & p & K & N). exact (N (H _ _ K)). }
    intros E H X D. apply (fun Y => PS Y D H). clear - F E. revert E. apply (exec_all_ind raw (fun s => inv s /\ P s)).
    + clear. intros s a s' [I Q] E. split; [exact (inv_exec _ _ _ _ I E)|]. unfold P in *. intro D.
      destruct (exec_moved _ _ _ _ E) as [o s' C D1 T W K|i o p q s' J C T W K M|i o f b s' J TG C D1 T W K|i p f s' J TG C D1 T K W|i o r s' J RR C D1 T K W|m s' TN T C D1 K W|m o s' TN T C D1 K W]; rewrite C.
      * rewrite D1 in D. destruct (Q D) as (j & p & X & N). exists j, p. split; [|exact N]. rewrite nth_error_app1; [exact X|]. apply nth_error_Some. congruence.
      * assert (TY := v_typed _ I _ _ J). destruct M as [(-> & _ & -> & _)|(D1 & M)].
        -- destruct o; try contradiction. exists i, ClRLock. split; [exact (upd_eq _ _ _ _ J)|discriminate].
        -- rewrite D1 in D. destruct (Q D) as (j & p' & X & N). destruct (Nat.eq_dec j i) as [->|NE]; [|exists j, p'; split; [rewrite upd_ne by congruence; exact X|exact N]].
           rewrite J in X. injection X as -> <-. exists i, q. split; [exact (upd_eq _ _ _ _ J)|]. intros ->.
           destruct M as [[-> M]|[[-> M]|[[-> M]|[[-> M]|[(r' & -> & M)|[(r' & -> & M)|[[-> M]|[[-> M]|[[-> M]|[(r' & -> & M)|[[-> M]|[(-> & _ & M)|[[-> M]|[(r' & -> & M)|(r' & -> & M)]]]]]]]]]]]]]]; try contradiction; try discriminate M; try (destruct (done s); discriminate M); intuition discriminate.
      * rewrite D1 in D. destruct (Q D) as (j & p' & X & N). destruct (Nat.eq_dec j i) as [->|NE]; [|exists j, p'; split; [rewrite upd_ne by congruence; exact X|exact N]].
        rewrite J in X. injection X as -> <-. assert (TY := v_typed _ I _ _ J). contradiction.
      * rewrite D1 in D. destruct (Q D) as (j & p' & X & N). destruct (Nat.eq_dec j i) as [->|NE]; [|exists j, p'; split; [rewrite upd_ne by congruence; exact X|exact N]].
        rewrite J in X. discriminate X.
      * rewrite D1 in D. destruct (Q D) as (j & p' & X & N). destruct (Nat.eq_dec j i) as [->|NE]; [|exists j, p'; split; [rewrite upd_ne by congruence; exact X|exact N]].
        rewrite J in X. injection X as -> <-. exists i, (ClRUnlock r). split; [exact (upd_eq _ _ _ _ J)|discriminate].
      * rewrite D1 in D. exact (Q D).
      * rewrite D1 in D. exact (Q D).
    + split; [exact (inv_start _ F)|]. unfold P. destruct F as (other & k & _ & _ & _ & ->). discriminate.
Qed.
Print Assumptions C170_open_until_close.
(** A Read that returns data took exactly these bytes, in one read, from the transport's file; a Read that times out or fails in the read took none. *)
Theorem C170_read : forall raw s0 l s i r, runs raw s0 l s -> returned s i OpRead r ->
  match r with RsData b => bytes_of i (took s) = [(0, b)] | RsEof => length (bytes_of i (took s)) <= 1 | RsNone | RsErr => bytes_of i (took s) = [] | RsOk => False end /\ bytes_of i (wrote s) = [].
Proof.
  intros raw s0 l s i r R H. assert (Y := runs_hinv _ _ _ _ R). assert (T := y_t _ _ Y _ _ H). assert (W := y_w _ _ Y _ _ H). assert (TY := v_typed _ (y_inv _ _ Y) _ _ H). unfold took_as, wrote_as, typed in *. cbn [k_op k_ph] in *. split; [|exact W].
  destruct r; try contradiction; try exact T. destruct T as [->|(f & b & ->)]; cbn [length]; lia.
Qed.
Print Assumptions C170_read.
(** A Write writes its packet whole and once if it reports success, and nothing otherwise; at any moment it has written it at most once. *)
Theorem C170_write : forall raw s0 l s i p, runs raw s0 l s -> is_call s i (OpWrite p) ->
  (bytes_of i (wrote s) = [] \/ exists f, bytes_of i (wrote s) = [(f, p)]) /\ bytes_of i (took s) = [] /\
  forall r, returned s i (OpWrite p) r -> match r with RsOk => exists f, bytes_of i (wrote s) = [(f, p)] | RsErr | RsEof => bytes_of i (wrote s) = [] | _ => False end.
Proof.
  intros raw s0 l s i p R (q & H). assert (Y := runs_hinv _ _ _ _ R). assert (T := y_t _ _ Y _ _ H). assert (W := y_w _ _ Y _ _ H). unfold took_as, wrote_as in *. cbn [k_op k_ph] in *. split; [|split; [exact T|]].
  - destruct q; try (now left); destruct r; try (now left); right; exact W.
  - intros r K. unfold returned in K. rewrite H in K. injection K as ->. assert (TY := v_typed _ (y_inv _ _ Y) _ _ H). unfold typed in TY. cbn [k_op k_ph] in TY. destruct r; try contradiction; exact W.
Qed.
Print Assumptions C170_write.
(** While no Close has set the mark, and with a Go file below (h4) always, everything read and written was the transport's own file. *)
Theorem C170_own_file : forall raw s0 l s x, runs raw s0 l s -> done s = false \/ raw = false -> In x (wrote s ++ took s) -> snd (fst x) = 0.
Proof. intros raw s0 l s x R H J. destruct (y_own _ _ (runs_hinv _ _ _ _ R) H) as [A B]. apply in_app_or in J. destruct J as [J|J]; [exact (A _ J)|exact (B _ J)]. Qed.
Print Assumptions C170_own_file.
(** Calls begun after a Close has returned: Read and Write return io.EOF, Close returns nil, and none of them reads, writes or closes anything. *)
Theorem C170_after_close : forall raw s0 l1 s1 k r l2 s2 i o, runs raw s0 l1 s1 -> returned s1 k OpClose r -> exec_all raw s1 l2 = Some s2 -> length (calls s1) <= i -> is_call s2 i o ->
  bytes_of i (wrote s2) = [] /\ bytes_of i (took s2) = [] /\ (forall r', returned s2 i o r' -> r' = match o with OpClose => RsOk | _ => RsEof end) /\
  (forall b, exec raw s2 (ACloseFd i b) = None) /\ (forall d, exec raw s2 (ARead i d) = None) /\ (forall b, exec raw s2 (AWrite i b) = None) /\ (forall b, exec raw s2 (APoll i b) = None).
Proof.
  intros raw s0 l1 s1 k r l2 s2 i o R H E B (q & C). assert (Y := runs_hinv _ _ _ _ R). assert (D : done s1 = true).
  { destruct (done s1) eqn:D; [reflexivity|]. destruct (v_not_done _ (y_inv _ _ Y) D _ _ H eq_refl) as [X|X]; discriminate X. }
  destruct (late_run _ _ _ _ Y D E) as (_ & _ & L). destruct (L _ _ B C) as (P & W & T). split; [exact W|]. split; [exact T|]. unfold late in P. cbn [k_op k_ph] in P. split; [|split; [|split; [|split]]].
  - intros r' K. unfold returned in K. rewrite C in K. injection K as ->. destruct o; intuition congruence.
  - intro b. cbn [exec]. rewrite C. destruct q; try reflexivity. destruct o; intuition discriminate.
  - intro d. cbn [exec]. rewrite C. destruct q; try reflexivity. destruct o; intuition discriminate.
  - intro b. cbn [exec]. rewrite C. destruct o; try reflexivity. destruct q; try reflexivity. intuition discriminate.
  - intro b. cbn [exec]. rewrite C. destruct q; try reflexivity. destruct o; intuition discriminate.
Qed.
Print Assumptions C170_after_close.
(** At most one call is polling, reading or closing, and at most one is writing. *)
Theorem C170_exclusive : forall raw s0 l s i j, runs raw s0 l s ->
  (reading_or_closing s i -> reading_or_closing s j -> i = j) /\ (writing s i -> writing s j -> i = j).
Proof.
  intros raw s0 l s i j R. assert (I := runs_inv _ _ _ _ R). split.
  - assert (X : forall k, reading_or_closing s k -> rmu s = Some k) by (intros k (c & K & H); apply (v_rmu _ I); exists c; split; [exact K|]; destruct H as [->|[->| ->]]; reflexivity).
    intros A B. apply X in A, B. congruence.
  - assert (X : forall k, writing s k -> wmu s = Some k) by (intros k (c & K & H); apply (v_wmu _ I); exists c; split; [exact K|]; rewrite H; reflexivity).
    intros A B. apply X in A, B. congruence.
Qed.
Print Assumptions C170_exclusive.
(** No deadlock: a call that has not returned can go on, or waits for a call that can, or for one that waits for a call that can. *)
Theorem C170_progress : forall raw s0 l s i c, runs raw s0 l s -> nth_error (calls s) i = Some c -> (forall r, k_ph c <> Fin r) ->
  can_go raw s i \/ exists j, waits_for s i j /\ (can_go raw s j \/ exists k, waits_for s j k /\ can_go raw s k).
Proof. intros raw s0 l s i c R. exact (progress raw s i c (runs_inv _ _ _ _ R)). Qed.
Print Assumptions C170_progress.
(** A Read asks the file for data only after poll has found some: it never waits in the system call with the lock that Close needs. *)
Lemma rdsys_step : forall raw s a s' i, exec raw s a = Some s' -> (exists o, nth_error (calls s') i = Some (mkCall o RdSys)) -> (exists o, nth_error (calls s) i = Some (mkCall o RdSys)) \/ a = APoll i PoData.
Proof.
  intros raw s a s' i E (o & H).
  assert (U : forall l j c, nth_error (upd l j c) i = Some (mkCall o RdSys) -> nth_error l i = Some (mkCall o RdSys) \/ j = i /\ c = mkCall o RdSys).
  { intros l j c X. rewrite nth_error_upd in X. destruct (Nat.eqb j i) eqn:J; [|now left]. apply Nat.eqb_eq in J. destruct (Nat.ltb j (length l)); [|discriminate]. injection X as ->. now right. }
  destruct a as [op|j|j pl|j d|j ok|j ok|m|m]; cbn [exec] in E.
  - injection E as <-. cbn [calls] in H. left. exists o. destruct (Nat.lt_ge_cases i (length (calls s))) as [L|L]; [now rewrite nth_error_app1 in H by exact L|]. rewrite nth_error_app2 in H by exact L. destruct (i - length (calls s)) as [|[|?]]; cbn [nth_error] in H; try discriminate H. destruct op; discriminate H.
  - destruct (nth_error (calls s) j) as [[o1 p1]|]; [|discriminate E]. cbn [k_op k_ph] in E. destruct p1; cbn [step] in E; try discriminate E; try destruct (rmu s); try destruct (wmu s); try destruct (cmu s); try discriminate E; try destruct (done s); injection E as <-; cbn [set_rmu set_wmu set_cmu set_ph calls] in H; (destruct (U _ _ _ H) as [X|[_ X]]; [left; now exists o|discriminate X]).
  - destruct (nth_error (calls s) j) as [[o1 p1]|]; [|discriminate E]. destruct p1; try discriminate E. destruct (target raw s), pl; try discriminate E; injection E as <-; cbn [set_ph calls] in H; (destruct (U _ _ _ H) as [X|[Y X]]; [left; now exists o|subst j; try discriminate X; right; reflexivity]).
  - destruct (nth_error (calls s) j) as [[o1 p1]|]; [|discriminate E]. destruct p1; try discriminate E. destruct (target raw s), d; try discriminate E; injection E as <-; cbn [set_ph calls] in H; (destruct (U _ _ _ H) as [X|[_ X]]; [left; now exists o|discriminate X]).
  - destruct (nth_error (calls s) j) as [[o1 p1]|]; [|discriminate E]. destruct o1; try discriminate E. destruct p1; try discriminate E. destruct (target raw s), ok; try discriminate E; injection E as <-; cbn [set_ph calls] in H; (destruct (U _ _ _ H) as [X|[_ X]]; [left; now exists o|discriminate X]).
  - destruct (nth_error (calls s) j) as [[o1 p1]|]; [|discriminate E]. destruct p1; try discriminate E. injection E as <-; cbn [calls] in H; (destruct (U _ _ _ H) as [X|[_ X]]; [left; now exists o|discriminate X]).
  - destruct (table s m); [discriminate E|]. injection E as <-. left. now exists o.
  - destruct (table s m) as [[|q]|]; try discriminate E. injection E as <-. left. now exists o.
Qed.
Theorem C170_reads_when_ready : forall raw s0 l s i d s', runs raw s0 l s -> exec raw s (ARead i d) = Some s' -> In (APoll i PoData) l.
Proof.
  intros raw s0 l s i d s' [F E] X. assert (H : exists o, nth_error (calls s) i = Some (mkCall o RdSys)).
  { cbn [exec] in X. destruct (nth_error (calls s) i) as [[o p]|]; [|discriminate X]. destruct p; try discriminate X. now exists o. }
  clear X. revert s E H. induction l as [|a l IH] using rev_ind; intros s E H.
  - cbn [exec_all] in E. injection E as <-. destruct F as (other & k & _ & _ & _ & ->). destruct H as [o H]. cbn [start calls] in H. destruct i; discriminate H.
  - apply exec_all_app in E. destruct E as (m & E1 & E2). cbn [exec_all] in E2. destruct (exec raw m a) as [m'|] eqn:A; [|discriminate E2]. injection E2 as ->. apply in_or_app.
    destruct (rdsys_step _ _ _ _ _ A H) as [X|X]; [left; exact (IH m E1 X)|right; left; exact X].
Qed.
Print Assumptions C170_reads_when_ready.
(** A call returns after at most six steps of its own. *)
Theorem C170_bounded : forall raw s0 l s i, runs raw s0 l s -> length (filter (of_call i) l) <= 6.
Proof. intros raw s0 l s i [F E]. pose proof (rank_all _ _ _ _ i E) as H. destruct F as (other & k & _ & _ & _ & ->). unfold rank_of at 2, start in H. cbn [calls] in H. destruct i; cbn [nth_error] in H; lia. Qed.
Print Assumptions C170_bounded.

(** Cases: a process with one other file. A Read and a Write go through, then a Close while a second Close and a Read wait; both Closes succeed, the Read finds no file and reports io.EOF. *)
Definition p0 : st := start (fun n => if Nat.eqb n 3 then Some 1 else None) 2.
Lemma p0_fresh : fresh p0.
Proof. exists (fun n => if Nat.eqb n 3 then Some 1 else None), 2. split; [lia|]. split; [reflexivity|]. split; [|reflexivity]. intros n o H. destruct (Nat.eqb n 3); [injection H as <-; lia|discriminate H]. Qed.
Definition after (l : list act) : st := match exec_all true p0 l with Some s => s | None => p0 end.
Definition possible (l : list act) : bool := match exec_all true p0 l with Some _ => true | None => false end.
Lemma possible_runs : forall l, possible l = true -> runs true p0 l (after l).
Proof. intros l H. split; [exact p0_fresh|]. unfold possible, after in *. destruct (exec_all true p0 l); [reflexivity|discriminate H]. Qed.
Lemma exec_all_split : forall raw l1 l2 s m, exec_all raw s l1 = Some m -> exec_all raw s (l1 ++ l2) = exec_all raw m l2.
Proof. intros raw l1. induction l1 as [|a l1 IH]; intros l2 s m E; cbn [exec_all app] in *; [injection E as ->; reflexivity|]. destruct (exec raw s a); [exact (IH _ _ _ E)|discriminate E]. Qed.
Lemma possible_more : forall l1 l2, possible l1 = true -> possible (l1 ++ l2) = true -> exec_all true (after l1) l2 = Some (after (l1 ++ l2)).
Proof. intros l1 l2 H1 H2. destruct (possible_runs _ H1) as [_ E1]. destruct (possible_runs _ H2) as [_ E2]. rewrite <- E2. symmetry. exact (exec_all_split _ _ _ _ _ E1). Qed.
Definition busy : list act := [ACall OpRead; AStep 0; AStep 0; APoll 0 PoData; ACall (OpWrite [1%Z; 2%Z]); AStep 1; AStep 1; ARead 0 (Some [9%Z]); AWrite 1 true; AStep 0; AStep 0; AStep 1;
  ACall OpRead; AStep 2; ACall OpClose; ACall OpClose; AStep 3; AStep 3; AStep 3; ACloseFd 3 true; AStep 3; AStep 2; APoll 2 PoErr; AStep 3; AStep 2; AStep 4; AStep 4; AStep 4; ACall (OpWrite [5%Z]); AStep 5].
Example C170_example : runs true p0 busy (after busy) /\ map k_ph (calls (after busy)) = [Fin (RsData [9%Z]); Fin RsOk; Fin RsEof; Fin RsOk; Fin RsOk; Fin RsEof] /\ wrote (after busy) = [(1, 0, [1%Z; 2%Z])] /\ took (after busy) = [(0, 0, [9%Z])] /\
  table (after busy) own_fd = None /\ table (after busy) 3 = Some 1.
Proof. split; [apply possible_runs; vm_compute; reflexivity|]. repeat split; vm_compute; reflexivity. Qed.
(** and one where a Close waits for the Close before it, which waits for a Read *)
Definition wait3 : list act := [ACall OpRead; AStep 0; AStep 0; ACall OpClose; AStep 1; AStep 1; ACall OpClose].
Example C170_waiting : runs true p0 wait3 (after wait3) /\ waits_for (after wait3) 2 1 /\ waits_for (after wait3) 1 0.
Proof.
  split; [apply possible_runs; vm_compute; reflexivity|]. split.
  - exists (mkCall OpClose ClLock). split; [vm_compute; reflexivity|]. split; [discriminate|]. right. right. split; [reflexivity|vm_compute; reflexivity].
  - exists (mkCall OpClose ClRLock). split; [vm_compute; reflexivity|]. split; [discriminate|]. left. split; [right; reflexivity|vm_compute; reflexivity].
Qed.

(** C171 (ideal): once the transport is closed, its calls no longer touch the descriptor number. Refuted: a Write that passed its first test before the Close writes its packet, after the Close has
    returned, into a file that the process has opened since and that got the number, and reports success; *)
Definition wr_close : list act := [ACall (OpWrite [1; 2; 3]%Z); AStep 0; ACall OpClose; AStep 1; AStep 1; AStep 1; ACloseFd 1 true; AStep 1; AStep 1].
Definition wr_late : list act := [AOpen own_fd; AStep 0; AWrite 0 true; AStep 0].
Theorem C171_closed_write_refuted : exists l1 s1 l2 s2 k i, runs true p0 l1 s1 /\ returned s1 k OpClose RsOk /\ exec_all true s1 l2 = Some s2 /\ returned s2 i (OpWrite [1; 2; 3]%Z) RsOk /\
  wrote s1 = [] /\ wrote s2 = [(i, 2, [1; 2; 3]%Z)] /\ table s2 own_fd = Some 2.
Proof.
  exists wr_close, (after wr_close), wr_late, (after (wr_close ++ wr_late)), 1, 0.
  split; [apply possible_runs; vm_compute; reflexivity|]. split; [vm_compute; reflexivity|]. split; [apply possible_more; vm_compute; reflexivity|]. repeat split; vm_compute; reflexivity.
Qed.
Print Assumptions C171_closed_write_refuted.
(** and a Read that was on its way takes data of that file and drops them. *)
Definition rd_close : list act := [ACall OpRead; AStep 0; ACall OpClose; AStep 1; AStep 1; AStep 1; ACloseFd 1 true; AStep 1; AStep 1].
Definition rd_late : list act := [AOpen own_fd; AStep 0; APoll 0 PoData; ARead 0 (Some [7; 8]%Z); AStep 0; AStep 0].
Theorem C171_closed_read_refuted : exists l1 s1 l2 s2 k i, runs true p0 l1 s1 /\ returned s1 k OpClose RsOk /\ exec_all true s1 l2 = Some s2 /\ returned s2 i OpRead RsEof /\
  took s1 = [] /\ took s2 = [(i, 2, [7; 8]%Z)].
Proof.
  exists rd_close, (after rd_close), rd_late, (after (rd_close ++ rd_late)), 1, 0.
  split; [apply possible_runs; vm_compute; reflexivity|]. split; [vm_compute; reflexivity|]. split; [apply possible_more; vm_compute; reflexivity|]. repeat split; vm_compute; reflexivity.
Qed.
Print Assumptions C171_closed_read_refuted.
(** Only calls that were begun before a Close returned can do this (C170_after_close), only after the transport was marked closed, and not with a Go file below. *)
Theorem C171_foreign_partial : forall raw s0 l s i f b, runs raw s0 l s -> In (i, f, b) (wrote s ++ took s) -> f <> 0 -> raw = true /\ done s = true.
Proof.
  intros raw s0 l s i f b R J N. destruct raw; [|exfalso; exact (N (C170_own_file _ _ _ _ _ R (or_intror eq_refl) J))]. split; [reflexivity|]. destruct (done s) eqn:D; [reflexivity|]. exfalso. exact (N (C170_own_file _ _ _ _ _ R (or_introl D) J)).
Qed.
Print Assumptions C171_foreign_partial.
