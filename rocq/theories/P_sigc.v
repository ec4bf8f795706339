(** Proofs for C191: invariants without any assumption on the schedule. *)
Require Import Verif.Base Verif.M_attsrv Verif.M_gattcli Verif.M_coc Verif.M_sigc Verif.S_sigc.
Local Open Scope nat_scope.
Local Open Scope Z_scope.
Lemma upd_get : forall {A} (l : list A) t x0 x t', nth_error l t = Some x0 -> nth_error (upd l t x) t' = if Nat.eqb t t' then Some x else nth_error l t'.
Proof.
  intros A l. induction l as [|a l IH]; intros [|t] x0 x [|t'] H; try discriminate H; try reflexivity. cbn [upd nth_error Nat.eqb] in *. exact (IH t x0 x t' H).
Qed.
Lemma some_inj : forall {A} (a b : A), Some a = Some b -> a = b. Proof. intros A a b H. now injection H. Qed.
Lemma count_upd : forall {A} (f : A -> bool) (l : list A) t x0 x, nth_error l t = Some x0 ->
  (length (filter f (upd l t x)) + (if f x0 then 1 else 0) = length (filter f l) + (if f x then 1 else 0))%nat.
Proof.
  intros A f l. induction l as [|a l IH]; intros [|t] x0 x H; try discriminate H; cbn [upd nth_error filter] in *.
  - injection H as ->. destruct (f x0), (f x); cbn [length]; lia.
  - specialize (IH t x0 x H). destruct (f a); cbn [length]; lia.
Qed.

(** How a step of the protocol changes things, in a form that all invariants can use: thread t goes from th to th'. *)
Record moved (s s' : sst) (t : nat) (th th' : thr) : Prop := mkMv {
  mv_at : nth_error (s_thr s) t = Some th;
  mv_thr : s_thr s' = upd (s_thr s) t th' }.
Lemma moved_self : forall s s' t th th', moved s s' t th th' -> nth_error (s_thr s') t = Some th'.
Proof. intros s s' t th th' [A T]. rewrite T, (upd_get _ _ _ _ _ A), Nat.eqb_refl. reflexivity. Qed.
Lemma moved_other : forall s s' t th th' u, moved s s' t th th' -> u <> t -> nth_error (s_thr s') u = nth_error (s_thr s) u.
Proof. intros s s' t th th' u [A T] N. rewrite T, (upd_get _ _ _ _ _ A). destruct (Nat.eqb_spec t u); congruence. Qed.
Lemma call_new : forall s s' th u x, s_thr s' = s_thr s ++ [th] -> nth_error (s_thr s') u = Some x -> nth_error (s_thr s) u = Some x \/ (u = length (s_thr s) /\ x = th).
Proof.
  intros s s' th u x T N. rewrite T in N. destruct (Nat.lt_ge_cases u (length (s_thr s))) as [L|L].
  - rewrite nth_error_app1 in N by exact L. now left.
  - rewrite nth_error_app2 in N by exact L. destruct (u - length (s_thr s))%nat as [|m] eqn:D; [|destruct m; discriminate N]. injection N as <-. right. split; [lia|reflexivity].
Qed.
Lemma call_old : forall s s' (th : thr) u x, s_thr s' = s_thr s ++ [th] -> nth_error (s_thr s) u = Some x -> nth_error (s_thr s') u = Some x.
Proof. intros s s' th u x T N. rewrite T, nth_error_app1; [exact N|]. apply nth_error_Some. congruence. Qed.

Definition early (p : phase) : bool := match p with PStart | PInc | PIncW _ | PTest | PFix | PBuild | PReg => true | _ => false end.
Definition sent (p : phase) : bool := match p with PWait | PCheck _ | PClean (Some _) | PAdd _ | PDone (Some _) => true | _ => false end.
Definition got (th : thr) : option Z := match t_ph th with PClean (Some r) | PAdd r => Some r | PDone (Some r) => match t_call th with KOpen _ => Some r | _ => None end | _ => None end.
Definition judged (c : incoming) (r : Z) : Prop := exists z, judge z c = Some r.
Record thok (s : sst) (t : nat) (th : thr) : Prop := mkOk {
  k_early : early (t_ph th) = true -> t_reg th = None /\ t_chan th = None;
  k_chan : forall c, t_chan th = Some c -> In c (s_in s) /\ t_reg th = Some (i_id c);
  k_check : forall c, t_ph th = PCheck c -> In c (s_in s) /\ t_reg th = Some (i_id c);
  k_got : forall r, got th = Some r -> exists c, In c (s_in s) /\ judged c r /\ t_reg th = Some (i_id c);
  k_sent : sent (t_ph th) = true -> match t_call th with KOpen _ => In (Some t, request th) (s_log s) | _ => True end;
  k_kind : match t_call th with KOpen _ => True | KSig _ => match t_ph th with PInc | PIncW _ | PTest | PFix | PBuild | PWrite | PDone _ => t_reg th = None /\ t_chan th = None | _ => False end end }.
Record inv (s : sst) : Prop := mkInv {
  i_pend : forall id k, s_pend s id = Some k -> exists th, nth_error (s_thr s) k = Some th /\ t_reg th = Some id /\ t_chan th = None;
  i_thr : forall t th, nth_error (s_thr s) t = Some th -> thok s t th }.
Lemma thok_more : forall s s' t th, thok s t th -> (forall c, In c (s_in s) -> In c (s_in s')) -> (forall x, In x (s_log s) -> In x (s_log s')) -> thok s' t th.
Proof.
  intros s s' t th [A B C D E F] HI HL. split; auto.
  - intros c H. destruct (B c H). auto.
  - intros c H. destruct (C c H). auto.
  - intros r H. destruct (D r H) as (c & X & Y). exists c. auto.
  - intro H. specialize (E H). destruct (t_call th); auto.
Qed.
Lemma inv_move : forall s s' t th th', inv s -> moved s s' t th th' ->
  (forall c, In c (s_in s) -> In c (s_in s')) -> (forall x, In x (s_log s) -> In x (s_log s')) -> thok s' t th' ->
  (forall id, s_pend s' id = Some t -> t_reg th' = Some id /\ t_chan th' = None) ->
  (forall id k, k <> t -> s_pend s' id = Some k -> s_pend s id = Some k) -> inv s'.
Proof.
  intros s s' t th th' I MV HI HL OK P1 P2. split.
  - intros id k P. destruct (Nat.eq_dec k t) as [->|N].
    + exists th'. split; [exact (moved_self _ _ _ _ _ MV)|exact (P1 _ P)].
    + rewrite (moved_other _ _ _ _ _ _ MV N). exact (i_pend _ I _ _ (P2 _ _ N P)).
  - intros u x N. destruct (Nat.eq_dec u t) as [->|NE].
    + rewrite (moved_self _ _ _ _ _ MV) in N. apply some_inj in N. subst x. exact OK.
    + rewrite (moved_other _ _ _ _ _ _ MV NE) in N. exact (thok_more _ _ _ _ (i_thr _ I _ _ N) HI HL).
Qed.
Lemma inv_0 : inv s0.
Proof. split; [discriminate|]. intros [|t] th H; discriminate H. Qed.
Lemma pend_self : forall s t th id, inv s -> nth_error (s_thr s) t = Some th -> s_pend s id = Some t -> t_reg th = Some id /\ t_chan th = None.
Proof. intros s t th id I N P. destruct (i_pend _ I _ _ P) as (x & X & Y). rewrite N in X. apply some_inj in X. subst x. exact Y. Qed.

Ltac rdx := cbn [early sent got t_call t_ph t_cid t_id t_reg t_def t_chan ph with_thr with_sig with_next with_pend with_lut with_log with_in s_in s_log s_pend s_thr s_lut s_sig s_next] in *.
Ltac fin := split; rdx; auto; try discriminate.
Ltac keep I N := (eapply (inv_move _ _ _ _ _ I); [split; [exact N|reflexivity]|..]; cbn [s_in s_log s_pend with_thr with_sig with_next with_pend with_lut with_log with_in]; auto;
  try (intros idq P0; exact (pend_self _ _ _ idq I N P0))).
Lemma inv_step : forall s t th s', inv s -> nth_error (s_thr s) t = Some th -> step s t th = Some s' -> inv s'.
Proof.
  intros s t th s' I N E. assert (K := i_thr _ I _ _ N). destruct th as [k p cid id0 reg df ch]. destruct K as [KE KC KK KG KS KD]. unfold step in E. cbn [t_call t_ph t_cid t_id t_reg t_def t_chan got early sent] in *.
  destruct p as [| |r| | | | | | | |c|r|r|r]; try discriminate E.
  - destruct k as [psm|m]; [|contradiction]. destruct ((s_next s >? 65535) || (s_next s <? 64)); apply some_inj in E; subst s'; keep I N; fin.
  - apply some_inj in E. subst s'. keep I N. fin.
  - apply some_inj in E. subst s'. keep I N. fin.
  - apply some_inj in E. subst s'. destruct (s_sig s =? 0); keep I N; fin.
  - apply some_inj in E. subst s'. keep I N. fin.
  - apply some_inj in E. subst s'. destruct k as [psm|m]; keep I N; fin.
  - destruct k as [psm|m]; [|contradiction]. destruct (KE eq_refl) as [-> ->]. apply some_inj in E. subst s'.
    eapply (inv_move _ _ _ _ _ I); [split; [exact N|reflexivity]|..]; cbn [s_in s_log s_pend with_thr with_sig with_next with_pend]; auto.
    + fin.
    + intros x P. destruct (Z.eqb_spec x (s_sig s)) as [EQ|NE]; [rewrite EQ; now split|]. destruct (pend_self _ _ _ x I N P) as [X _]. discriminate X.
    + intros id k NE P. destruct (id =? s_sig s); [congruence|exact P].
  - destruct k as [psm|m]; [|contradiction]. apply some_inj in E. subst s'. keep I N. fin.
  - destruct k as [psm|m]; [|contradiction]. destruct ch as [c|]; [|discriminate E]. apply some_inj in E. subst s'. destruct (KC c eq_refl) as [C1 C2].
    eapply (inv_move _ _ _ _ _ I); [split; [exact N|reflexivity]|..]; cbn [s_in s_log s_pend with_thr]; auto.
    + fin. intros c' H. injection H as <-. auto.
    + intros id P. destruct (pend_self _ _ _ id I N P) as [_ X]. discriminate X.
  - destruct k as [psm|m]; [|contradiction]. apply some_inj in E. subst s'. destruct (KK c eq_refl) as [C1 C2]. keep I N. fin.
    + intros r H. exists c. split; [exact C1|]. split; [|exact C2]. exists (s_sig s). destruct (judge (s_sig s) c); [injection H as ->; reflexivity|discriminate H].
  - destruct k as [psm|m]; [|contradiction]. apply some_inj in E. subst s'.
    eapply (inv_move _ _ _ _ _ I); [split; [exact N|reflexivity]|..]; cbn [s_in s_log s_pend with_thr with_pend]; auto.
    + destruct r as [d|]; fin.
    + intros id P. destruct (id =? df); [discriminate P|]. exact (pend_self _ _ _ id I N P).
    + intros id j NE P. destruct (id =? df); [discriminate P|exact P].
  - destruct k as [psm|m]; [|contradiction]. destruct (aget (s_lut s) r); apply some_inj in E; subst s'; keep I N; fin.
Qed.
Lemma inv_exec : forall s a s', inv s -> exec s a = Some s' -> inv s'.
Proof.
  intros s a s' I E. destruct a as [k|t|t ok|t|c ok|r]; cbn [exec] in E.
  - apply some_inj in E. subst s'. split; cbn [s_pend s_thr s_in s_log].
    + intros id j P. destruct (i_pend _ I _ _ P) as (th & N & X). exists th. split; [|exact X]. rewrite nth_error_app1; [exact N|]. apply nth_error_Some. congruence.
    + intros u x N. destruct (call_new s (mkS 0 0 (fun _ => None) (s_thr s ++ [mkT k (match k with KOpen _ => PStart | KSig _ => PInc end) 0 0 None 0 None]) [] [] []) _ u x eq_refl N) as [O|[_ ->]].
      * apply (thok_more s); [exact (i_thr _ I _ _ O)|auto|auto].
      * destruct k; fin.
  - destruct (nth_error (s_thr s) t) as [th|] eqn:N; [|discriminate E]. exact (inv_step _ _ _ _ I N E).
  - destruct (nth_error (s_thr s) t) as [th|] eqn:N; [|discriminate E]. assert (K := i_thr _ I _ _ N). destruct th as [k p cid id0 reg df ch]. destruct K as [KE KC KK KG KS KD].
    cbn [t_call t_ph t_cid t_id t_reg t_def t_chan got early sent] in *. destruct p; try discriminate E. destruct ok; apply some_inj in E; subst s'.
    + keep I N. { intros x H. apply in_or_app. now left. } destruct k as [psm|m]; fin. intros _. apply in_or_app. right. left. reflexivity.
    + keep I N. destruct k as [psm|m]; fin.
  - destruct (nth_error (s_thr s) t) as [th|] eqn:N; [|discriminate E]. assert (K := i_thr _ I _ _ N). destruct th as [k p cid id0 reg df ch]. destruct K as [KE KC KK KG KS KD].
    cbn [t_call t_ph t_cid t_id t_reg t_def t_chan got early sent] in *. destruct p; try discriminate E. destruct k as [psm|m]; [|contradiction]. apply some_inj in E. subst s'. keep I N. fin.
  - assert (IN : inv (with_in s c)).
    { split; [exact (i_pend _ I)|]. intros u x N. apply (thok_more s); [exact (i_thr _ I _ _ N)| |auto]. intros y Y. apply in_or_app. now left. }
    assert (HC : In c (s_in (with_in s c))) by (apply in_or_app; right; now left). revert IN HC E. generalize (with_in s c). clear s I. intros s I HC E.
    destruct ((i_code c =? 6) || (i_code c =? 18) || (i_code c =? 20) || (i_code c =? 22)); [apply some_inj in E; now subst s'|].
    destruct (s_pend s (i_id c)) as [t|] eqn:P.
    + destruct (i_pend _ I _ _ P) as (th & N & R & CH). rewrite N, CH in E. apply some_inj in E. subst s'. assert (K := i_thr _ I _ _ N). destruct th as [k p cid id0 reg df ch]. destruct K as [KE KC KK KG KS KD].
      cbn [t_call t_ph t_cid t_id t_reg t_def t_chan got early sent] in *. subst reg ch.
      eapply (inv_move _ _ _ _ _ I); [split; [exact N|reflexivity]|..]; cbn [s_in s_log s_pend with_thr with_pend]; auto.
      * fin.
        { intro H. destruct (KE H). discriminate. }
        { intros c' H. injection H as <-. auto. }
        { destruct k as [psm|m]; [exact Logic.I|]. destruct p; try contradiction; destruct KD; discriminate. }
      * intros x Q. destruct (Z.eqb_spec x (i_id c)) as [EQ|NE]; [discriminate Q|]. destruct (pend_self _ _ _ x I N Q) as [X _]. cbn in X. congruence.
      * intros id j NE Q. destruct (id =? i_id c); [discriminate Q|exact Q].
    + apply some_inj in E. destruct ok; subst s'; [|exact I]. split; [exact (i_pend _ I)|]. intros u x N. apply (thok_more s); [exact (i_thr _ I _ _ N)|auto|]. intros y Y. apply in_or_app. now left.
  - destruct (aget (s_lut s) r); [|discriminate E]. apply some_inj in E. subst s'. split; [exact (i_pend _ I)|]. intros u x N. apply (thok_more s); [exact (i_thr _ I _ _ N)|auto|auto].
Qed.
Lemma runs_ind : forall (P : list act -> sst -> Prop), P [] s0 -> (forall l s a s', runs l s -> P l s -> exec s a = Some s' -> P (l ++ [a]) s') -> forall l s, runs l s -> P l s.
Proof.
  intros P P0 PS l. induction l as [|a l IH] using rev_ind; intros s R; [injection R as <-; exact P0|].
  assert (SP : forall l s0 s, exec_all s0 (l ++ [a]) = Some s -> exists s1, exec_all s0 l = Some s1 /\ exec s1 a = Some s).
  { clear. intro l. induction l as [|b l IH]; intros s0 s E; cbn [app exec_all] in E; [exists s0; split; [reflexivity|]; destruct (exec s0 a); [exact E|discriminate E]|].
    cbn [exec_all]. destruct (exec s0 b) as [s1|]; [exact (IH _ _ E)|discriminate E]. }
  destruct (SP _ _ _ R) as (s1 & R1 & E). exact (PS _ _ _ _ R1 (IH _ R1) E).
Qed.
Lemma runs_inv : forall l s, runs l s -> inv s.
Proof. apply (runs_ind (fun _ s => inv s)); [exact inv_0|]. intros l s a s' _ I E. exact (inv_exec _ _ _ I E). Qed.
