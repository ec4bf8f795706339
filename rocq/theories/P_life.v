(** Proofs about M_life. *)
Require Import Verif.Base Verif.M_h4 Verif.S_h4 Verif.P_h4 Verif.M_life Verif.S_life.

Ltac step H := repeat match type of H with
  | context [match ?x with _ => _ end] => destruct x eqn:?; try discriminate
  end; try (injection H as <-).
Definition xp (s : st) : list bytes := match l_x s with XSend l => l | _ => [] end.
Definition rp (s : st) : list bytes := match l_r s with RGot p | RPut p => [p] | _ => [] end.
Definition order (s : st) : Prop := exists d, l_hist s = l_handled s ++ l_ch s ++ rp s ++ d ++ l_q s ++ xp s /\ (l_r s <> REnd -> d = []).
Definition wf (raw eh : bool) (s : st) : Prop :=
  (match l_w s with WDisp | WClean | WEnd => l_done s = true \/ (l_r s = REnd /\ l_ch s = []) | _ => True end) /\
  (l_w s = WEnd -> l_open s = false) /\ (l_x s <> XSend []) /\ (raw = true -> l_x s = XDone) /\
  (length (l_ch s) <= 16)%nat /\
  (match l_w s with WClean | WEnd => eh = true -> l_done s = false -> l_calls s = [l_cap s] | _ => l_calls s = [] end) /\ (l_calls s = [] \/ l_calls s = [l_cap s]) /\ (l_calls s <> [] -> eh = true).
Lemma order_pres : forall raw eh s a s', wf raw eh s -> order s -> exec raw eh s a = Some s' -> order s'.
Proof.
  intros raw eh s a s' WF (d & E & D) H. destruct WF as (_ & _ & XN & XR & _). unfold order, rp, xp in *.
  destruct a; cbn [exec] in H.
  - destruct (l_x s) eqn:X; try discriminate. destruct (l_open s && Nat.leb (length b) 512); [|discriminate]. destruct (Assemble (l_fr s) t b) as [[f o]|]; [|discriminate]. injection H as <-. exists d. cbn. split; [|exact D]. rewrite E, app_nil_r. destruct o as [|p o]; cbn; rewrite ?app_nil_r; [reflexivity|]. now rewrite !app_assoc.
  - destruct (l_x s) eqn:X; try discriminate. destruct (l_open s); [|discriminate]. injection H as <-. now exists d.
  - destruct (raw && l_open s && negb (Nat.eqb (length p) 0)) eqn:G; [|discriminate]. injection H as <-. exists d. cbn. split; [|exact D]. rewrite E. apply andb_prop in G. destruct G as [G _]. apply andb_prop in G. destruct G as [-> _]. rewrite (XR eq_refl). rewrite !app_nil_r, !app_assoc. reflexivity.
  - destruct (l_r s) eqn:R; try discriminate. destruct (raw && l_open s); [|discriminate]. injection H as <-. exists d. cbn. split; [exact E|]. intro N. now elim N.
  - injection H as <-. now exists d.
  - destruct (l_done s); [discriminate|]. injection H as <-. now exists d.
  - destruct (l_x s) as [|[|p r]|] eqn:X; try discriminate. destruct (Nat.ltb (length (l_q s)) 64); [|discriminate]. injection H as <-. exists d. cbn. split; [|exact D]. rewrite E. rewrite <- !app_assoc. cbn. destruct r; reflexivity.
  - destruct (l_x s) eqn:X; try discriminate. destruct (l_open s); [discriminate|]. injection H as <-. now exists d.
  - destruct (l_r s) eqn:R; try discriminate. destruct (l_open s); [discriminate|]. injection H as <-. exists d. cbn. split; [exact E|]. intro N. now elim N.
  - destruct (l_r s) eqn:R; try discriminate. destruct (l_q s) eqn:Q; try discriminate. destruct (l_open s && l_done s); [|discriminate]. injection H as <-. exists d. cbn. split; [rewrite E, Q; reflexivity|]. intro N. now elim N.
  - destruct (l_r s) eqn:R; try discriminate. destruct (l_q s) as [|p q] eqn:Q; try discriminate. destruct (l_open s); [|discriminate]. rewrite (D ltac:(discriminate)) in E. destruct (Nat.ltb 4096 (length p)); injection H as <-; cbn.
    + exists [p]. split; [rewrite E; reflexivity|]. intro N. now elim N.
    + exists []. split; [rewrite E; reflexivity|reflexivity].
  - destruct (l_r s) eqn:R; try discriminate. rewrite (D ltac:(discriminate)) in E. destruct (l_open s); injection H as <-; cbn; [exists []; split; [exact E|reflexivity]|]. exists [p]. split; [rewrite E; reflexivity|]. intro N. now elim N.
  - destruct (l_r s) eqn:R; try discriminate. destruct (Nat.ltb (length (l_ch s)) 16); [|discriminate]. injection H as <-. rewrite (D ltac:(discriminate)) in E. exists []. cbn. split; [|reflexivity]. rewrite E. now rewrite <- !app_assoc.
  - destruct (l_r s) eqn:R; try discriminate. destruct (l_done s); [|discriminate]. injection H as <-. rewrite (D ltac:(discriminate)) in E. exists [p]. cbn. split; [rewrite E; reflexivity|]. intro N. now elim N.
  - destruct (l_w s) eqn:W; try discriminate. injection H as <-. now exists d.
  - destruct (l_w s) eqn:W; try discriminate. destruct (l_ch s) as [|p c] eqn:C; try discriminate. injection H as <-. exists d. cbn. split; [|exact D]. rewrite E. now rewrite <- !app_assoc.
  - destruct (l_w s) eqn:W; try discriminate. destruct (l_done s); [|discriminate]. injection H as <-. now exists d.
  - destruct (l_w s) eqn:W; try discriminate. destruct (l_ch s) eqn:C; try discriminate. destruct (l_r s) eqn:R; try discriminate. injection H as <-. exists d. cbn. rewrite C, R. now split.
  - destruct (l_w s) eqn:W; try discriminate. injection H as <-. now exists d.
  - destruct (l_w s) eqn:W; try discriminate. destruct eh; [destruct (l_done s)|]; injection H as <-; now exists d.
  - destruct (l_w s) eqn:W; try discriminate. injection H as <-. now exists d.
Qed.
Lemma wf_pres : forall raw eh s a s', wf raw eh s -> exec raw eh s a = Some s' -> wf raw eh s'.
Proof.
  intros raw eh s a s' (A & B & C & D & F & G & K & L) H. unfold wf.
  destruct a; cbn [exec] in H.
  - destruct (l_x s) eqn:X; try discriminate. destruct (l_open s && Nat.leb (length b) 512); [|discriminate]. destruct (Assemble (l_fr s) t b) as [[f o]|]; [|discriminate]. injection H as <-. cbn. repeat split; auto; [destruct o; discriminate|]. intro R. now discriminate (D R).
  - destruct (l_x s) eqn:X; try discriminate. destruct (l_open s) eqn:OP; [|discriminate]. injection H as <-. cbn. rewrite ?OP. repeat split; auto; discriminate.
  - destruct (raw && l_open s && negb (Nat.eqb (length p) 0)) eqn:Z; [|discriminate]. injection H as <-. cbn. now repeat split.
  - destruct (l_r s) eqn:R; try discriminate. destruct (raw && l_open s); [|discriminate]. injection H as <-. cbn. repeat split; auto. destruct (l_w s); auto; destruct A as [A|[A _]]; auto; discriminate.
  - injection H as <-. cbn. repeat split; auto; destruct (l_w s); auto; discriminate.
  - destruct (l_done s) eqn:DN; [discriminate|]. injection H as <-. cbn. rewrite DN. repeat split; auto.
  - destruct (l_x s) as [|[|p r]|] eqn:X; try discriminate. destruct (Nat.ltb (length (l_q s)) 64); [|discriminate]. injection H as <-. cbn. repeat split; auto; [destruct r; discriminate|]. intro R. now discriminate (D R).
  - destruct (l_x s) eqn:X; try discriminate. destruct (l_open s) eqn:OP; [discriminate|]. injection H as <-. cbn. rewrite ?OP. repeat split; auto; discriminate.
  - destruct (l_r s) eqn:R; try discriminate. destruct (l_open s) eqn:OP; [discriminate|]. injection H as <-. cbn. rewrite ?OP. repeat split; auto. destruct (l_w s); auto; destruct A as [A|[A _]]; auto; discriminate.
  - destruct (l_r s) eqn:R; try discriminate. destruct (l_q s) eqn:Q; try discriminate. destruct (l_open s && l_done s); [|discriminate]. injection H as <-. cbn. repeat split; auto. destruct (l_w s); auto; destruct A as [A|[A _]]; auto; discriminate.
  - destruct (l_r s) eqn:R; try discriminate. destruct (l_q s) as [|p q] eqn:Q; try discriminate. destruct (l_open s) eqn:OP; [|discriminate]. destruct (Nat.ltb 4096 (length p)); injection H as <-; cbn; rewrite ?OP; repeat split; auto; destruct (l_w s); auto; destruct A as [A|[A _]]; auto; discriminate.
  - destruct (l_r s) eqn:R; try discriminate. destruct (l_open s) eqn:OP; injection H as <-; cbn; rewrite ?OP; repeat split; auto; destruct (l_w s); auto; destruct A as [A|[A _]]; auto; discriminate.
  - destruct (l_r s) eqn:R; try discriminate. destruct (Nat.ltb_spec (length (l_ch s)) 16) as [LT|]; [|discriminate]. injection H as <-. cbn. repeat split; auto; [|rewrite app_length; cbn; lia]. destruct (l_w s); auto; destruct A as [A|[A _]]; auto; discriminate.
  - destruct (l_r s) eqn:R; try discriminate. destruct (l_done s) eqn:DN; [|discriminate]. injection H as <-. cbn. rewrite ?DN. repeat split; auto; destruct (l_w s); auto; destruct A as [A|[A _]]; auto; discriminate.
  - destruct (l_w s) eqn:W; try discriminate. injection H as <-. cbn. repeat split; auto; discriminate.
  - destruct (l_w s) eqn:W; try discriminate. destruct (l_ch s) as [|p c] eqn:Z; try discriminate. injection H as <-. cbn in *. repeat split; auto; try discriminate. lia.
  - destruct (l_w s) eqn:W; try discriminate. destruct (l_done s) eqn:DN; [|discriminate]. injection H as <-. cbn. rewrite ?DN. repeat split; auto; discriminate.
  - destruct (l_w s) eqn:W; try discriminate. destruct (l_ch s) eqn:Z; try discriminate. destruct (l_r s) eqn:R; try discriminate. injection H as <-. cbn. rewrite Z, R. repeat split; auto; discriminate.
  - destruct (l_w s) eqn:W; try discriminate. injection H as <-. cbn. repeat split; auto; discriminate.
  - destruct (l_w s) eqn:W; try discriminate. destruct eh; [destruct (l_done s) eqn:DN|]; injection H as <-; cbn; rewrite ?DN; (split; [auto|]); (split; [discriminate|]); repeat split; auto; try discriminate; try (rewrite G; auto).
  - destruct (l_w s) eqn:W; try discriminate. injection H as <-. cbn. repeat split; auto.
Qed.
(** what was assembled is what the framing makes of the reads *)
Lemma rx_run_app : forall c1 c2 f, rx_run f (c1 ++ c2) = let! x := rx_run f c1 in let! y := rx_run (fst x) c2 in Ret (fst y, snd x ++ snd y).
Proof.
  induction c1 as [|[t b] c1 IH]; intros c2 f; cbn [app rx_run].
  - cbn [gbind fst snd app]. destruct (rx_run f c2) as [[f2 o2]|]; reflexivity.
  - destruct (Assemble f t b) as [[f1 o1]|]; cbn [gbind fst snd]; [|reflexivity]. rewrite IH. destruct (rx_run f1 c1) as [[f2 o2]|]; cbn [gbind fst snd]; [|reflexivity]. destruct (rx_run f2 c2) as [[f3 o3]|]; cbn [gbind fst snd]; [|reflexivity]. now rewrite app_assoc.
Qed.
Definition framed (raw : bool) (s : st) : Prop := if raw then l_in s = [] /\ Forall (fun p => p <> [] /\ (length p <= 4096)%nat) (l_hist s) else rx_run new_frame (l_in s) = Ret (l_fr s, l_hist s).
Lemma framed_pres : forall raw eh s a s', wf raw eh s -> framed raw s -> exec raw eh s a = Some s' -> framed raw s'.
Proof.
  intros raw eh s a s' (_ & _ & _ & D & _) F H. destruct a; cbn [exec] in H.
  1:{ destruct (l_x s) eqn:X; try discriminate. destruct raw; [now discriminate (D eq_refl)|]. destruct (l_open s && Nat.leb (length b) 512); [|discriminate]. destruct (Assemble (l_fr s) t b) as [[f o]|] eqn:A; [|discriminate]. injection H as <-. unfold framed in *. cbn [set_x got l_in l_fr l_hist].
    rewrite rx_run_app, F. cbn [gbind fst snd rx_run]. rewrite A. cbn [gbind fst snd]. now rewrite app_nil_r. }
  2:{ destruct raw; [|discriminate]. cbn [andb] in H. destruct (l_open s); [|discriminate]. cbn [andb negb] in H. destruct (Nat.eqb_spec (length p) 0) as [|N]; [discriminate|]. cbn [negb] in H. assert (Z : s' = kernel s (firstn 4096 p)) by congruence. rewrite Z. clear H Z. unfold framed in *. cbn [kernel l_in l_hist]. destruct F as [F1 F2]. split; [exact F1|]. apply Forall_app. split; [exact F2|]. constructor; [|constructor].
    split; [destruct p; [now elim N|discriminate]|]. rewrite firstn_length. lia. }
  all: step H; exact F.
Qed.
Lemma reach_all : forall raw eh s, reach raw eh s -> wf raw eh s /\ order s /\ framed raw s.
Proof.
  intros raw eh s [l H]. assert (I : wf raw eh (start raw) /\ order (start raw) /\ framed raw (start raw)).
  { split; [|split]; [|exists []; cbn; now destruct raw|destruct raw; cbn; [split; [reflexivity|constructor]|reflexivity]]. unfold wf. cbn. destruct raw; (split; [exact Logic.I|]); (split; [discriminate|]); (split; [discriminate|]); (split; [congruence || discriminate|]); (split; [lia|]); (split; [reflexivity|]); (split; [now left|]); intro N; now elim N. }
  revert I. induction H as [s|s a s1 l s2 X E IH]; intro I; [exact I|]. destruct I as (A & B & C). apply IH. split; [exact (wf_pres _ _ _ _ _ A X)|]. split; [exact (order_pres _ _ _ _ _ A B X)|exact (framed_pres _ _ _ _ _ A C X)].
Qed.
Lemma reach_run : forall raw eh s l s', reach raw eh s -> execs raw eh s l s' -> reach raw eh s'.
Proof. intros raw eh s l s' [l0 R] H. exists (l0 ++ l). induction R as [s|s a s1 l1 s2 X E IH]; [exact H|]. cbn. apply (ex_cons _ _ _ _ _ _ _ X). now apply IH. Qed.

(** a measure *)
Definition xw (x : xst) : nat := match x with XRead => 1 | XSend l => (6 * length l + 1)%nat | XDone => 0 end.
Definition rw (r : rst) : nat := match r with RRead => 1 | RGot _ => 5 | RPut _ => 4 | REnd => 0 end.
Definition ww (w : wst) : nat := match w with WStart => 5 | WWait => 3 | WHandle _ => 4 | WDisp => 2 | WClean => 1 | WEnd => 0 end.
Definition mu (s : st) : nat := (xw (l_x s) + 5 * length (l_q s) + rw (l_r s) + 2 * length (l_ch s) + ww (l_w s))%nat.
Lemma mu_dec : forall raw eh s a s', internal a = true -> exec raw eh s a = Some s' -> (mu s' < mu s)%nat.
Proof.
  intros raw eh s a s' IN H. unfold mu. destruct a; try discriminate; cbn [exec] in H.
  - destruct (l_x s) as [|[|p r]|] eqn:X; try discriminate. destruct (Nat.ltb (length (l_q s)) 64); [|discriminate]. injection H as <-. cbn [set_x set_q l_x l_q l_r l_ch l_w]. rewrite app_length. destruct r; cbn [xw length]; lia.
  - destruct (l_x s) eqn:X; try discriminate. destruct (l_open s); [discriminate|]. injection H as <-. cbn. lia.
  - destruct (l_r s) eqn:R; try discriminate. destruct (l_open s); [discriminate|]. injection H as <-. cbn -[Nat.mul]. lia.
  - destruct (l_r s) eqn:R; try discriminate. destruct (l_q s) eqn:Q; try discriminate. destruct (l_open s && l_done s); [|discriminate]. injection H as <-. cbn -[Nat.mul]. rewrite Q. cbn -[Nat.mul]. lia.
  - destruct (l_r s) eqn:R; try discriminate. destruct (l_q s) as [|p q] eqn:Q; try discriminate. destruct (l_open s); [|discriminate]. destruct (Nat.ltb 4096 (length p)); injection H as <-; cbn -[Nat.mul]; lia.
  - destruct (l_r s) eqn:R; try discriminate. destruct (l_open s); injection H as <-; cbn -[Nat.mul]; lia.
  - destruct (l_r s) eqn:R; try discriminate. destruct (Nat.ltb (length (l_ch s)) 16); [|discriminate]. injection H as <-. cbn -[Nat.mul]. rewrite app_length. cbn -[Nat.mul]. lia.
  - destruct (l_r s) eqn:R; try discriminate. destruct (l_done s); [|discriminate]. injection H as <-. cbn -[Nat.mul]. lia.
  - destruct (l_w s) eqn:W; try discriminate. injection H as <-. cbn -[Nat.mul]. lia.
  - destruct (l_w s) eqn:W; try discriminate. destruct (l_ch s) as [|p c] eqn:C; try discriminate. injection H as <-. cbn -[Nat.mul]. lia.
  - destruct (l_w s) eqn:W; try discriminate. destruct (l_done s); [|discriminate]. injection H as <-. cbn -[Nat.mul]. lia.
  - destruct (l_w s) eqn:W; try discriminate. destruct (l_ch s) eqn:C; try discriminate. destruct (l_r s) eqn:R; try discriminate. injection H as <-. cbn -[Nat.mul]. rewrite C, R. cbn -[Nat.mul]. lia.
  - destruct (l_w s) eqn:W; try discriminate. injection H as <-. cbn -[Nat.mul]. lia.
  - destruct (l_w s) eqn:W; try discriminate. destruct eh; [destruct (l_done s)|]; injection H as <-; cbn -[Nat.mul]; lia.
  - destruct (l_w s) eqn:W; try discriminate. injection H as <-. cbn -[Nat.mul]. lia.
Qed.
Lemma execs_mu : forall raw eh s l s', execs raw eh s l s' -> Forall (fun a => internal a = true) l -> (length l + mu s' <= mu s)%nat.
Proof. intros raw eh s l s' H. induction H as [s|s a s1 l s2 X E IH]; intro F; [cbn; lia|]. apply Forall_cons_iff in F. destruct F as [F1 F2]. pose proof (mu_dec _ _ _ _ _ F1 X). specialize (IH F2). cbn [length]. lia. Qed.
Lemma quiet_cases : forall raw eh s, wf raw eh s -> quiet raw eh s ->
  (l_r s = REnd /\ l_w s = WEnd) \/ (l_open s = true /\ l_done s = false /\ l_r s = RRead /\ l_q s = [] /\ l_ch s = [] /\ l_w s = WWait /\ xp s = []).
Proof.
  intros raw eh s (A & B & C & D & F & _) Q.
  assert (W : l_w s = WEnd \/ (l_w s = WWait /\ l_ch s = [] /\ l_done s = false /\ l_r s <> REnd)).
  { destruct (l_w s) eqn:W.
    - pose proof (Q WBegin eq_refl) as X. cbn in X. rewrite W in X. discriminate.
    - right. split; [reflexivity|]. pose proof (Q WTake eq_refl) as X. cbn in X. rewrite W in X. destruct (l_ch s) eqn:CH; [|discriminate]. split; [reflexivity|]. pose proof (Q WSeen eq_refl) as Y. cbn in Y. rewrite W in Y. destruct (l_done s); [discriminate|]. split; [reflexivity|]. intro R. pose proof (Q WEof eq_refl) as Z. cbn in Z. rewrite W, CH, R in Z. discriminate.
    - pose proof (Q WRet eq_refl) as X. cbn in X. rewrite W in X. discriminate.
    - pose proof (Q WTell eq_refl) as X. cbn in X. rewrite W in X. discriminate.
    - pose proof (Q WClose eq_refl) as X. cbn in X. rewrite W in X. discriminate.
    - now left. }
  destruct W as [W|(W & CH & DN & RN)].
  - left. split; [|exact W]. rewrite W in A. pose proof (B W) as O. destruct (l_r s) eqn:R.
    + pose proof (Q RClosed eq_refl) as X. cbn in X. rewrite R, O in X. discriminate.
    + pose proof (Q RCheck eq_refl) as X. cbn in X. rewrite R, O in X. discriminate.
    + destruct A as [A|[A _]]; [|discriminate]. pose proof (Q RQuit eq_refl) as X. cbn in X. rewrite R, A in X. discriminate.
    + reflexivity.
  - right. destruct (l_r s) eqn:R; try (now elim RN).
    + pose proof (Q RClosed eq_refl) as X. cbn in X. rewrite R in X. destruct (l_open s) eqn:O; [|discriminate]. pose proof (Q RTake eq_refl) as Y. cbn [exec] in Y. rewrite R, O in Y. destruct (l_q s) as [|p q] eqn:QQ; [|destruct (Nat.ltb 4096 (length p)); discriminate].
      repeat split; auto. unfold xp. destruct (l_x s) as [|[|p r]|] eqn:X2; try reflexivity. pose proof (Q XPush eq_refl) as Z. cbn [exec] in Z. rewrite X2, QQ in Z. destruct r; discriminate.
    + pose proof (Q RCheck eq_refl) as X. cbn in X. rewrite R in X. destruct (l_open s); discriminate.
    + pose proof (Q RPutC eq_refl) as X. cbn [exec] in X. rewrite R, CH in X. discriminate.
Qed.
Lemma done_open_mono : forall raw eh s l s', execs raw eh s l s' -> (l_done s = true -> l_done s' = true) /\ (l_open s = false -> l_open s' = false).
Proof.
  intros raw eh s l s' H. induction H as [s|s a s1 l s2 X E IH]; [tauto|]. assert (Y : (l_done s = true -> l_done s1 = true) /\ (l_open s = false -> l_open s1 = false)) by (clear - X; destruct a; cbn [exec] in X; step X; cbn; split; intro; congruence). tauto.
Qed.
Lemma done_internal : forall raw eh s l s', execs raw eh s l s' -> Forall (fun a => internal a = true) l -> l_done s' = l_done s.
Proof.
  intros raw eh s l s' H. induction H as [s|s a s1 l s2 X E IH]; intro F; [reflexivity|]. apply Forall_cons_iff in F. destruct F as [F1 F2]. rewrite (IH F2). clear - X F1. destruct a; try discriminate; cbn [exec] in X; step X; cbn; congruence.
Qed.
