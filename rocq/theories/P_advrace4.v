Require Import Verif.Base Verif.M_advrep Verif.M_advrace Verif.S_advrace Verif.P_advrace Verif.P_advrace2 Verif.P_advrace3.
From Coq Require Import Lia.

Lemma crash_needs_scan : forall l s, runs l s -> crashed s -> exists e, of_type e 4 /\ replaced l e.
Proof. intros l s R C. destruct (inv_runs l s R) as (_ & _ & P). unfold pcinv in P. unfold crashed in C. now rewrite C in P. Qed.

Lemma out_step : forall s a s', exec s a = Some s' -> r_out s' = r_out s \/ (a = RLoop /\ exists id, r_loop s = LOut id /\ s' = mkR (r_heap s) (r_rings s) (r_cur s) (r_last s) LIdle (r_scan s) (r_out s ++ [id])).
Proof.
  intros s [e| | |t] s' E; cbn [exec] in E.
  - left. destruct (r_loop s); try discriminate. apply some_inj in E. subst s'. now apply begin_cases.
  - unfold loop_step in E. destruct (r_loop s) eqn:L; try discriminate.
    all: try (right; split; [reflexivity|]; exists a; split; [reflexivity|]; apply some_inj in E; now subst s').
    all: left.
    all: try (apply some_inj in E; subst s'; reflexivity).
    + destruct ((0 <=? r_last s) && (r_last s <? Z.of_nat (length (arr s c))))%bool; apply some_inj in E; now subst s'.
    + destruct (slot s idx) as [[id|]|]; [|apply some_inj in E; now subst s'..]. destruct (ad_addr (entry s id)) as [[ah|]|]; [destruct (ad_addr sr) as [[asr|]|]|..]; apply some_inj in E; now subst s'.
    + destruct (slot s idx) as [[id|]|]; [|apply some_inj in E; now subst s'..]. destruct (set_scan_response (entry s id) sr) as [[a|]|]; apply some_inj in E; now subst s'.
  - left. apply some_inj in E. now subst s'.
  - left. destruct (nth_error (r_scan s) t) as [[|[|]]|]; try discriminate; apply some_inj in E; now subst s'.
Qed.
Lemma handed_over : forall l s a s', runs l s -> exec s a = Some s' -> handed s' <> handed s ->
  exists e l2 id, during l e l2 /\ handed s' = handed s ++ [id] /\ (id < length (r_heap s'))%nat /\ right_for l e (entry s' id).
Proof.
  intros l s a s' R E N. destruct (out_step s a s' E) as [Q|(-> & id & L & ->)]; [now elim N|].
  destruct (inv_runs l s R) as (_ & _ & P). unfold pcinv in P. rewrite L in P. destruct P as (e & l2 & D & LT & RF). exists e, l2, id. split; [exact D|]. split; [reflexivity|]. split; [exact LT|]. exact RF.
Qed.
(** at most once per report *)
Lemma changes : forall l s a s' id, runs l s -> exec s a = Some s' -> (id < length (r_heap s))%nat ->
  (length (r_heap s) <= length (r_heap s'))%nat /\
  (entry s' id = entry s id \/ (exists e l2 sr, during l e l2 /\ of_type e 4 /\ advertised e sr /\ merged (entry s id) sr (entry s' id) /\ (same_address (entry s id) sr))).
Proof.
  intros l s a s' id R E LT. destruct (inv_runs l s R) as (RO & _ & P). destruct a as [e| | |t]; cbn [exec] in E.
  - destruct (r_loop s); try discriminate. apply some_inj in E. subst s'. apply begin_cases; try (split; [cbn; lia|now left]).
    all: intros a t A T TT; split; [cbn; rewrite app_length; lia|left]; unfold entry; cbn [with_loop with_heap r_heap]; now rewrite app_nth1.
  - unfold loop_step in E. unfold pcinv in P. destruct (r_loop s) eqn:L; try discriminate.
    all: try (apply some_inj in E; subst s'; split; [cbn; lia|now left]).
    + destruct ((0 <=? r_last s) && (r_last s <? Z.of_nat (length (arr s c))))%bool; apply some_inj in E; subst s'; (split; [cbn; lia|now left]).
    + destruct (slot s idx) as [[id'|]|]; [|apply some_inj in E; subst s'; (split; [cbn; lia|now left])..].
      destruct (ad_addr (entry s id')) as [[ah|]|]; [destruct (ad_addr sr) as [[asr|]|]|..]; apply some_inj in E; subst s'; (split; [cbn; lia|now left]).
    + destruct (slot s idx) as [[id'|]|] eqn:SI; [|apply some_inj in E; subst s'; (split; [cbn; lia|now left])..].
      destruct (slot_lt l s idx id' RO SI) as [IL SC].
      destruct (set_scan_response (entry s id') sr) as [[a|]|] eqn:M; apply some_inj in E; subst s'; [|split; [cbn; lia|now left]..].
      split; [cbn [with_loop with_heap r_heap]; now rewrite upd_length|]. rewrite entry_upd by exact IL. destruct (Nat.eqb_spec id id') as [<-|Nid]; [right|now left].
      destruct P as (e & l2 & D & T & A & SN & I & G). exists e, l2, sr. split; [exact D|split; [exact T|split; [exact A|split; [exact M|]]]].
      destruct G as [(id' & Q & SA)|(Q & _)]; [|congruence]. assert (id' = id) by congruence. now subst id'.
  - apply some_inj in E. subst s'. split; [cbn; lia|now left].
  - destruct (nth_error (r_scan s) t) as [[|[|]]|]; try discriminate; apply some_inj in E; subst s'; (split; [cbn; lia|now left]).
Qed.

(** Steps *)
Definition k1 (last idx : Z) : Z := if last <=? idx then idx else idx + 129.
Definition k2 (last idx : Z) : Z := if last <? idx then idx else idx + 129.
Definition rank (s : rst) : Z :=
  let L := r_last s in
  match r_loop s with
  | LIdle | LNil | LDied => 0
  | LOut _ => 1 | LZero _ => 2 | LChk _ => 3 | LInc2 _ _ => 4 | LInc _ => 5 | LStore2 _ _ => 6 | LStore _ => 7
  | SRes _ _ => 2 | SSet _ _ => 3
  | SAddr _ idx => 5 * k2 L idx + 9
  | SNil _ idx => 5 * k2 L idx + 10
  | SCmp _ idx => 5 * k1 L idx + 13
  | SWrap _ => 5 * 128 + 7
  | SWrap2 _ _ => 5 * 128 + 6
  | SStart _ => 5 * 256 + 20
  end.
Lemma rank_nonneg : forall l s, runs l s -> 0 <= rank s <= 1300.
Proof.
  intros l s R. destruct (inv_runs l s R) as (_ & LO & P). unfold rank, last_ok, pcinv in *. destruct (r_loop s); try lia.
  all: destruct P as (e & l2 & _ & _ & _ & _ & P); unfold k1, k2; try destruct (Z.leb_spec (r_last s) idx); try destruct (Z.ltb_spec (r_last s) idx); lia.
Qed.
Lemma rank_loop : forall l s s', runs l s -> exec s RLoop = Some s' -> rank s' < rank s.
Proof.
  intros l s s' R E. destruct (inv_runs l s R) as (RO & LO & P). assert (R' := runs_snoc l s RLoop s' R E). destruct (inv_runs _ _ R') as (_ & _ & P').
  assert (AL := arr_len s (proj1 RO) (proj1 (proj2 RO))).
  cbn [exec] in E. unfold loop_step in E. unfold rank, last_ok, pcinv in *. destruct (r_loop s) eqn:L; try discriminate.
  all: try (apply some_inj in E; subst s'; cbn [with_loop with_last r_loop r_last] in *).
  all: try lia.
  - destruct ((0 <=? r_last s) && (r_last s <? Z.of_nat (length (arr s c))))%bool; apply some_inj in E; subst s'; cbn; lia.
  - destruct (r_last s =? Z.of_nat (length (arr s (r_cur s)))); lia.
  - unfold k1. destruct (Z.leb_spec (r_last s) (r_last s - 1)); lia.
  - destruct P as (e & l2 & _ & _ & _ & _ & P). destruct (Z.eqb_spec idx (r_last s)) as [Q|Q].
    + unfold k1. destruct (Z.leb_spec (r_last s) idx); lia.
    + destruct (Z.eqb_spec idx (-1)) as [Q1|Q1]; unfold k1, k2 in *; destruct (Z.leb_spec (r_last s) idx); try destruct (Z.ltb_spec (r_last s) idx); lia.
  - destruct P as (e & l2 & _ & _ & _ & _ & P). destruct (Z.eqb_spec idx (r_last s)) as [Q|Q]; [lia|]. unfold k2. destruct (Z.ltb_spec (r_last s) idx); lia.
  - destruct P as (e & l2 & _ & _ & _ & _ & P). destruct (slot s idx) as [[id|]|]; unfold k2; destruct (Z.ltb_spec (r_last s) idx); lia.
  - destruct P as (e & l2 & _ & _ & _ & _ & P & _). unfold k1, k2 in *. destruct (slot s idx) as [[id|]|].
    + destruct (ad_addr (entry s id)) as [[ah|]|]; [destruct (ad_addr sr) as [[asr|]|]; [destruct (beq_bytes (fst ah) (fst asr))|..]|..]; apply some_inj in E; subst s'; cbn [with_loop r_loop r_last];
      destruct (Z.ltb_spec (r_last s) idx); try destruct (Z.leb_spec (r_last s) (idx - 1)); lia.
    + apply some_inj in E; subst s'; cbn [with_loop r_loop]. destruct (Z.ltb_spec (r_last s) idx); lia.
    + apply some_inj in E; subst s'; cbn [with_loop r_loop]. destruct (Z.ltb_spec (r_last s) idx); lia.
  - destruct (slot s idx) as [[id|]|]; [destruct (set_scan_response (entry s id) sr) as [[a|]|]|..]; apply some_inj in E; subst s'; cbn; lia.
  - destruct (slot s idx) as [[id|]|]; lia.
Qed.
Lemma rank_other : forall l s a s', runs l s -> exec s a = Some s' -> no_report [a] -> rank s' <= rank s.
Proof.
  intros l s [e| | |t] s' R E N.
  - elim (N e). now left.
  - pose proof (rank_loop l s s' R E). lia.
  - apply some_inj in E. subst s'. unfold rank. cbn [r_loop r_last]. lia.
  - cbn [exec] in E. destruct (inv_runs l s R) as (RO & LO & P). destruct (nth_error (r_scan s) t) as [[|[|]]|]; try discriminate; apply some_inj in E; subst s'.
    + unfold rank. cbn [r_loop r_last]. lia.
    + unfold rank, last_ok, pcinv in *. cbn [r_loop r_last]. destruct (r_loop s); try lia.
      all: destruct P as (e & l2 & _ & _ & _ & _ & P); unfold k1, k2; try destruct (Z.leb_spec (r_last s) idx); try destruct (Z.ltb_spec (r_last s) idx); try destruct (Z.leb_spec 0 idx); try destruct (Z.ltb_spec 0 idx); lia.
Qed.
Lemma few_steps_seg : forall l2 l s s', runs l s -> exec_all s l2 = Some s' -> no_report l2 -> Z.of_nat (loop_steps l2) <= rank s - rank s'.
Proof.
  induction l2 as [|a l2 IH]; intros l s s' R E N.
  - cbn in E. apply some_inj in E. subst s'. cbn. lia.
  - cbn [exec_all] in E. destruct (exec s a) as [s1|] eqn:E1; [|discriminate].
    specialize (IH (l ++ [a]) s1 s' (runs_snoc _ _ _ _ R E1) E (fun e H => N e (or_intror H))).
    unfold loop_steps in *. cbn [filter]. destruct a as [e| | |t]; cbn [length].
    + elim (N e). now left.
    + pose proof (rank_loop l s s1 R E1). lia.
    + pose proof (rank_other l s RScan s1 R E1 ltac:(intros ? [|[]]; discriminate)). lia.
    + pose proof (rank_other l s (RScanStep t) s1 R E1 ltac:(intros ? [|[]]; discriminate)). lia.
Qed.
Lemma few_steps : forall l s e l2, runs l s -> during l e l2 -> (loop_steps l2 <= 1300)%nat.
Proof.
  intros l s e l2 R (l1 & -> & N). apply runs_r1 in R. rewrite exec_all_app in R. destruct (exec_all r1 l1) as [s1|] eqn:E1; [|discriminate].
  cbn [exec_all] in R. destruct (exec s1 (RReport e)) as [s2|] eqn:E2; [|discriminate]. apply runs_r1 in E1. assert (R2 := runs_snoc _ _ _ _ E1 E2).
  pose proof (few_steps_seg l2 _ s2 s R2 R N). pose proof (rank_nonneg _ _ R2). assert (R3 : runs (l1 ++ [RReport e] ++ l2) s).
  { apply runs_r1. rewrite app_assoc, exec_all_app. apply runs_r1 in R2. now rewrite R2. }
  pose proof (rank_nonneg _ _ R3). lia.
Qed.
(** Always able to go on *)
Lemma loop_progress : forall l s, runs l s -> r_loop s = LIdle \/ r_loop s = LNil \/ r_loop s = LDied \/ exists s', exec s RLoop = Some s'.
Proof.
  intros l s R. cbn [exec]. unfold loop_step. destruct (r_loop s); auto; try (right; right; right; eexists; reflexivity).
  - right; right; right. destruct ((0 <=? r_last s) && (r_last s <? Z.of_nat (length (arr s c))))%bool; eexists; reflexivity.
  - right; right; right. destruct (slot s idx) as [[id|]|]; [destruct (ad_addr (entry s id)) as [[ah|]|]; [destruct (ad_addr sr) as [[asr|]|]|..]|..]; eexists; reflexivity.
  - right; right; right. destruct (slot s idx) as [[id|]|]; [destruct (set_scan_response (entry s id) sr) as [[a|]|]|..]; eexists; reflexivity.
Qed.

(** At most one hand-over per report *)
Definition reports_in (l : list act) : nat := length (filter (fun a => match a with RReport _ => true | _ => false end) l).
Definition busy (s : rst) : nat := match r_loop s with LIdle | LNil | LDied => 0 | _ => 1 end.
Lemma reports_snoc : forall l a, reports_in (l ++ [a]) = (reports_in l + match a with RReport _ => 1 | _ => 0 end)%nat.
Proof. intros l a. unfold reports_in. rewrite filter_app, app_length. destruct a; reflexivity. Qed.
Lemma once_runs : forall l s, runs l s -> (length (handed s) + busy s <= reports_in l)%nat.
Proof.
  apply runs_ind; [cbn; lia|]. intros l s a s' R IH E. rewrite reports_snoc. unfold handed, busy in *. destruct a as [e| | |t]; cbn [exec] in E.
  - destruct (r_loop s) eqn:L; try discriminate. apply some_inj in E. subst s'. apply begin_cases; cbn; rewrite ?L; intros; lia.
  - unfold loop_step in E. destruct (r_loop s) eqn:L; try discriminate.
    all: repeat match type of E with context[match ?x with _ => _ end] => destruct x end; apply some_inj in E; subst s'; cbn [with_loop with_last with_heap r_out r_loop]; rewrite ?app_length; cbn [length]; lia.
  - apply some_inj in E. subst s'. cbn [r_out r_loop]. lia.
  - destruct (nth_error (r_scan s) t) as [[|[|]]|]; try discriminate; apply some_inj in E; subst s'; cbn [r_out r_loop]; lia.
Qed.
