(** * C191, C192: signaling calls (opening channels, returning credits) at the same time on one connection *)
Require Import Verif.Base Verif.M_attsrv Verif.M_gattcli Verif.M_coc Verif.M_sigc Verif.S_sigc Verif.P_sigc Verif.P_sigc2 Verif.P_sigc3.

(** Whatever calls are under way, in whatever order they take their steps: the event loop can handle every command of the peer at once, it never waits for a call. *)
Theorem C191_never_blocks : forall l s c ok, runs l s -> exists s', exec s (AIncoming c ok) = Some s'.
Proof.
  intros l s c ok R. cbn [exec]. cbv zeta. destruct ((i_code c =? 6) || (i_code c =? 18) || (i_code c =? 20) || (i_code c =? 22)); [eauto|]. cbn [with_in s_pend s_thr].
  destruct (s_pend s (i_id c)) as [t|] eqn:P; [|eauto]. destruct (i_pend _ (runs_inv _ _ R) _ _ P) as (th & N & _ & CH). rewrite N, CH. eauto.
Qed.
Print Assumptions C191_never_blocks.
(** Every call ends: as long as it has not returned a step of its own is possible, and it takes at most thirteen. *)
Theorem C191_no_deadlock : forall l s t th, runs l s -> nth_error (s_thr s) t = Some th -> (forall r, ~ returned s t r) -> exists a s', actor a = Some t /\ exec s a = Some s'.
Proof.
  intros l s t th R N NR. assert (NP : forall r, t_ph th <> PDone r) by (intros r P; apply (NR r); exists th; now split).
  destruct (t_ph th) as [| |r| | | | | | | |c|r|r|r] eqn:P.
  all: try (exists (AStep t); cbn [exec actor]; rewrite N; unfold step; rewrite P; eexists; split; reflexivity).
  - exists (AStep t). cbn [exec actor]. rewrite N. unfold step. rewrite P. destruct ((s_next s >? 65535) || (s_next s <? 64)); eexists; split; reflexivity.
  - exists (AWrite t true). cbn [exec actor]. rewrite N, P. eexists; split; reflexivity.
  - exists (ATimeout t). cbn [exec actor]. rewrite N, P. eexists; split; reflexivity.
  - exists (AStep t). cbn [exec actor]. rewrite N. unfold step. rewrite P. destruct (aget (s_lut s) r); eexists; split; reflexivity.
  - now elim (NP r).
Qed.
Print Assumptions C191_no_deadlock.
Theorem C191_few_steps : forall l s t, runs l s -> (steps_of l t <= 13)%nat.
Proof. intros l s t R. assert (B := steps_bound l s R t). destruct (nth_error (s_thr s) t); lia. Qed.
Print Assumptions C191_few_steps.

Lemma open_form : forall th psm, t_call th = KOpen psm -> request th = open_request (t_id th) psm (t_cid th).
Proof. intros [k p cid id reg df ch] psm H. cbn [t_call t_id t_cid] in *. subst k. reflexivity. Qed.
(** A call of Open that succeeds has sent its request, and the peer has sent a response that grants just this channel. *)
Theorem C191_answered : forall l s t psm cid r, runs l s -> in_bytes l -> opens s t psm cid -> returned s t (Some r) ->
  exists c ok id, In (AIncoming c ok) l /\ grants c r /\ In (Some t, open_request id psm cid) (s_log s).
Proof.
  intros l s t psm cid r R B (th & N & K & CI) (th' & N' & P). rewrite N in N'. apply some_inj in N'. subst th'. assert (OK := i_thr _ (runs_inv _ _ R) _ _ N).
  destruct (k_got _ _ _ OK r) as (c & IC & (z & J) & RG). { unfold got. now rewrite P, K. } destruct (runs_in _ _ R _ IC) as (ok & IL). assert (BB := runs_bytes _ _ R B). rewrite Forall_forall in BB.
  destruct (judge_grants _ _ _ (BB _ IC) J) as (G & _ & _). exists c, ok, (t_id th). split; [exact IL|]. split; [exact G|].
  assert (S := k_sent _ _ _ OK). rewrite P, K in S. specialize (S eq_refl). rewrite (open_form th psm K), CI in S. exact S.
Qed.
Print Assumptions C191_answered.
(** If requests are prepared one at a time - waiting for the answers, writing, closing and whatever the peer does may overlap - the response has the identifier of
    the call's own request, and no request has the identifier 0. *)
Theorem C191_own_answer : forall l s t psm cid r, runs l s -> in_bytes l -> apart l -> opens s t psm cid -> returned s t (Some r) ->
  exists c ok, In (AIncoming c ok) l /\ grants c r /\ In (Some t, open_request (i_id c) psm cid) (s_log s).
Proof.
  intros l s t psm cid r R B A (th & N & K & CI) (th' & N' & P). rewrite N in N'. apply some_inj in N'. subst th'. assert (OK := i_thr _ (runs_inv _ _ R) _ _ N).
  destruct (k_got _ _ _ OK r) as (c & IC & (z & J) & RG). { unfold got. now rewrite P, K. } destruct (runs_in _ _ R _ IC) as (ok & IL). assert (BB := runs_bytes _ _ R B). rewrite Forall_forall in BB.
  destruct (judge_grants _ _ _ (BB _ IC) J) as (G & _ & _). exists c, ok. split; [exact IL|]. split; [exact G|].
  assert (S := k_sent _ _ _ OK). rewrite P, K in S. specialize (S eq_refl). rewrite (open_form th psm K), CI in S.
  assert (AK := a_thr _ (runs_ainv _ _ R A) _ _ N). unfold aok in AK. rewrite P, K in AK. replace (i_id c) with (t_id th) by congruence. exact S.
Qed.
Print Assumptions C191_own_answer.
Theorem C191_identifiers : forall l s t p, runs l s -> apart l -> In (Some t, p) (s_log s) -> nth 5 p 0 <> 0.
Proof. intros l s t p R A. exact (a_log _ (runs_ainv _ _ R A) t p). Qed.
Print Assumptions C191_identifiers.
(** In every schedule: no response makes two calls succeed, *)
Theorem C191_one_answer_each : forall l s, runs l s -> in_bytes l ->
  (length (filter opened (s_thr s)) <= length (filter (fun a => match a with AIncoming c _ => granting c | _ => false end) l))%nat.
Proof.
  intros l s R B. assert (C := runs_counted _ _ R B). unfold counted in C.
  assert (X : (length (filter opened (s_thr s)) <= length (filter used (s_thr s)))%nat).
  { clear. induction (s_thr s) as [|th r IH]; [apply Nat.le_refl|]. cbn [filter]. assert (O := opened_used th). destruct (opened th); [rewrite (O eq_refl); cbn [length]; lia|destruct (used th); cbn [length]; lia]. }
  assert (Y : length (filter granting (s_in s)) = length (filter (fun a => match a with AIncoming c _ => granting c | _ => false end) l)).
  { clear B C X. revert l s R. apply (runs_ind (fun l s => length (filter granting (s_in s)) = length (filter (fun a => match a with AIncoming c _ => granting c | _ => false end) l))); [reflexivity|].
    intros l s a s' _ IH E. rewrite (in_exec _ _ _ E), filter_snoc. destruct a; rewrite ?filter_snoc, ?IH; lia. }
  lia.
Qed.
Print Assumptions C191_one_answer_each.
(** the channels of two calls have different local identifiers, and a channel there is is the one of the call that opened it: no two with the same local identifier. *)
Theorem C191_channels : forall l s, runs l s ->
  (forall t t' psm psm' cid r r', opens s t psm cid -> returned s t (Some r) -> opens s t' psm' cid -> returned s t' (Some r') -> t = t' /\ 64 <= cid <= 65535) /\
  (forall r cid, aget (s_lut s) r = Some cid -> exists t psm, opens s t psm cid /\ returned s t (Some r)) /\
  (forall r r' cid, aget (s_lut s) r = Some cid -> aget (s_lut s) r' = Some cid -> r = r').
Proof.
  intros l s R. assert (C := runs_cinv _ _ R). split; [|split].
  - intros t t' psm psm' cid r r' (th & N & K & Q) (x & Nx & P) (th' & N' & K' & Q') _. rewrite N in Nx. apply some_inj in Nx. subst x. assert (H := n_has _ C _ _ N). unfold has_cid in H. rewrite K, P in H.
    split; [apply (n_uni _ C t t' th th' N N' H); congruence|]. rewrite <- Q. exact (proj1 (n_rng _ C _ _ N H)).
  - intros r cid H. destruct (n_lut _ C _ _ H) as (_ & t & th & psm & N & K & P & Q). exists t, psm. split; [exists th; auto|exists th; auto].
  - intros r r' cid H H'. destruct (n_lut _ C _ _ H) as (Z0 & t & th & psm & N & K & P & Q). destruct (n_lut _ C _ _ H') as (_ & t' & th' & psm' & N' & K' & P' & Q').
    assert (EQ : t = t') by (apply (n_uni _ C t t' th th' N N'); congruence). subst t'. rewrite N in N'. apply some_inj in N'. subst th'. congruence.
Qed.
Print Assumptions C191_channels.

(** Example: two calls of Open whose waits overlap, a credit returned before and one after; the second is answered, the first times out. *)
Definition st (t n : nat) : list act := repeat (AStep t) n.
Definition granted (id lo : Z) : act := AIncoming (mkI 21 id [lo; 0; 64; 0; 64; 0; 5; 0; 0; 0]) true.
Definition two_waits : list act := [ACall (KSig (SCredit 64 1))] ++ st 0 4 ++ [AWrite 0 true; ACall (KOpen 37)] ++ st 1 7 ++ [AWrite 1 true; ACall (KOpen 39)] ++ st 2 7 ++ [AWrite 2 true; granted 3 81] ++ st 2 4 ++ [ATimeout 1] ++ st 1 1.
(** At most one call prepares: decided along the run *)
Definition prep_b (s : sst) (t : nat) : bool := match nth_error (s_thr s) t with Some th => prep (t_ph th) | None => false end.
Fixpoint apart_b (s : sst) (l : list act) : bool :=
  (Nat.leb (length (filter (fun th => prep (t_ph th)) (s_thr s))) 1) && match l with [] => true | a :: r => match exec s a with Some s' => apart_b s' r | None => true end end.
Lemma one_true : forall (l : list thr) t t' x x', (length (filter (fun th => prep (t_ph th)) l) <= 1)%nat -> nth_error l t = Some x -> prep (t_ph x) = true -> nth_error l t' = Some x' -> prep (t_ph x') = true -> t = t'.
Proof.
  intros l. induction l as [|a l IH]; intros [|t] [|t'] x x' L N P N' P'; try discriminate N; try discriminate N'; try reflexivity; cbn [nth_error filter] in *.
  - apply some_inj in N. subst a. rewrite P in L. cbn [length] in L. assert (Q : In x' (filter (fun th => prep (t_ph th)) l)) by (apply filter_In; split; [exact (nth_error_In _ _ N')|exact P']). destruct (filter _ l); [destruct Q|cbn in L; lia].
  - apply some_inj in N'. subst a. rewrite P' in L. cbn [length] in L. assert (Q : In x (filter (fun th => prep (t_ph th)) l)) by (apply filter_In; split; [exact (nth_error_In _ _ N)|exact P]). destruct (filter _ l); [destruct Q|cbn in L; lia].
  - f_equal. apply (IH t t' x x'); auto. destruct (prep (t_ph a)); cbn [length] in L; lia.
Qed.
Lemma apart_ok : forall l, apart_b s0 l = true -> apart l.
Proof.
  intros l H l1 l2 s t t' -> R. unfold runs in R. revert H R. generalize s0. induction l1 as [|a l1 IH]; intros s1 H R; cbn [app exec_all apart_b] in *.
  - apply some_inj in R. subst s1. intros (x & N & P) (x' & N' & P'). assert (L : (length (filter (fun th => prep (t_ph th)) (s_thr s)) <= 1)%nat) by (destruct l2; cbn [apart_b] in H; apply andb_true_iff in H; destruct H as [H _]; now apply Nat.leb_le in H).
    apply (one_true _ _ _ _ _ L N) with (2 := N'); [destruct (t_ph x); try contradiction; reflexivity|destruct (t_ph x'); try contradiction; reflexivity].
  - apply andb_true_iff in H. destruct H as [_ H]. destruct (exec s1 a) as [s2|]; [exact (IH s2 H R)|discriminate R].
Qed.
Example C191_example : exists s, runs two_waits s /\ in_bytes two_waits /\ apart two_waits /\ opens s 2 39 65 /\ returned s 2 (Some 81) /\ opens s 1 37 64 /\ returned s 1 None /\ aget (s_lut s) 81 = Some 65.
Proof.
  eexists. split; [vm_compute; reflexivity|]. split; [unfold in_bytes; repeat (apply Forall_cons; [cbn; try exact Logic.I; repeat (apply Forall_cons; [unfold is_byte; lia|]); apply Forall_nil|]); apply Forall_nil|].
  split; [apply apart_ok; vm_compute; reflexivity|].
  split; [eexists; split; [vm_compute; reflexivity|split; reflexivity]|]. split; [eexists; split; vm_compute; reflexivity|]. split; [eexists; split; [vm_compute; reflexivity|split; reflexivity]|]. split; [eexists; split; vm_compute; reflexivity|vm_compute; reflexivity].
Qed.

(** * C192: refuted *)
(** Two calls of Open at the same time, for the PSMs 37 and 39: both requests have the identifier 2; the response to the first - channel 80 - makes the second call
    succeed: its caller has the channel of the other PSM. *)
Definition mix : list act := [ACall (KOpen 37); ACall (KOpen 39)] ++ st 0 3 ++ st 1 3 ++ st 0 4 ++ st 1 4 ++ [AWrite 0 true; granted 2 80] ++ [AWrite 1 true] ++ st 1 4 ++ [ATimeout 0] ++ st 0 1.
Theorem C192_mixed_refuted : exists s, runs mix s /\ s_log s = [(Some 0%nat, open_request 2 37 64); (Some 1%nat, open_request 2 39 65)] /\
  (* the peer had the first request only when it sent its response *) (exists l1 l2 s1, mix = l1 ++ granted 2 80 :: l2 /\ runs l1 s1 /\ s_log s1 = [(Some 0%nat, open_request 2 37 64)]) /\
  opens s 0 37 64 /\ returned s 0 None /\ opens s 1 39 65 /\ returned s 1 (Some 80).
Proof.
  eexists. split; [vm_compute; reflexivity|]. split; [vm_compute; reflexivity|].
  split; [exists ([ACall (KOpen 37); ACall (KOpen 39)] ++ st 0 3 ++ st 1 3 ++ st 0 4 ++ st 1 4 ++ [AWrite 0 true]), ([AWrite 1 true] ++ st 1 4 ++ [ATimeout 0] ++ st 0 1); eexists; split; [reflexivity|]; split; vm_compute; reflexivity|].
  split; [eexists; split; [vm_compute; reflexivity|split; reflexivity]|]. split; [eexists; split; vm_compute; reflexivity|]. split; [eexists; split; [vm_compute; reflexivity|split; reflexivity]|]. eexists; split; vm_compute; reflexivity.
Qed.
Print Assumptions C192_mixed_refuted.
(** Two calls with different identifiers, both answered correctly in time: both fail, and the second response is rejected. *)
Definition rej : list act := [ACall (KOpen 37); ACall (KOpen 39)] ++ st 0 6 ++ st 1 3 ++ st 0 1 ++ [AWrite 0 true] ++ st 1 4 ++ [AWrite 1 true; granted 1 80] ++ st 0 3 ++ [granted 2 81; ATimeout 1] ++ st 1 1.
Theorem C192_rejected_refuted : exists s, runs rej s /\ s_log s = [(Some 0%nat, open_request 1 37 64); (Some 1%nat, open_request 2 39 65); (None, [4; 0; 5; 0; 1; 2; 0; 0])] /\
  returned s 0 None /\ returned s 1 None /\ s_lut s = [].
Proof. eexists. split; [vm_compute; reflexivity|]. split; [vm_compute; reflexivity|]. split; [eexists; split; vm_compute; reflexivity|]. split; [eexists; split; vm_compute; reflexivity|reflexivity]. Qed.
Print Assumptions C192_rejected_refuted.
(** After 254 requests, two at the same time: one of them has the identifier 0, which is not allowed. *)
Definition credit_sent (t : nat) : list act := ACall (KSig (SCredit 64 1)) :: st t 4 ++ [AWrite t true].
Definition zero : list act := flat_map credit_sent (seq 0 254) ++ [ACall (KSig (SCredit 64 1)); ACall (KSig (SCredit 64 1))] ++ st 254 3 ++ st 255 2 ++ [AStep 254; AWrite 254 true].
Theorem C192_identifier_zero_refuted : exists s p, runs zero s /\ In (Some 254%nat, p) (s_log s) /\ nth 5 p 1 = 0.
Proof. eexists. eexists. split; [vm_compute; reflexivity|]. split; [apply (nth_error_In _ 254); reflexivity|reflexivity]. Qed.
Print Assumptions C192_identifier_zero_refuted.
