(** More proofs for C39: an event reaches the call that waits for it. *)
Require Import Verif.Base Verif.M_hcicmd Verif.S_hcicmd Verif.P_hcicmd Verif.P_hcicmd2.

Definition noted (p : phase) : bool := match p with PReg | PWait | PEnd _ => true | _ => false end.
Lemma noted_holds : forall p, noted p = true -> holds p = true.
Proof. intros []; cbn; congruence. Qed.
Lemma runs_noted : forall l s, runs l s -> lp s = LStopped \/ forall t op p, thr s t = Some (mkT op p) -> noted p = true -> snt s (key op) = Some t.
Proof.
  apply runs_ind; [right; cbn; discriminate|]. intros l s a s' R IH E. pose proof (runs_inv _ _ R) as I.
  assert (EX : forall t op p t' op' p', thr s t = Some (mkT op p) -> holds p = true -> thr s t' = Some (mkT op' p') -> holds p' = true -> key op = key op' -> t = t').
  { intros t op p t' op' p' A B C D K. pose proof (i_lock _ I _ _ _ A B) as X. pose proof (i_lock _ I _ _ _ C D) as Y. congruence. }
  destruct a; cbn [exec] in E;
    repeat match type of E with context [match ?x with _ => _ end] => let Q := fresh "Q" in destruct x eqn:Q; try discriminate E end; injection E as <-; cbn [lp thr snt];
    try (destruct IH as [IH|IH]; [left; first [exact IH|congruence]|first [left; reflexivity|right]]);
    try exact IH;
    try (intros t1 op1 p1 T1 N1; unfold setn in T1; destruct (Nat.eqb_spec t1 t) as [->|NE]; [injection T1 as <- <-; try discriminate N1|]).
  all: try (now apply (IH _ _ _ T1)).
  all: try (eapply IH; [eassumption|reflexivity]).
  - unfold setz. now rewrite Z.eqb_refl.
  - unfold setz. destruct (Z.eqb_spec (key op1) (key t_op)) as [K|K]; [|apply (IH _ _ _ T1 N1)]. elim NE. apply (EX t1 op1 p1 t t_op PBuf T1 (noted_holds _ N1) Q eq_refl K).
  - intros t9 op9 p9 T9 N9. unfold setn in T9. destruct (Nat.eqb_spec t9 t) as [->|NE9]; [injection T9 as <- <-; eapply IH; [eassumption|reflexivity]|apply (IH _ _ _ T9 N9)].
  - unfold setz. destruct (Z.eqb_spec (key op1) (key t_op)) as [K|K]; [|apply (IH _ _ _ T1 N1)]. elim NE. apply (EX t1 op1 p1 t t_op (PEnd r) T1 (noted_holds _ N1) Q eq_refl K).
Qed.
Lemma event_reaches : forall l s t op c p d s1, runs l s -> thr s t = Some (mkT op PWait) -> completes (AEvt c p) = Some (key op, d) -> exec s (AEvt c p) = Some s1 ->
  exists s2, exec s1 (ADeliver t) = Some s2 /\ thr s2 t = Some (mkT op (PEnd (COk d))) /\ lp s2 = LIdle.
Proof.
  intros l s t op c p d s1 R T C E. cbn [exec completes] in *. destruct (lp s) eqn:L; try discriminate E. destruct (evt_effect c p) as [n k]. cbn [snd] in C. subst k. injection E as <-.
  destruct (runs_noted _ _ R) as [X|X]; [congruence|]. rewrite (X _ _ _ T eq_refl). cbn [thr lp]. rewrite T, Nat.eqb_refl. eexists. split; [reflexivity|]. cbn [thr lp]. split; [|reflexivity]. unfold setn. now rewrite Nat.eqb_refl.
Qed.
