(** Proofs for C184: what calls return. *)
Require Import Verif.Base Verif.M_cmd Verif.S_gap Verif.M_gap Verif.M_gapconc Verif.S_gapconc Verif.P_gapconc.

Lemma some_inj : forall {A} (a b : A), Some a = Some b -> a = b. Proof. intros A a b H. now injection H. Qed.
Definition forgiving (k : call) (c : command) (r : bool) : Prop := r = true <-> (c = CAdData \/ c = CSrData) /\ exists ad sr, k = KAdv ad sr.
Definition iok (k : call) (i : instr) : Prop := match i with ICmd c r => forgiving k c r | _ => True end.
Definition pok (k : call) (p : phase) : Prop := match p with Locked c r | Marsh c r _ | Written c r _ => forgiving k c r | _ => True end.
Definition tok (th : thread) : Prop := Forall (iok (t_call th)) (t_todo th) /\ pok (t_call th) (t_ph th).
Definition long_payload (k : call) : Prop := match k with KAdv ad sr | KRaw ad sr _ => (31 < length ad)%nat \/ (31 < length sr)%nat | _ => False end.
Definition silent (th : thread) : Prop := long_payload (t_call th) ->
  Forall (fun i => match i with ICmd _ _ => False | IRet r => r = true -> exists ad sr, t_call th = KAdv ad sr | _ => True end) (t_todo th) /\
  match t_ph th with Run => t_todo th <> [] /\ last (t_todo th) (IRet true) = IRet (match t_call th with KAdv _ _ => true | _ => false end) | Ended r => r = true -> exists ad sr, t_call th = KAdv ad sr | _ => False end.

Lemma prog_iok : forall k, Forall (iok k) (prog k).
Proof.
  intros [ad sr|ad sr p| |dup| |a rnd|]; cbn [prog]; try destruct (too_long ad sr); try destruct dup; try destruct (Nat.eqb (length a) 6); unfold p_set, p_advertise; cbn [app];
    repeat (apply Forall_cons; [cbn [iok forgiving]; unfold forgiving; try exact Logic.I; (split; [intro H; try discriminate H; (split; [auto|eauto])|intros [[H|H] (a0 & b0 & K)]; try discriminate H; try discriminate K; reflexivity])|]); apply Forall_nil.
Qed.
Lemma long_too : forall ad sr, (31 < length ad)%nat \/ (31 < length sr)%nat -> too_long ad sr = true.
Proof. intros ad sr H. unfold too_long. apply Bool.orb_true_iff. destruct H; [left|right]; apply Nat.ltb_lt; lia. Qed.
Lemma prog_silent : forall k, silent (mkT k (prog k) Run).
Proof.
  intros k L. cbn [t_call t_todo t_ph] in *. destruct k as [ad sr|ad sr p| |dup| |a rnd|]; cbn [long_payload] in L; try contradiction; cbn [prog]; rewrite (long_too ad sr L).
  - split; [|split; [discriminate|reflexivity]]. constructor; [|constructor]. intros _. eauto.
  - split; [|split; [discriminate|reflexivity]]. constructor; [exact Logic.I|]. constructor; [discriminate|constructor].
Qed.
Definition allt (s : gst) : Prop := forall t th, nth_error (g_thr s) t = Some th -> tok th /\ silent th.
Lemma allt_upd : forall s s' t th0 th, allt s -> nth_error (g_thr s) t = Some th0 -> g_thr s' = upd (g_thr s) t th -> tok th -> silent th -> allt s'.
Proof. intros s s' t th0 th A N T K1 K2 t' th' N'. rewrite T, (upd_get _ _ _ _ _ N) in N'. destruct (Nat.eqb t t'); [injection N' as <-; now split|exact (A _ _ N')]. Qed.
Lemma allt_app : forall s s' k, allt s -> g_thr s' = g_thr s ++ [mkT k (prog k) Run] -> allt s'.
Proof.
  intros s s' k A T t th N. rewrite T in N. destruct (Nat.lt_ge_cases t (length (g_thr s))) as [L|L].
  - rewrite nth_error_app1 in N by exact L. exact (A _ _ N).
  - rewrite nth_error_app2 in N by exact L. destruct (t - length (g_thr s))%nat as [|m]; [|destruct m; discriminate N]. injection N as <-.
    split; [split; [apply prog_iok|exact Logic.I]|apply prog_silent].
Qed.
Lemma allt_step : forall s a s', allt s -> exec s a = Some s' -> allt s'.
Proof.
  intros s a s' A E. destruct a as [k| |t|t acc|t|t|t]; cbn [exec] in E.
  - assert (E' : exists k', g_thr s' = g_thr s ++ [mkT k' (prog k') Run]). { exists k. destruct k; try discriminate E; injection E as <-; reflexivity. } destruct E' as [k' E']. exact (allt_app _ _ _ A E').
  - destruct (h_enable (g_host s) =? 1); apply some_inj in E; subst s'; [|exact A]. refine (allt_app s _ KReenable A _). reflexivity.
  - destruct (nth_error (g_thr s) t) as [[k todo ph]|] eqn:N; [|discriminate E]. destruct (A _ _ N) as [[F P] S]. cbn [t_call t_todo t_ph] in *.
    destruct ph as [|c r|c r b|c r acc|ok]; try discriminate E.
    + destruct todo as [|[x|c r|r] rest].
      * apply some_inj in E. subst s'. eapply (allt_upd _ _ _ _ _ A N); [reflexivity|split; [constructor|exact Logic.I]|]. intro L. destruct (S L) as (_ & Q & _). now elim Q.
      * apply some_inj in E. subst s'. apply Forall_cons_iff in F. destruct F as [_ F]. eapply (allt_upd _ _ _ _ _ A N); [reflexivity|split; [exact F|exact Logic.I]|].
        intro L. destruct (S L) as (Q & _ & W). cbn [t_call t_todo t_ph] in *. apply Forall_cons_iff in Q. destruct Q as [_ Q]. split; [exact Q|].
        destruct rest as [|i rest]; [discriminate W|]. split; [discriminate|]. exact W.
      * destruct (g_lock s (opcode c)); [discriminate E|]. apply some_inj in E. subst s'. apply Forall_cons_iff in F. destruct F as [F1 F].
        eapply (allt_upd _ _ _ _ _ A N); [reflexivity|split; [exact F|exact F1]|]. intro L. destruct (S L) as (Q & _). apply Forall_cons_iff in Q. destruct Q as [Q _]. contradiction.
      * apply some_inj in E. subst s'. eapply (allt_upd _ _ _ _ _ A N); [reflexivity|split; [constructor|exact Logic.I]|]. intro L. destruct (S L) as (Q & _). apply Forall_cons_iff in Q. destruct Q as [Q _]. split; [constructor|exact Q].
    + destruct (marshalled c (g_host s)); [|discriminate E]. apply some_inj in E. subst s'. eapply (allt_upd _ _ _ _ _ A N); [reflexivity|split; [exact F|exact P]|]. intro L. destruct (S L) as (_ & Q). contradiction.
  - destruct (nth_error (g_thr s) t) as [[k todo ph]|] eqn:N; [|discriminate E]. destruct (A _ _ N) as [[F P] S]. cbn [t_call t_todo t_ph] in *. destruct ph as [|c r|c r b|c r acc'|ok]; try discriminate E.
    apply some_inj in E. subst s'. eapply (allt_upd _ _ _ _ _ A N); [reflexivity|split; [exact F|exact P]|]. intro L. destruct (S L) as (_ & Q). contradiction.
  - destruct (nth_error (g_thr s) t) as [[k todo ph]|] eqn:N; [|discriminate E]. destruct (A _ _ N) as [[F P] S]. cbn [t_call t_todo t_ph] in *. destruct ph as [|c r|c r b|c r acc'|ok]; try discriminate E.
    apply some_inj in E. subst s'. eapply (allt_upd _ _ _ _ _ A N); [reflexivity|split; [constructor|exact Logic.I]|]. intro L. destruct (S L) as (_ & Q). contradiction.
  - destruct (nth_error (g_thr s) t) as [[k todo ph]|] eqn:N; [|discriminate E]. destruct (A _ _ N) as [[F P] S]. cbn [t_call t_todo t_ph] in *. destruct ph as [|c r|c r b|c r acc'|ok]; try discriminate E.
    apply some_inj in E. subst s'. eapply (allt_upd _ _ _ _ _ A N); [reflexivity|destruct acc'; split; try exact F; try exact Logic.I; constructor|]. destruct acc'; intro L; destruct (S L) as (_ & Q); contradiction.
  - destruct (nth_error (g_thr s) t) as [[k todo ph]|] eqn:N; [|discriminate E]. destruct (A _ _ N) as [[F P] S]. cbn [t_call t_todo t_ph] in *. destruct ph as [|c r|c r b|c r acc'|ok]; try discriminate E.
    apply some_inj in E. subst s'. eapply (allt_upd _ _ _ _ _ A N); [reflexivity|split; [constructor|exact Logic.I]|]. intro L. destruct (S L) as (_ & Q). contradiction.
Qed.
Lemma runs_allt : forall h l s, runs h l s -> allt s.
Proof.
  intros h l s R. unfold runs in R. assert (A0 : allt (g0 h)) by (intros [|t] th N; discriminate N). revert A0 R. generalize (g0 h). induction l as [|a l IH]; intros s0 A0 R; cbn [exec_all] in R.
  - injection R as <-. exact A0.
  - destruct (exec s0 a) as [s1|] eqn:E; [|discriminate R]. exact (IH _ (allt_step _ _ _ A0 E) R).
Qed.
Lemma call_kept : forall a s s' t th, exec s a = Some s' -> nth_error (g_thr s) t = Some th -> exists th', nth_error (g_thr s') t = Some th' /\ t_call th' = t_call th.
Proof.
  assert (G : forall s s' t t1 th0 th1 th, g_thr s' = upd (g_thr s) t th1 -> nth_error (g_thr s) t = Some th0 -> t_call th1 = t_call th0 -> nth_error (g_thr s) t1 = Some th -> exists th', nth_error (g_thr s') t1 = Some th' /\ t_call th' = t_call th).
  { intros s s' t t1 th0 th1 th T N0 C N. rewrite T, (upd_get _ _ _ _ _ N0). destruct (Nat.eqb t t1) eqn:Q; [apply Nat.eqb_eq in Q; subst t1; exists th1; split; [reflexivity|congruence]|]. exists th. now split. }
  assert (G2 : forall s s' k t1 th, g_thr s' = g_thr s ++ [mkT k (prog k) Run] -> nth_error (g_thr s) t1 = Some th -> exists th', nth_error (g_thr s') t1 = Some th' /\ t_call th' = t_call th).
  { intros s s' k t1 th T N. exists th. split; [|reflexivity]. rewrite T, nth_error_app1; [exact N|]. apply nth_error_Some. congruence. }
  intros a s s' t1 th E N1. destruct a as [k| |t|t acc|t|t|t]; cbn [exec] in E.
  - assert (E' : exists k', g_thr s' = g_thr s ++ [mkT k' (prog k') Run]). { exists k. destruct k; try discriminate E; injection E as <-; reflexivity. } destruct E' as [k' E']. exact (G2 _ _ _ _ _ E' N1).
  - destruct (h_enable (g_host s) =? 1); apply some_inj in E; subst s'; [|eauto]. refine (G2 s _ KReenable t1 th _ N1). reflexivity.
  - destruct (nth_error (g_thr s) t) as [[k todo ph]|] eqn:N; [|discriminate E]. cbn [t_call t_todo t_ph] in *.
    destruct ph as [|c r|c r b|c r acc|ok]; try discriminate E.
    + destruct todo as [|[x|c r|r] rest]; [| |destruct (g_lock s (opcode c)); [discriminate E|]|]; apply some_inj in E; subst s'; (eapply G; [reflexivity|exact N|reflexivity|exact N1]).
    + destruct (marshalled c (g_host s)); [|discriminate E]. apply some_inj in E. subst s'. eapply G; [reflexivity|exact N|reflexivity|exact N1].
  - destruct (nth_error (g_thr s) t) as [[k todo ph]|] eqn:N; [|discriminate E]. destruct ph as [|c r|c r b|c r acc'|ok]; try discriminate E. apply some_inj in E. subst s'. eapply G; [reflexivity|exact N|reflexivity|exact N1].
  - destruct (nth_error (g_thr s) t) as [[k todo ph]|] eqn:N; [|discriminate E]. destruct ph as [|c r|c r b|c r acc'|ok]; try discriminate E. apply some_inj in E. subst s'. eapply G; [reflexivity|exact N|reflexivity|exact N1].
  - destruct (nth_error (g_thr s) t) as [[k todo ph]|] eqn:N; [|discriminate E]. destruct ph as [|c r|c r b|c r acc'|ok]; try discriminate E. apply some_inj in E. subst s'. eapply G; [reflexivity|exact N|destruct acc'; reflexivity|exact N1].
  - destruct (nth_error (g_thr s) t) as [[k todo ph]|] eqn:N; [|discriminate E]. destruct ph as [|c r|c r b|c r acc'|ok]; try discriminate E. apply some_inj in E. subst s'. eapply G; [reflexivity|exact N|reflexivity|exact N1].
Qed.
Lemma calls_kept : forall l s s' t th, exec_all s l = Some s' -> nth_error (g_thr s) t = Some th -> exists th', nth_error (g_thr s') t = Some th' /\ t_call th' = t_call th.
Proof.
  induction l as [|a l IH]; intros s s' t th E N; cbn [exec_all] in E; [injection E as <-; eauto|].
  destruct (exec s a) as [s1|] eqn:E1; [|discriminate E]. destruct (call_kept _ _ _ _ _ E1 N) as (th1 & N1 & C1). destruct (IH _ _ _ _ E N1) as (th2 & N2 & C2). exists th2. split; [exact N2|congruence].
Qed.
