(** The application's calls: what each put on the air and how it ended. *)
Require Import Verif.Base Verif.M_attdb Verif.M_attsrv Verif.M_srvloop Verif.S_srvloop Verif.P_srvloop Verif.P_srvloop2 Verif.P_srvloop3 Verif.P_srvloop4 Verif.P_srvloop5.

Definition phase_fits (k : nat) (c : caller) (t : list vis) : Prop :=
  match c_ph c with
  | CNew | CBuf _ => writes k t = [] /\ returned k t = [] /\ confirmed k t = 0%nat
  | CSent _ | CWait _ => c_ind c = true /\ (exists p, writes k t = [(p, true)] /\ carries (c_ind c) (c_vh c) (c_data c) p) /\ returned k t = [] /\ confirmed k t = 0%nat
  | CRet r => exists p ok, writes k t = [(p, ok)] /\ carries (c_ind c) (c_vh c) (c_data c) p /\ returned k t = [r] /\ result_fits (c_ind c) r ok (confirmed k t)
  end.
Record cinv (l : list act) (s : ls) (t : list vis) : Prop := mkCI {
  c_count : calls_made l = length (callers s);
  c_fits : forall k c, nth_error (callers s) k = Some c -> phase_fits k c t;
  c_none : forall k, (length (callers s) <= k)%nat -> writes k t = [] /\ returned k t = [] /\ confirmed k t = 0%nat }.
Lemma writes_app : forall k a b, writes k (a ++ b) = writes k a ++ writes k b.
Proof. intros. apply flat_map_app. Qed.
Lemma returned_app : forall k a b, returned k (a ++ b) = returned k a ++ returned k b.
Proof. intros. apply flat_map_app. Qed.
Lemma confirmed_app : forall k a b, confirmed k (a ++ b) = (confirmed k a + confirmed k b)%nat.
Proof. intros. unfold confirmed. now rewrite filter_app, app_length. Qed.
Lemma calls_made_snoc : forall l a, calls_made (l ++ [a]) = (calls_made l + match a with ACall _ _ => 1 | _ => 0 end)%nat.
Proof. intros. unfold calls_made. rewrite filter_app, app_length. destruct a; reflexivity. Qed.
(** a step that shows nothing of call k *)
Definition silent (k : nat) (v : list vis) : Prop := writes k v = [] /\ returned k v = [] /\ confirmed k v = 0%nat.
Lemma silent_fits : forall k c t v, silent k v -> phase_fits k c t -> phase_fits k c (t ++ v).
Proof. intros k c t v (A & B & C) H. unfold phase_fits in *. rewrite writes_app, returned_app, confirmed_app, A, B, C, !app_nil_r, Nat.add_0_r. exact H. Qed.
Lemma silent_none : forall k t v, silent k v -> writes k t = [] /\ returned k t = [] /\ confirmed k t = 0%nat -> writes k (t ++ v) = [] /\ returned k (t ++ v) = [] /\ confirmed k (t ++ v) = 0%nat.
Proof. intros k t v (A & B & C) (D & E & F). rewrite writes_app, returned_app, confirmed_app, A, B, C, D, E, F. auto. Qed.
Lemma cinv_same : forall l s t a s' v, cinv l s t -> callers s' = callers s -> (match a with ACall _ _ => False | _ => True end) -> (forall k, silent k v) -> cinv (l ++ [a]) s' (t ++ v).
Proof.
  intros l s t a s' v [C F N] E NA S. constructor; rewrite ?E.
  - rewrite calls_made_snoc, C. destruct a; try contradiction; lia.
  - intros k c K. apply silent_fits; [apply S|now apply F].
  - intros k K. apply silent_none; [apply S|now apply N].
Qed.
Lemma cinv_one : forall l s t a s' v j c p, cinv l s t -> nth_error (callers s) j = Some c -> callers s' = upd (callers s) j (set_ph p c) -> (match a with ACall _ _ => False | _ => True end) ->
  (forall k, k <> j -> silent k v) -> phase_fits j (set_ph p c) (t ++ v) -> cinv (l ++ [a]) s' (t ++ v).
Proof.
  intros l s t a s' v j c p [C F N] J E NA S P. assert (JL : (j < length (callers s))%nat) by (apply nth_error_Some; congruence). constructor; rewrite ?E, ?upd_length.
  - rewrite calls_made_snoc, C. destruct a; try contradiction; lia.
  - intros k x K. rewrite nth_error_upd in K. destruct (Nat.eqb j k) eqn:Q.
    + apply Nat.eqb_eq in Q. subst k. apply Nat.ltb_lt in JL. rewrite JL in K. injection K as <-. exact P.
    + apply Nat.eqb_neq in Q. apply silent_fits; [apply S; auto|now apply F].
  - intros k K. apply silent_none; [apply S; lia|now apply N].
Qed.
Lemma silent_write : forall k j p ok, k <> j -> silent k [VWrite (SCall j) p ok].
Proof. intros k j p ok N. unfold silent. cbn. assert (Q : Nat.eqb j k = false) by (apply Nat.eqb_neq; auto). now rewrite Q. Qed.
Lemma silent_ret : forall k j r, k <> j -> silent k [VRet j r].
Proof. intros k j r N. unfold silent. cbn. assert (Q : Nat.eqb j k = false) by (apply Nat.eqb_neq; auto). now rewrite Q. Qed.
Lemma silent_write_ret : forall k j p ok r, k <> j -> silent k [VWrite (SCall j) p ok; VRet j r].
Proof. intros k j p ok r N. unfold silent. cbn. assert (Q : Nat.eqb j k = false) by (apply Nat.eqb_neq; auto). now rewrite Q. Qed.
Lemma silent_conf_ret : forall k j r, k <> j -> silent k [VConf (Some j); VRet j r].
Proof. intros k j r N. unfold silent. cbn. assert (Q : Nat.eqb j k = false) by (apply Nat.eqb_neq; auto). now rewrite Q. Qed.
Lemma notify_carries : forall (ind : bool) n vh data p, (23 <= n)%nat -> notify_pdu (if ind then 29 else 27) n vh data = Ret p -> carries ind vh data p.
Proof. intros ind n vh data p N H. unfold notify_pdu in H. destruct (Nat.ltb n 3); [discriminate|]. injection H as <-. exists (n - 3)%nat. split; [lia|reflexivity]. Qed.
Lemma cinv_step : forall l s t a s' v, kinv s -> cinv l s t -> lstep s a = Some (s', v) -> cinv (l ++ [a]) s' (t ++ v).
Proof.
  intros l s t a s' v K I ST. apply lstep_cases in ST. destruct ST as [NP [H|H]].
  - apply (cinv_same l s); [exact I|destruct H; reflexivity|destruct H; exact Logic.I|]. intro k. destruct H; repeat split; reflexivity.
  - destruct H.
    + destruct I as [C F N]. constructor; cbn [set_callers callers]; rewrite ?app_length, ?app_nil_r; cbn [length].
      * rewrite calls_made_snoc, C. reflexivity.
      * intros k c J. destruct (Nat.lt_ge_cases k (length (callers s))) as [L|L].
        { rewrite nth_error_app1 in J by exact L. now apply F. }
        { rewrite nth_error_app2 in J by exact L. destruct (k - length (callers s))%nat as [|m]; cbn in J; [|destruct m; discriminate]. injection J as <-. unfold phase_fits. cbn [c_ph]. now apply N. }
      * intros k L. apply N. lia.
    + pose proof (c_fits _ _ _ I _ _ H0) as P. unfold phase_fits in P. rewrite H1 in P. destruct P as (PI & (p & PW & PC) & PR & PF).
      apply (cinv_one l s t _ _ _ j c (CRet COk) I H0); [cbn [set_rd callers]; eapply give_back_callers; eauto|exact Logic.I|intros; now apply silent_conf_ret|].
      unfold phase_fits. cbn [set_ph c_ph c_ind c_vh c_data]. exists p, true. rewrite writes_app, returned_app, confirmed_app, PW, PR, PF. cbn. rewrite Nat.eqb_refl. cbn. rewrite PI in *. auto.
    + apply (cinv_same l s); [exact I|reflexivity|exact Logic.I|]. intro j. repeat split; reflexivity.
    + pose proof (c_fits _ _ _ I _ _ H) as P. unfold phase_fits in P. rewrite H0 in P.
      destruct (set_cbuf_fields c None s) as (B1 & B2 & B3 & B4 & B5 & B6 & B7 & B8). assert (N : nth_error (callers (set_cbuf c None s)) k = Some c) by (rewrite B8; exact H).
      apply (cinv_one l s t _ _ _ k c (CBuf n) I H); [rewrite (upd_caller_callers k (CBuf n) _ _ N), B8; reflexivity|exact Logic.I|intros j _; repeat split; reflexivity|].
      unfold phase_fits. cbn [set_ph c_ph]. rewrite app_nil_r. exact P.
    + pose proof (c_fits _ _ _ I _ _ H) as P. unfold phase_fits in P. rewrite H0 in P. destruct P as (PW & PR & PF).
      pose proof (Forall_nth _ _ _ _ (k_big s K) H) as B. cbn beta in B. rewrite H0 in B.
      apply (cinv_one l s t _ _ _ k c (CSent n) I H); [now apply upd_caller_callers|exact Logic.I|intros; now apply silent_write|].
      unfold phase_fits. cbn [set_ph c_ph c_ind c_vh c_data]. rewrite writes_app, returned_app, confirmed_app, PW, PR, PF. cbn. rewrite Nat.eqb_refl. cbn. split; [exact H1|]. split; [|auto]. exists p. split; [reflexivity|].
      rewrite H1. apply (notify_carries true n); [exact B|exact H2].
    + pose proof (c_fits _ _ _ I _ _ H) as P. unfold phase_fits in P. rewrite H0 in P. destruct P as (PW & PR & PF).
      pose proof (Forall_nth _ _ _ _ (k_big s K) H) as B. cbn beta in B. rewrite H0 in B.
      apply (cinv_one l s t _ _ _ k c (CRet (if ok then COk else CErrWrite)) I H); [eapply give_back_callers; eauto|exact Logic.I|intros; now apply silent_write_ret|].
      unfold phase_fits. cbn [set_ph c_ph c_ind c_vh c_data]. rewrite writes_app, returned_app, confirmed_app, PW, PR, PF. cbn. rewrite Nat.eqb_refl. cbn. exists p, ok. split; [reflexivity|]. split; [now apply (notify_carries _ n)|]. split; [reflexivity|].
      destruct ok; cbn [andb] in H1; cbn; [rewrite H1|]; auto.
    + pose proof (c_fits _ _ _ I _ _ H) as P. unfold phase_fits in P. rewrite H0 in P.
      apply (cinv_one l s t _ _ _ k c (CWait n) I H); [now apply upd_caller_callers|exact Logic.I|intros j _; repeat split; reflexivity|].
      unfold phase_fits. cbn [set_ph c_ph c_ind c_vh c_data]. rewrite app_nil_r. exact P.
    + pose proof (c_fits _ _ _ I _ _ H) as P. unfold phase_fits in P. rewrite H0 in P. destruct P as (PI & (p & PW & PC) & PR & PF).
      apply (cinv_one l s t _ _ _ k c (CRet CErrTimeout) I H); [eapply give_back_callers; eauto|exact Logic.I|intros; now apply silent_ret|].
      unfold phase_fits. cbn [set_ph c_ph c_ind c_vh c_data]. exists p, true. rewrite writes_app, returned_app, confirmed_app, PW, PR, PF. cbn. rewrite Nat.eqb_refl. cbn. split; [reflexivity|]. split; [exact PC|]. split; [reflexivity|]. cbn. auto.
    + pose proof (c_fits _ _ _ I _ _ H) as P. unfold phase_fits in P. rewrite H0 in P. destruct P as (PI & (p & PW & PC) & PR & PF).
      apply (cinv_one l s t _ _ _ k c (CRet CErrClosed) I H); [eapply give_back_callers; eauto|exact Logic.I|intros; now apply silent_ret|].
      unfold phase_fits. cbn [set_ph c_ph c_ind c_vh c_data]. exists p, true. rewrite writes_app, returned_app, confirmed_app, PW, PR, PF. cbn. rewrite Nat.eqb_refl. cbn. split; [reflexivity|]. split; [exact PC|]. split; [reflexivity|]. cbn. auto.
    + apply (cinv_same l s); [exact I|reflexivity|exact Logic.I|]. intro j. repeat split; reflexivity.
Qed.
Lemma cinv_run : forall d rx tx s0 l s t, new_server d rx tx = Some s0 -> lrun (linit s0) l s t -> cinv l s t.
Proof.
  intros d rx tx s0 l s t N H. remember (linit s0) as i eqn:E. induction H as [|s l s1 t a s2 v R IH ST]; subst.
  - constructor; [reflexivity| |auto]. intros k c K. destruct k; discriminate.
  - apply (cinv_step l s1); auto. eapply kinv_run; eauto.
Qed.
