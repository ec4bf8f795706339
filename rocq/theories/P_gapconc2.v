(** Proofs for C184: no deadlock, few steps. *)
Require Import Verif.Base Verif.M_cmd Verif.P_cmd Verif.M_adv Verif.S_gap Verif.P_gap Verif.P_gap3 Verif.M_gap Verif.M_gapconc Verif.S_gapconc Verif.P_gapconc.

Definition set_ok (x : setting) : Prop :=
  match x with SAdvParams p => struct_value adv_fields p | SPeer b => length b = 6%nat /\ all_bytes b | SPeerType z => 0 <= z < 256 | _ => True end.
Lemma gcopy_len : forall arr d, length (gcopy arr d) = length arr.
Proof. intros arr d. unfold gcopy. rewrite app_length, skipn_length, firstn_length. lia. Qed.
Lemma assign_fine : forall x h, set_ok x -> fineh h -> fineh (assign x h).
Proof.
  intros x h K (L1 & L2 & V1 & V2). destruct x; cbn [assign set_ok] in *; unfold fineh; cbn [with_enable with_ad with_sr with_scan with_connp with_advp h_ad h_sr h_advp h_connp snd]; rewrite ?gcopy_len;
    (split; [assumption|split; [assumption|split; [assumption|]]]); try assumption.
  - unfold struct_value, conn_fields in *. repeat (apply Forall_cons_iff in V2; let V := fresh "V" in destruct V2 as [V V2]). cbn [fst snd] in *.
    repeat (apply Forall_cons; [cbn [fst snd]; first [assumption|idtac]|]); try apply Forall_nil.
  - unfold struct_value, conn_fields in *. repeat (apply Forall_cons_iff in V2; let V := fresh "V" in destruct V2 as [V V2]). cbn [fst snd] in *.
    repeat (apply Forall_cons; [cbn [fst snd]; first [assumption|idtac]|]); try apply Forall_nil.
Qed.
Lemma marsh_fine : forall c h, fineh h -> exists b, marshalled c h = Ret b.
Proof.
  intros c h (L1 & L2 & V1 & V2). unfold marshalled. destruct c; cbn [name_of struct_of].
  - rewrite (pk_advp _ V1). eauto.
  - rewrite pk_enable. eauto.
  - destruct (h_ad h) as [l a]. rewrite pk_ad by exact L1. eauto.
  - destruct (h_sr h) as [l a]. rewrite pk_sr by exact L2. eauto.
  - rewrite pk_scan. eauto.
  - rewrite (pk_create _ V2). eauto.
Qed.
Definition todo_ok (l : list instr) : Prop := forall x, In (ISet x) l -> set_ok x.
Lemma prog_set_ok : forall k, kcall_ok k -> todo_ok (prog k).
Proof.
  intros k K x IN. destruct k as [ad sr|ad sr p| |dup| |a rnd|]; cbn [prog kcall_ok] in *.
  - destruct (too_long ad sr); unfold p_set, p_advertise in IN; cbn [app In] in IN; repeat (destruct IN as [IN|IN]; [try discriminate IN; injection IN as <-; exact I|]); contradiction.
  - destruct IN as [IN|IN]; [injection IN as <-; exact K|].
    destruct (too_long ad sr); unfold p_set, p_advertise in IN; cbn [app In] in IN; repeat (destruct IN as [IN|IN]; [try discriminate IN; injection IN as <-; exact I|]); contradiction.
  - cbn [In] in IN. repeat (destruct IN as [IN|IN]; [try discriminate IN; injection IN as <-; exact I|]); contradiction.
  - destruct dup; cbn [app In] in IN; repeat (destruct IN as [IN|IN]; [try discriminate IN; injection IN as <-; exact I|]); contradiction.
  - cbn [In] in IN. repeat (destruct IN as [IN|IN]; [try discriminate IN; injection IN as <-; exact I|]); contradiction.
  - destruct (Nat.eqb_spec (length a) 6); cbn [In] in IN.
    + destruct IN as [IN|[IN|[IN|[]]]]; [injection IN as <-|injection IN as <-|discriminate IN]; cbn [set_ok]; [destruct rnd; lia|]. split; [rewrite rev_length; assumption|]. apply Forall_rev. exact K.
    + destruct IN as [IN|[]]. discriminate IN.
  - cbn [In] in IN. destruct IN as [IN|[]]. discriminate IN.
Qed.
Record inv2 (s : gst) : Prop := mkInv2 {
  j_host : fineh (g_host s);
  j_todo : forall t th, nth_error (g_thr s) t = Some th -> todo_ok (t_todo th);
  j_lock : forall op t, g_lock s op = Some t -> exists th c, nth_error (g_thr s) t = Some th /\ holds (t_ph th) = Some c /\ opcode c = op }.
Lemma inv2_0 : forall h, fineh h -> inv2 (g0 h).
Proof. intros h F. split; [exact F| |]; [intros [] th H; discriminate H|intros op t H; discriminate H]. Qed.
Lemma spawn_inv2 : forall s k, kcall_ok k -> inv2 s -> inv2 (mkG (g_host s) (g_thr s ++ [mkT k (prog k) Run]) (g_lock s) (g_log s) (g_hist s)).
Proof.
  intros s k K I. split; cbn [g_host g_thr g_lock g_log g_hist].
  - apply (j_host _ I).
  - intros t th N. destruct (Nat.ltb t (length (g_thr s))) eqn:E; [apply Nat.ltb_lt in E; rewrite nth_error_app1 in N by exact E; apply (j_todo _ I _ _ N)|apply Nat.ltb_ge in E; rewrite nth_error_app2 in N by exact E].
    destruct (t - length (g_thr s))%nat as [|[|]]; [injection N as <-; cbn [t_todo]; now apply prog_set_ok|discriminate N|discriminate N].
  - intros op t L. destruct (j_lock _ I _ _ L) as (th & c & N & H & O). exists th, c. split; [|now split]. rewrite nth_error_app1; [exact N|]. apply nth_error_Some. congruence.
Qed.
(** One thread changes, and the lock with it. *)
Lemma upd_inv2 : forall s s' t th0 th, inv2 s -> nth_error (g_thr s) t = Some th0 -> g_thr s' = upd (g_thr s) t th -> fineh (g_host s') -> todo_ok (t_todo th) ->
  (forall op, g_lock s' op = (match holds (t_ph th) with Some c => if op =? opcode c then Some t else None | None => None end) \/
    (g_lock s' op = g_lock s op /\ forall c, holds (t_ph th0) = Some c -> opcode c = op -> holds (t_ph th) = Some c) ) -> inv2 s'.
Proof.
  intros s s' t th0 th I N T F TD L. split.
  - exact F.
  - intros t' th' N'. rewrite T, (upd_get _ _ _ _ _ N) in N'. destruct (Nat.eqb t t'); [injection N' as <-; exact TD|apply (j_todo _ I _ _ N')].
  - intros op t' L'. destruct (L op) as [X|[X Y]]; rewrite X in L'.
    + destruct (holds (t_ph th)) as [c|] eqn:H; [|discriminate L']. destruct (Z.eqb_spec op (opcode c)); [|discriminate L']. injection L' as <-. exists th, c. rewrite T, (upd_get _ _ _ _ _ N), Nat.eqb_refl. repeat split; congruence.
    + destruct (j_lock _ I _ _ L') as (th1 & c & N1 & H1 & O). rewrite T, (upd_get _ _ _ _ _ N). destruct (Nat.eqb t t') eqn:E.
      * apply Nat.eqb_eq in E. subst t'. rewrite N in N1. injection N1 as <-. exists th, c. split; [reflexivity|]. split; [now apply Y|exact O].
      * exists th1, c. now repeat split.
Qed.
Lemma exec_inv2 : forall s a s', inv RA s -> inv2 s -> gact_ok a -> exec s a = Some s' -> inv2 s'.
Proof.
  intros s a s' J I K E. destruct a as [k| |t|t acc|t|t|t]; cbn [exec gact_ok] in *.
  - destruct k; try discriminate E; injection E as <-; now apply spawn_inv2.
  - injection E as <-. destruct (_ =? _); [now apply spawn_inv2|exact I].
  - destruct (nth_error (g_thr s) t) as [[k todo ph]|] eqn:N; [|discriminate E]. cbn [t_ph t_todo t_call] in E. pose proof (j_todo _ I _ _ N) as OK. cbn [t_todo] in OK.
    destruct ph as [|c q|c q b|c q acc|ok]; try discriminate E.
    + destruct todo as [|[x|c q|q] rest]; try discriminate E.
      * injection E as <-. apply (upd_inv2 s _ t _ (mkT k [] (Ended true)) I N); try reflexivity; [apply (j_host _ I)|exact OK|]. intro op. right. split; [reflexivity|discriminate].
      * injection E as <-. apply (upd_inv2 s _ t _ (mkT k rest Run) I N); try reflexivity; cbn [g_host].
        -- apply assign_fine; [apply OK; now left|apply (j_host _ I)].
        -- intros y IN. apply OK. now right.
        -- intro op. right. split; [reflexivity|discriminate].
      * destruct (g_lock s (opcode c)) as [t'|] eqn:LK; [discriminate E|]. injection E as <-. apply (upd_inv2 s _ t _ (mkT k rest (Locked c q)) I N); try reflexivity; [apply (j_host _ I)|intros y IN; apply OK; now right|].
        intro op. cbn [set_lock set_thr g_lock t_ph holds]. destruct (op =? opcode c) eqn:Q; [now left|]. right. split; [reflexivity|discriminate].
      * injection E as <-. apply (upd_inv2 s _ t _ (mkT k [] (Ended q)) I N); try reflexivity; [apply (j_host _ I)|intros y []|]. intro op. right. split; [reflexivity|discriminate].
    + destruct (marshalled c (g_host s)) as [b|] eqn:MB; [|destruct todo; discriminate E].
      assert (E' : Some (set_thr s t (mkT k todo (Marsh c q b))) = Some s') by (destruct todo; exact E). injection E' as <-.
      apply (upd_inv2 s _ t _ (mkT k todo (Marsh c q b)) I N); try reflexivity; [apply (j_host _ I)|exact OK|]. intro op. right. split; [reflexivity|]. intros c' H _. exact H.
  - destruct (nth_error (g_thr s) t) as [[k todo [|c q|c q b|c q acc'|ok]]|] eqn:N; try discriminate E. injection E as <-.
    apply (upd_inv2 s _ t _ (mkT k todo (Written c q acc)) I N); try reflexivity; [apply (j_host _ I)|exact (j_todo _ I _ _ N)|]. intro op. right. split; [reflexivity|]. intros c' H _. exact H.
  - destruct (nth_error (g_thr s) t) as [[k todo [|c q|c q b|c q acc'|ok]]|] eqn:N; try discriminate E. injection E as <-.
    apply (upd_inv2 s _ t _ (mkT k [] (Ended q)) I N); try reflexivity; [apply (j_host _ I)|intros y []|].
    intro op. cbn [set_lock set_thr g_lock t_ph holds]. destruct (op =? opcode c) eqn:Q; [now left|]. right. split; [reflexivity|]. intros c' H O. injection H as <-. subst op. rewrite Z.eqb_refl in Q. discriminate Q.
  - destruct (nth_error (g_thr s) t) as [[k todo [|c q|c q b|c q acc|ok]]|] eqn:N; try discriminate E. injection E as <-.
    apply (upd_inv2 s _ t _ (if acc then mkT k todo Run else mkT k [] (Ended q)) I N); try reflexivity; [apply (j_host _ I)|destruct acc; [exact (j_todo _ I _ _ N)|intros y []]|].
    intro op. cbn [set_lock set_thr g_lock]. assert (HH : holds (t_ph (if acc then mkT k todo Run else mkT k [] (Ended q))) = None) by (destruct acc; reflexivity). rewrite HH.
    destruct (op =? opcode c) eqn:Q; [now left|]. right. split; [reflexivity|]. intros c' H O. injection H as <-. subst op. rewrite Z.eqb_refl in Q. discriminate Q.
  - destruct (nth_error (g_thr s) t) as [[k todo [|c q|c q b|c q acc|ok]]|] eqn:N; try discriminate E. injection E as <-.
    apply (upd_inv2 s _ t _ (mkT k [] (Ended q)) I N); try reflexivity; [apply (j_host _ I)|intros y []|].
    intro op. cbn [set_lock set_thr g_lock t_ph holds]. destruct (op =? opcode c) eqn:Q; [now left|]. right. split; [reflexivity|]. intros c' H O. injection H as <-. subst op. rewrite Z.eqb_refl in Q. discriminate Q.
Qed.
Lemma runs_inv2 : forall h l s, fineh h -> Forall gact_ok l -> runs h l s -> inv2 s.
Proof.
  intros h l s F K R. unfold runs in R. assert (G : forall l s0, Forall gact_ok l -> inv RA s0 -> inv2 s0 -> exec_all s0 l = Some s -> inv2 s); [|apply (G l _ K (inv0 RA h) (inv2_0 h F) R)].
  clear. induction l as [|a l IH]; intros s0 K J I E; cbn [exec_all] in E; [injection E as <-; exact I|]. destruct (exec s0 a) as [s1|] eqn:X; [|discriminate E].
  inversion K as [|? ? K1 K2]; subst. apply (IH s1 K2); [apply (exec_inv _ _ _ _ J X)|apply (exec_inv2 _ _ _ J I K1 X)|exact E].
Qed.
(** a thread that holds an opcode can go on *)
Lemma holder_moves : forall s t th c, inv2 s -> nth_error (g_thr s) t = Some th -> holds (t_ph th) = Some c -> exists a s', (a = GStep t \/ a = GWrite t true \/ a = GAnswer t) /\ exec s a = Some s'.
Proof.
  intros s t [k todo ph] c I N H. destruct ph as [|c' q|c' q b|c' q acc|ok]; try discriminate H.
  - destruct (marsh_fine c' _ (j_host _ I)) as [b B]. exists (GStep t), (set_thr s t (mkT k todo (Marsh c' q b))). split; [now left|]. cbn [exec]. rewrite N. cbn [t_ph t_todo t_call]. rewrite B. now destruct todo.
  - eexists (GWrite t true), _. split; [now (right; left)|]. cbn [exec]. rewrite N. reflexivity.
  - eexists (GAnswer t), _. split; [now (right; right)|]. cbn [exec]. rewrite N. reflexivity.
Qed.
Lemma moves : forall s t th, inv2 s -> nth_error (g_thr s) t = Some th -> (forall ok, t_ph th <> Ended ok) ->
  (exists a s', (a = GStep t \/ a = GWrite t true \/ a = GAnswer t) /\ exec s a = Some s') \/
  (exists c r rest t', t_ph th = Run /\ t_todo th = ICmd c r :: rest /\ g_lock s (opcode c) = Some t' /\ exists a s', (a = GStep t' \/ a = GWrite t' true \/ a = GAnswer t') /\ exec s a = Some s').
Proof.
  intros s t th I N NE. destruct (holds (t_ph th)) as [c|] eqn:H; [left; apply (holder_moves _ _ _ _ I N H)|]. destruct th as [k todo ph]. destruct ph as [|c' q|c' q b|c' q acc|ok]; try discriminate H; [|elim (NE ok); reflexivity].
  destruct todo as [|[x|c q|q] rest].
  - left. eexists (GStep t), _. split; [now left|]. cbn [exec]. rewrite N. reflexivity.
  - left. eexists (GStep t), _. split; [now left|]. cbn [exec]. rewrite N. reflexivity.
  - destruct (g_lock s (opcode c)) as [t'|] eqn:LK.
    + right. exists c, q, rest, t'. split; [reflexivity|]. split; [reflexivity|]. split; [exact LK|]. destruct (j_lock _ I _ _ LK) as (th' & c' & N' & H' & _). apply (holder_moves _ _ _ _ I N' H').
    + left. eexists (GStep t), _. split; [now left|]. cbn [exec]. rewrite N. cbn [t_ph t_todo]. rewrite LK. reflexivity.
  - left. eexists (GStep t), _. split; [now left|]. cbn [exec]. rewrite N. reflexivity.
Qed.

(** Steps of one call *)
Definition cost (i : instr) : nat := match i with ICmd _ _ => 4 | _ => 1 end.
Definition left_of (th : thread) : nat :=
  match t_ph th with Run => S (list_sum (map cost (t_todo th))) | Locked _ _ => 4 + list_sum (map cost (t_todo th)) | Marsh _ _ _ => 3 + list_sum (map cost (t_todo th)) | Written _ _ _ => 2 + list_sum (map cost (t_todo th)) | Ended _ => 0 end.
Lemma prog_cost : forall k, (list_sum (map cost (prog k)) <= 22)%nat.
Proof. intros [ad sr|ad sr p| |dup| |a rnd|]; cbn [prog]; try destruct (too_long ad sr); try destruct dup; try destruct (Nat.eqb (length a) 6); unfold p_set, p_advertise; cbn; lia. Qed.
Lemma exec_left : forall s a s' t, exec s a = Some s' ->
  match actor a with
  | Some t' => if Nat.eqb t' t then exists th th', nth_error (g_thr s) t = Some th /\ nth_error (g_thr s') t = Some th' /\ (S (left_of th') <= left_of th)%nat else nth_error (g_thr s') t = nth_error (g_thr s) t
  | None => nth_error (g_thr s') t = nth_error (g_thr s) t \/ exists k, nth_error (g_thr s) t = None /\ nth_error (g_thr s') t = Some (mkT k (prog k) Run)
  end.
Proof.
  assert (SP : forall (s : gst) k t, nth_error (g_thr s ++ [mkT k (prog k) Run]) t = nth_error (g_thr s) t \/ exists k0, nth_error (g_thr s) t = None /\ nth_error (g_thr s ++ [mkT k (prog k) Run]) t = Some (mkT k0 (prog k0) Run)).
  { intros s k t. destruct (Nat.lt_trichotomy t (length (g_thr s))) as [L|[L|L]].
    - left. now rewrite nth_error_app1.
    - right. exists k. split; [apply nth_error_None; lia|]. rewrite nth_error_app2, L, Nat.sub_diag by lia. reflexivity.
    - left. rewrite (proj2 (nth_error_None (g_thr s) t)) by lia. apply nth_error_None. rewrite app_length. cbn. lia. }
  assert (UP : forall (s s' : gst) t' th0 th t, nth_error (g_thr s) t' = Some th0 -> g_thr s' = upd (g_thr s) t' th -> (S (left_of th) <= left_of th0)%nat ->
    if Nat.eqb t' t then exists th th', nth_error (g_thr s) t = Some th /\ nth_error (g_thr s') t = Some th' /\ (S (left_of th') <= left_of th)%nat else nth_error (g_thr s') t = nth_error (g_thr s) t).
  { intros s s' t' th0 th t N T D. rewrite T, (upd_get _ _ _ _ _ N). destruct (Nat.eqb t' t) eqn:E; [|reflexivity]. apply Nat.eqb_eq in E. subst t'. exists th0, th. now repeat split. }
  intros s a s' t E. destruct a as [k| |t0|t0 acc|t0|t0|t0]; cbn [exec actor] in *.
  - destruct k; try discriminate E; injection E as <-; cbn [g_thr]; apply SP.
  - injection E as <-. destruct (_ =? _); [|now left]. cbn [g_thr]. apply SP.
  - destruct (nth_error (g_thr s) t0) as [[k todo ph]|] eqn:N; [|discriminate E]. cbn [t_ph t_todo t_call] in E. destruct ph as [|c q|c q b|c q acc|ok]; try discriminate E.
    + destruct todo as [|[x|c q|q] rest]; try discriminate E.
      * injection E as <-. eapply UP; [exact N|reflexivity|cbn; lia].
      * injection E as <-. eapply UP; [exact N|reflexivity|cbn; lia].
      * destruct (g_lock s (opcode c)); [discriminate E|]. injection E as <-. eapply UP; [exact N|reflexivity|cbn; lia].
      * injection E as <-. eapply UP; [exact N|reflexivity|cbn; lia].
    + destruct (marshalled c (g_host s)) as [b|] eqn:MB; [|destruct todo; discriminate E].
      assert (E' : Some (set_thr s t0 (mkT k todo (Marsh c q b))) = Some s') by (destruct todo; exact E). injection E' as <-. eapply UP; [exact N|reflexivity|cbn; lia].
  - destruct (nth_error (g_thr s) t0) as [[k todo [|c q|c q b|c q acc'|ok]]|] eqn:N; try discriminate E. injection E as <-. eapply UP; [exact N|reflexivity|cbn; lia].
  - destruct (nth_error (g_thr s) t0) as [[k todo [|c q|c q b|c q acc'|ok]]|] eqn:N; try discriminate E. injection E as <-. eapply UP; [exact N|reflexivity|cbn; lia].
  - destruct (nth_error (g_thr s) t0) as [[k todo [|c q|c q b|c q acc|ok]]|] eqn:N; try discriminate E. injection E as <-. eapply UP; [exact N|reflexivity|destruct acc; cbn; lia].
  - destruct (nth_error (g_thr s) t0) as [[k todo [|c q|c q b|c q acc|ok]]|] eqn:N; try discriminate E. injection E as <-. eapply UP; [exact N|reflexivity|cbn; lia].
Qed.
Lemma steps_bound : forall h l s t, runs h l s -> (steps_of l t <= 23)%nat.
Proof.
  intros h l s t R. unfold runs in R.
  assert (G : forall l s0, exec_all s0 l = Some s -> (steps_of l t <= match nth_error (g_thr s0) t with Some th => left_of th | None => 23 end)%nat).
  { clear. induction l as [|a l IH]; intros s0 E; cbn [exec_all] in E; [unfold steps_of; cbn; lia|]. destruct (exec s0 a) as [s1|] eqn:X; [|discriminate E]. specialize (IH s1 E). pose proof (exec_left _ _ _ t X) as L.
    unfold steps_of in *. cbn [filter]. destruct (actor a) as [t'|].
    - destruct (Nat.eqb t' t).
      + destruct L as (th & th' & N & N' & D). rewrite N' in IH. rewrite N. cbn [length]. lia.
      + rewrite L in IH. exact IH.
    - destruct L as [L|(k & L1 & L2)]; [rewrite L in IH; exact IH|]. rewrite L1. rewrite L2 in IH. cbn [left_of t_ph t_todo] in IH. pose proof (prog_cost k). lia. }
  specialize (G l _ R). cbn [g0 g_thr] in G. destruct t; exact G.
Qed.
