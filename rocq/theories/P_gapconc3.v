(** Proofs for C184: the payload. *)
Require Import Verif.Base Verif.M_cmd Verif.P_cmd Verif.M_adv Verif.S_gap Verif.P_gap Verif.P_gap2 Verif.P_gap3 Verif.M_gap Verif.M_gapconc Verif.S_gapconc Verif.P_gapconc Verif.P_gapconc2.

Definition plain (b : bytes) : Prop := data_value b = None /\ rsp_value b = None.
Definition plain_cmd (c : command) : Prop := c <> CAdData /\ c <> CSrData.
Definition plain_instr (i : instr) : Prop :=
  match i with ISet (SAdLen _) | ISet (SAdData _) | ISet (SSrLen _) | ISet (SSrData _) => False | ICmd c _ => plain_cmd c | _ => True end.
Definition foreign (th : thread) : Prop := Forall plain_instr (t_todo th) /\
  match t_ph th with Locked c _ => plain_cmd c | Marsh c _ b => plain b | _ => True end.
Lemma marsh_plain : forall c h b, plain_cmd c -> marshalled c h = Ret b -> plain b.
Proof.
  intros c h b [C1 C2] E. unfold marshalled in E.
  assert (HD : exists d m, find_cmd (name_of c) = Some d /\ b = 1 :: u8 (cd_op d) :: m).
  { destruct (find_cmd (name_of c)) as [d|] eqn:F; [|destruct c; vm_compute in F; discriminate F]. destruct (packet_head _ _ _ _ F E) as (m & ->). now exists d, m. }
  destruct HD as (d & m & F & B). destruct c; try congruence; vm_compute in F; injection F as <-; rewrite B; split; reflexivity.
Qed.
Lemma prog_plain : forall k, payload_of k = None -> Forall plain_instr (prog k).
Proof.
  intros [ad sr|ad sr p| |dup| |a rnd|] N; cbn [payload_of prog] in *; try destruct (too_long ad sr); try discriminate N; try destruct dup; try destruct (Nat.eqb (length a) 6); cbn [app];
    repeat (apply Forall_cons; [cbn; try exact I; split; discriminate|]); apply Forall_nil.
Qed.
Lemma assign_plain : forall x h, plain_instr (ISet x) -> h_ad (assign x h) = h_ad h /\ h_sr (assign x h) = h_sr h.
Proof. intros [] h H; cbn [plain_instr] in H; try contradiction; split; reflexivity. Qed.

Definition fill (ad : bytes) (x : Z * bytes) : Prop := fst x = Z.of_nat (length ad) /\ firstn (length ad) (snd x) = ad.
Inductive stage (s : gst) (ad sr : bytes) (rel : Prop) (r : bool) : list instr -> phase -> Prop :=
| st0 : forall p, stage s ad sr rel r (ISet (SAdvParams p) :: p_set ad sr r ++ p_advertise) Run
| st1 : stage s ad sr rel r (p_set ad sr r ++ p_advertise) Run
| st2 : fst (h_ad (g_host s)) = Z.of_nat (length ad) -> stage s ad sr rel r (skipn 1 (p_set ad sr r ++ p_advertise)) Run
| st3 : fill ad (h_ad (g_host s)) -> stage s ad sr rel r (skipn 2 (p_set ad sr r ++ p_advertise)) Run
| st4 : fill ad (h_ad (g_host s)) -> stage s ad sr rel r (skipn 3 (p_set ad sr r ++ p_advertise)) (Locked CAdData r)
| st5 : forall b, data_value b = Some ad -> rsp_value b = None -> stage s ad sr rel r (skipn 3 (p_set ad sr r ++ p_advertise)) (Marsh CAdData r b)
| st6 : forall acc, (acc = true -> told data_value (g_log s) = Some ad) -> (rel -> acc = true) -> stage s ad sr rel r (skipn 3 (p_set ad sr r ++ p_advertise)) (Written CAdData r acc)
| st7 : told data_value (g_log s) = Some ad -> stage s ad sr rel r (skipn 3 (p_set ad sr r ++ p_advertise)) Run
| st8 : told data_value (g_log s) = Some ad -> fst (h_sr (g_host s)) = Z.of_nat (length sr) -> stage s ad sr rel r (skipn 4 (p_set ad sr r ++ p_advertise)) Run
| st9 : told data_value (g_log s) = Some ad -> fill sr (h_sr (g_host s)) -> stage s ad sr rel r (skipn 5 (p_set ad sr r ++ p_advertise)) Run
| st10 : told data_value (g_log s) = Some ad -> fill sr (h_sr (g_host s)) -> stage s ad sr rel r p_advertise (Locked CSrData r)
| st11 : forall b, told data_value (g_log s) = Some ad -> rsp_value b = Some sr -> data_value b = None -> stage s ad sr rel r p_advertise (Marsh CSrData r b)
| st12 : forall acc, told data_value (g_log s) = Some ad -> (acc = true -> told rsp_value (g_log s) = Some sr) -> (rel -> acc = true) -> stage s ad sr rel r p_advertise (Written CSrData r acc)
| st13 : forall todo ph, told data_value (g_log s) = Some ad -> told rsp_value (g_log s) = Some sr -> foreign (mkT KStop todo ph) -> stage s ad sr rel r todo ph
| st14 : forall ok, (ok = true -> rel \/ r = false -> told data_value (g_log s) = Some ad /\ told rsp_value (g_log s) = Some sr) -> stage s ad sr rel r [] (Ended ok).
Lemma stage_frame : forall s s' ad sr rel r todo ph, h_ad (g_host s') = h_ad (g_host s) -> h_sr (g_host s') = h_sr (g_host s) ->
  told data_value (g_log s') = told data_value (g_log s) -> told rsp_value (g_log s') = told rsp_value (g_log s) -> stage s ad sr rel r todo ph -> stage s' ad sr rel r todo ph.
Proof.
  intros s s' ad sr rel r todo ph A B C D H. destruct H; try rewrite <- ?A, <- ?B in *; try rewrite <- ?C, <- ?D in *; econstructor; eassumption.
Qed.
Definition rkind (k : call) : bool := match k with KAdv _ _ => true | _ => false end.
Record inv3 (rel : Prop) (s : gst) : Prop := mkInv3 {
  m_foreign : forall t th, nth_error (g_thr s) t = Some th -> payload_of (t_call th) = None -> foreign th;
  m_done : forall t th t' th', nth_error (g_thr s) t = Some th -> nth_error (g_thr s) t' = Some th' -> payload_of (t_call th) <> None -> payload_of (t_call th') <> None -> (t < t')%nat -> exists ok, t_ph th = Ended ok;
  m_stage : forall t th ad sr, nth_error (g_thr s) t = Some th -> payload_of (t_call th) = Some (ad, sr) -> latest s t -> stage s ad sr rel (rkind (t_call th)) (t_todo th) (t_ph th) }.
Lemma inv3_0 : forall rel h, inv3 rel (g0 h).
Proof. intros rel h. split; intros [|t] th *; try discriminate. Qed.
Lemma told_appd : forall {A} (f : bytes -> option A) l b acc, told f (l ++ [(b, acc)]) = if acc then match f b with Some e => Some e | None => told f l end else told f l.
Proof. intros A f l b acc. unfold told. rewrite fold_left_app. reflexivity. Qed.
(** one thread changes *)
Lemma upd_foreign : forall rel s s' t th0 th, inv3 rel s -> nth_error (g_thr s) t = Some th0 -> g_thr s' = upd (g_thr s) t th -> t_call th = t_call th0 -> payload_of (t_call th0) = None -> foreign th ->
  h_ad (g_host s') = h_ad (g_host s) -> h_sr (g_host s') = h_sr (g_host s) -> told data_value (g_log s') = told data_value (g_log s) -> told rsp_value (g_log s') = told rsp_value (g_log s) -> inv3 rel s'.
Proof.
  intros rel s s' t th0 th I N T C P F A B D R. split.
  - intros t' th' N' P'. rewrite T, (upd_get _ _ _ _ _ N) in N'. destruct (Nat.eqb t t'); [injection N' as <-; exact F|apply (m_foreign _ _ I _ _ N' P')].
  - intros t1 th1 t2 th2 N1 N2 P1 P2 L. rewrite T, (upd_get _ _ _ _ _ N) in N1. rewrite T, (upd_get _ _ _ _ _ N) in N2. destruct (Nat.eqb t t1); [injection N1 as <-; rewrite C in P1; contradiction|]. destruct (Nat.eqb t t2); [injection N2 as <-; rewrite C in P2; contradiction|].
    apply (m_done _ _ I _ _ _ _ N1 N2 P1 P2 L).
  - intros t1 th1 ad sr N1 P1 L. rewrite T, (upd_get _ _ _ _ _ N) in N1. destruct (Nat.eqb t t1) eqn:E; [injection N1 as <-; rewrite C in P1; congruence|].
    apply (stage_frame s); try assumption. apply (m_stage _ _ I _ _ _ _ N1 P1). intros t' th' LT N'. destruct (Nat.eqb t t') eqn:E2.
    + apply Nat.eqb_eq in E2. subst t'. congruence.
    + apply (L t' th' LT). rewrite T, (upd_get _ _ _ _ _ N), E2. exact N'.
Qed.
Lemma upd_own : forall rel s s' t th0 th ad sr, inv3 rel s -> nth_error (g_thr s) t = Some th0 -> g_thr s' = upd (g_thr s) t th -> t_call th = t_call th0 -> payload_of (t_call th0) = Some (ad, sr) -> (forall ok, t_ph th0 <> Ended ok) ->
  (stage s ad sr rel (rkind (t_call th0)) (t_todo th0) (t_ph th0) -> stage s' ad sr rel (rkind (t_call th0)) (t_todo th) (t_ph th)) -> inv3 rel s'.
Proof.
  intros rel s s' t th0 th ad sr I N T C P NE ST.
  assert (LA : latest s t). { intros t' th' LT N'. destruct (payload_of (t_call th')) eqn:Q; [|reflexivity]. destruct (m_done _ _ I _ _ _ _ N N' ltac:(congruence) ltac:(congruence) LT) as [ok E]. elim (NE ok E). }
  split.
  - intros t' th' N' P'. rewrite T, (upd_get _ _ _ _ _ N) in N'. destruct (Nat.eqb t t'); [injection N' as <-; congruence|apply (m_foreign _ _ I _ _ N' P')].
  - intros t1 th1 t2 th2 N1 N2 P1 P2 L. rewrite T, (upd_get _ _ _ _ _ N) in N1. rewrite T, (upd_get _ _ _ _ _ N) in N2. destruct (Nat.eqb t t1) eqn:E1.
    + apply Nat.eqb_eq in E1. subst t1. destruct (Nat.eqb t t2) eqn:E2; [apply Nat.eqb_eq in E2; lia|]. elim P2. apply (LA _ _ L N2).
    + destruct (Nat.eqb t t2) eqn:E2; [|apply (m_done _ _ I _ _ _ _ N1 N2 P1 P2 L)]. apply Nat.eqb_eq in E2. subst t2. apply (m_done _ _ I _ _ _ _ N1 N P1 ltac:(congruence) L).
  - intros t1 th1 ad1 sr1 N1 P1 L. rewrite T, (upd_get _ _ _ _ _ N) in N1. destruct (Nat.eqb t t1) eqn:E.
    + apply Nat.eqb_eq in E. subst t1. injection N1 as <-. rewrite C in P1. rewrite P in P1. injection P1 as <- <-. rewrite C. apply ST. apply (m_stage _ _ I _ _ _ _ N P LA).
    + exfalso. apply Nat.eqb_neq in E. destruct (Nat.lt_trichotomy t t1) as [X|[X|X]]; [|lia|].
      * rewrite (LA _ _ X N1) in P1. discriminate P1.
      * assert (Q : payload_of (t_call th) = None) by (apply (L t th X); now rewrite T, (upd_get _ _ _ _ _ N), Nat.eqb_refl). congruence.
Qed.
Lemma spawn_inv3 : forall rel s k, inv3 rel s -> (payload_of k <> None -> forall t th, nth_error (g_thr s) t = Some th -> payload_of (t_call th) <> None -> exists ok, t_ph th = Ended ok) ->
  inv3 rel (mkG (g_host s) (g_thr s ++ [mkT k (prog k) Run]) (g_lock s) (g_log s) (g_hist s)).
Proof.
  intros rel s k I A. assert (G : forall t th, nth_error (g_thr s ++ [mkT k (prog k) Run]) t = Some th -> (nth_error (g_thr s) t = Some th /\ (t < length (g_thr s))%nat) \/ (th = mkT k (prog k) Run /\ t = length (g_thr s))).
  { intros t th N. destruct (Nat.ltb t (length (g_thr s))) eqn:E; [apply Nat.ltb_lt in E; rewrite nth_error_app1 in N by exact E; now left|apply Nat.ltb_ge in E; rewrite nth_error_app2 in N by exact E]. right.
    destruct (t - length (g_thr s))%nat as [|[|]] eqn:Q; [injection N as <-; split; [reflexivity|lia]|discriminate N|discriminate N]. }
  split; cbn [g_host g_thr g_log].
  - intros t th N P. destruct (G _ _ N) as [[N' _]|[-> _]]; [apply (m_foreign _ _ I _ _ N' P)|]. split; [cbn [t_todo]; now apply prog_plain|exact Coq.Init.Logic.I].
  - intros t th t' th' N N' P P' L. destruct (G _ _ N) as [[N1 L1]|[-> ->]]; destruct (G _ _ N') as [[N2 L2]|[-> ->]]; try lia.
    + apply (m_done _ _ I _ _ _ _ N1 N2 P P' L).
    + apply (A P' _ _ N1 P).
  - intros t th ad sr N P L. destruct (G _ _ N) as [[N1 L1]|[-> ->]].
    + apply (stage_frame s); try reflexivity. apply (m_stage _ _ I _ _ _ _ N1 P). intros t' th' LT N'. apply (L t' th' LT). cbn [g_thr]. rewrite nth_error_app1; [exact N'|]. apply nth_error_Some. congruence.
    + cbn [t_call t_todo t_ph] in *. destruct k as [a0 s0|a0 s0 p| |dup| |a rnd|]; cbn [payload_of prog] in *; try discriminate P; destruct (too_long a0 s0); try discriminate P; injection P as -> ->; [apply st1|apply st0].
Qed.
Definition rel_act (a : act) : Prop := match a with GWrite _ false | GNoBuf _ | GLost _ => False | _ => True end.
Lemma short : forall ad sr, too_long ad sr = false -> (length ad <= 31)%nat /\ (length sr <= 31)%nat.
Proof. intros ad sr H. unfold too_long in H. apply Bool.orb_false_iff in H. destruct H as [H1 H2]. apply Nat.ltb_ge in H1, H2. lia. Qed.
Lemma payload_short : forall k ad sr, payload_of k = Some (ad, sr) -> (length ad <= 31)%nat /\ (length sr <= 31)%nat.
Proof. intros [a s|a s p| |dup| |a rnd|] ad sr P; cbn [payload_of] in P; try discriminate P; destruct (too_long a s) eqn:T; try discriminate P; injection P as <- <-; now apply short. Qed.
Lemma u8_len : forall n, (n <= 31)%nat -> u8 (Z.of_nat n) = Z.of_nat n.
Proof. intros n H. unfold u8. apply Z.mod_small. lia. Qed.
Lemma fill_data : forall c h b d, length (snd (h_ad h)) = 31%nat -> length (snd (h_sr h)) = 31%nat -> (length d <= 31)%nat -> marshalled c h = Ret b ->
  (c = CAdData -> fill d (h_ad h) -> data_value b = Some d /\ rsp_value b = None) /\ (c = CSrData -> fill d (h_sr h) -> rsp_value b = Some d /\ data_value b = None).
Proof.
  intros c h b d L1 L2 D E. split; intros -> [F1 F2]; unfold marshalled in E; cbn [name_of struct_of] in E.
  - destruct (h_ad h) as [l a]. cbn [fst snd] in *. rewrite pk_ad in E by exact L1. match type of E with Ret ?x = _ => assert (b = x) by congruence; subst b end. rewrite F1, u8_len by exact D. split; [|reflexivity].
    change (data_value ([1; 8; 32; 32; Z.of_nat (length d)] ++ a)) with (Some (firstn (Z.to_nat (Z.of_nat (length d))) a)). now rewrite Nat2Z.id, F2.
  - destruct (h_sr h) as [l a]. cbn [fst snd] in *. rewrite pk_sr in E by exact L2. match type of E with Ret ?x = _ => assert (b = x) by congruence; subst b end. rewrite F1, u8_len by exact D. split; [|reflexivity].
    change (rsp_value ([1; 9; 32; 32; Z.of_nat (length d)] ++ a)) with (Some (firstn (Z.to_nat (Z.of_nat (length d))) a)). now rewrite Nat2Z.id, F2.
Qed.
Lemma foreign_of : forall k k' todo ph, foreign (mkT k todo ph) -> foreign (mkT k' todo ph).
Proof. intros k k' todo ph H. exact H. Qed.
Lemma exec_inv3 : forall rel s a s', inv2 s -> inv3 rel s -> (rel -> rel_act a) ->
  (forall k, a = GCall k -> payload_of k <> None -> forall t th, nth_error (g_thr s) t = Some th -> payload_of (t_call th) <> None -> exists ok, t_ph th = Ended ok) ->
  exec s a = Some s' -> inv3 rel s'.
Proof.
  intros rel s a s' J I RA0 ONE E. pose proof (j_host _ J) as (L1 & L2 & _).
  destruct a as [k| |t|t acc|t|t|t]; cbn [exec rel_act] in *.
  - specialize (ONE k eq_refl). destruct k; try discriminate E; injection E as <-; now apply spawn_inv3.
  - injection E as <-. destruct (_ =? _); [|exact I]. apply spawn_inv3; [exact I|]. intro X. now elim X.
  - destruct (nth_error (g_thr s) t) as [[k todo ph]|] eqn:N; [|discriminate E]. cbn [t_ph t_todo t_call] in E.
    destruct (payload_of k) as [[ad sr]|] eqn:P.
    + destruct (payload_short _ _ _ P) as [S1 S2]. destruct ph as [|c q|c q b|c q acc|ok]; try discriminate E.
      * destruct todo as [|[x|c q|q] rest]; try discriminate E.
        -- injection E as <-. apply (upd_own rel s _ t _ (mkT k [] (Ended true)) ad sr I N); try reflexivity; [exact P|discriminate|]. cbn [t_call t_todo t_ph]. intro ST. inversion ST; subst. apply st14. now split.
        -- injection E as <-. apply (upd_own rel s _ t _ (mkT k rest Run) ad sr I N); try reflexivity; [exact P|discriminate|]. cbn [t_call t_todo t_ph]. intro ST. unfold p_set, p_advertise in ST. cbn [app skipn] in ST. inversion ST; subst; cbn [assign].
           ++ apply st1.
           ++ apply st2. cbn [g_host with_ad h_ad fst]. apply u8_len, S1.
           ++ apply st3. cbn [g_host with_ad h_ad fst snd]. split; [assumption|]. cbn [snd]. apply (proj2 (gcopy_full _ _ L1 S1)).
           ++ apply st8; [assumption|]. cbn [g_host with_sr h_sr fst]. apply u8_len, S2.
           ++ apply st9; [assumption|]. cbn [g_host with_sr h_sr fst snd]. split; [assumption|]. cbn [snd]. apply (proj2 (gcopy_full _ _ L2 S2)).
           ++ apply st13; cbn [g_log]; try assumption. match goal with H : foreign _ |- _ => destruct H as [F1 F2] end. cbn [t_todo t_ph] in *. split; [now inversion F1|exact Coq.Init.Logic.I].
        -- destruct (g_lock s (opcode c)) as [t'|] eqn:LK; [discriminate E|]. injection E as <-. apply (upd_own rel s _ t _ (mkT k rest (Locked c q)) ad sr I N); try reflexivity; [exact P|discriminate|]. cbn [t_call t_todo t_ph]. intro ST.
           unfold p_set, p_advertise in ST. cbn [app skipn] in ST. inversion ST; subst.
           ++ apply st4. assumption.
           ++ apply st10; assumption.
           ++ match goal with H : foreign _ |- _ => destruct H as [F1 F2] end. cbn [t_todo t_ph] in *. inversion F1; subst. apply st13; try assumption. split; assumption.
        -- injection E as <-. apply (upd_own rel s _ t _ (mkT k [] (Ended q)) ad sr I N); try reflexivity; [exact P|discriminate|]. cbn [t_call t_todo t_ph]. intro ST. unfold p_set, p_advertise in ST. cbn [app skipn] in ST. inversion ST; subst. apply st14. now split.
      * destruct (marshalled c (g_host s)) as [b|] eqn:MB; [|destruct todo; discriminate E].
        assert (E' : Some (set_thr s t (mkT k todo (Marsh c q b))) = Some s') by (destruct todo; exact E). injection E' as <-.
        apply (upd_own rel s _ t _ (mkT k todo (Marsh c q b)) ad sr I N); try reflexivity; [exact P|discriminate|]. cbn [t_call t_todo t_ph]. intro ST. inversion ST; subst.
        -- destruct (proj1 (fill_data _ _ _ ad L1 L2 S1 MB) eq_refl ltac:(assumption)). now apply st5.
        -- destruct (proj2 (fill_data _ _ _ sr L1 L2 S2 MB) eq_refl ltac:(assumption)). now apply st11.
        -- match goal with H : foreign _ |- _ => destruct H as [F1 F2] end. apply st13; try assumption. split; [exact F1|]. cbn [t_ph] in *. apply (marsh_plain _ _ _ F2 MB).
    + pose proof (m_foreign _ _ I _ _ N P) as [F1 F2]. cbn [t_todo t_ph] in F1, F2. destruct ph as [|c q|c q b|c q acc|ok]; try discriminate E.
      * destruct todo as [|[x|c q|q] rest]; try discriminate E.
        -- injection E as <-. apply (upd_foreign rel s _ t _ (mkT k [] (Ended true)) I N); try reflexivity; [exact P|]. split; [exact F1|exact Coq.Init.Logic.I].
        -- injection E as <-. inversion F1 as [|? ? F3 F4]; subst. destruct (assign_plain x (g_host s) F3) as [A1 A2]. apply (upd_foreign rel s _ t _ (mkT k rest Run) I N); try reflexivity; [exact P| |exact A1|exact A2]. split; [exact F4|exact Coq.Init.Logic.I].
        -- destruct (g_lock s (opcode c)) as [t'|] eqn:LK; [discriminate E|]. injection E as <-. inversion F1 as [|? ? F3 F4]; subst. apply (upd_foreign rel s _ t _ (mkT k rest (Locked c q)) I N); try reflexivity; [exact P|]. split; [exact F4|exact F3].
        -- injection E as <-. apply (upd_foreign rel s _ t _ (mkT k [] (Ended q)) I N); try reflexivity; [exact P|]. split; [apply Forall_nil|exact Coq.Init.Logic.I].
      * destruct (marshalled c (g_host s)) as [b|] eqn:MB; [|destruct todo; discriminate E].
        assert (E' : Some (set_thr s t (mkT k todo (Marsh c q b))) = Some s') by (destruct todo; exact E). injection E' as <-.
        apply (upd_foreign rel s _ t _ (mkT k todo (Marsh c q b)) I N); try reflexivity; [exact P|]. split; [exact F1|]. cbn [t_ph]. apply (marsh_plain _ _ _ F2 MB).
  - destruct (nth_error (g_thr s) t) as [[k todo [|c q|c q b|c q acc'|ok]]|] eqn:N; try discriminate E. injection E as <-.
    assert (AC : rel -> acc = true) by (intro X; specialize (RA0 X); destruct acc; [reflexivity|contradiction]).
    destruct (payload_of k) as [[ad sr]|] eqn:P.
    + apply (upd_own rel s _ t _ (mkT k todo (Written c q acc)) ad sr I N); try reflexivity; [exact P|discriminate|]. cbn [t_call t_todo t_ph]. intro ST. inversion ST; subst.
      * apply st6; [|exact AC]. intros ->. cbn [g_log]. rewrite told_appd. match goal with H : data_value b = Some _ |- _ => now rewrite H end.
      * apply st12; [| |exact AC]; [|intros ->]; cbn [g_log]; rewrite told_appd.
        -- match goal with H : data_value b = None |- _ => rewrite H end. now destruct acc.
        -- match goal with H : rsp_value b = Some _ |- _ => now rewrite H end.
      * match goal with H : foreign _ |- _ => destruct H as [F1 [F2 F3]] end. apply st13; cbn [g_log]; rewrite ?told_appd, ?F2, ?F3; try (destruct acc; assumption). split; [exact F1|exact Coq.Init.Logic.I].
    + pose proof (m_foreign _ _ I _ _ N P) as [F1 [F2 F3]]. apply (upd_foreign rel s _ t _ (mkT k todo (Written c q acc)) I N); try reflexivity; cbn [g_log]; rewrite ?told_appd, ?F2, ?F3; try (now destruct acc); (split; [exact F1|exact Coq.Init.Logic.I]).
  - destruct (nth_error (g_thr s) t) as [[k todo [|c q|c q b|c q acc'|ok]]|] eqn:N; try discriminate E. injection E as <-. destruct (payload_of k) as [[ad sr]|] eqn:P.
    + apply (upd_own rel s _ t _ (mkT k [] (Ended q)) ad sr I N); try reflexivity; [exact P|discriminate|]. cbn [t_call t_todo t_ph]. intro ST. inversion ST; subst; apply st14; intros Q RR; try (destruct RR as [RR|RR]; [elim (RA0 RR)|congruence]). now split.
    + apply (upd_foreign rel s _ t _ (mkT k [] (Ended q)) I N); try reflexivity; [exact P|]. split; [apply Forall_nil|exact Coq.Init.Logic.I].
  - destruct (nth_error (g_thr s) t) as [[k todo [|c q|c q b|c q acc|ok]]|] eqn:N; try discriminate E. injection E as <-. destruct (payload_of k) as [[ad sr]|] eqn:P.
    + apply (upd_own rel s _ t _ (if acc then mkT k todo Run else mkT k [] (Ended q)) ad sr I N); try reflexivity; try (destruct acc; reflexivity); [exact P|discriminate|]. cbn [t_call t_todo t_ph]. intro ST.
      destruct acc; cbn [t_todo t_ph]; inversion ST; subst.
      * apply st7. cbn [g_log set_lock set_thr]. auto.
      * apply st13; cbn [g_log set_lock set_thr]; auto. split; [|exact Coq.Init.Logic.I]. cbn [t_todo]. unfold p_advertise. repeat (apply Forall_cons; [cbn; try exact Coq.Init.Logic.I; split; discriminate|]); apply Forall_nil.
      * apply st13; cbn [g_log set_lock set_thr]; auto.
      * apply st14. intros Q [RR|RR]; [|congruence]. match goal with H : rel -> false = true |- _ => discriminate (H RR) end.
      * apply st14. intros Q [RR|RR]; [|congruence]. match goal with H : rel -> false = true |- _ => discriminate (H RR) end.
      * apply st14. now split.
    + pose proof (m_foreign _ _ I _ _ N P) as [F1 _]. apply (upd_foreign rel s _ t _ (if acc then mkT k todo Run else mkT k [] (Ended q)) I N); try reflexivity; try (destruct acc; reflexivity); [exact P|].
      destruct acc; (split; [first [exact F1|apply Forall_nil]|exact Coq.Init.Logic.I]).
  - destruct (nth_error (g_thr s) t) as [[k todo [|c q|c q b|c q acc|ok]]|] eqn:N; try discriminate E. injection E as <-. destruct (payload_of k) as [[ad sr]|] eqn:P.
    + apply (upd_own rel s _ t _ (mkT k [] (Ended q)) ad sr I N); try reflexivity; [exact P|discriminate|]. cbn [t_call t_todo t_ph]. intro ST. inversion ST; subst; apply st14; intros Q RR; try (destruct RR as [RR|RR]; [elim (RA0 RR)|congruence]). now split.
    + apply (upd_foreign rel s _ t _ (mkT k [] (Ended q)) I N); try reflexivity; [exact P|]. split; [apply Forall_nil|exact Coq.Init.Logic.I].
Qed.
Lemma exec_all_app : forall l1 l2 s, exec_all s (l1 ++ l2) = match exec_all s l1 with Some s1 => exec_all s1 l2 | None => None end.
Proof. induction l1 as [|a l1 IH]; intros l2 s; cbn [app exec_all]; [reflexivity|]. destruct (exec s a); [apply IH|reflexivity]. Qed.
Lemma runs_inv3 : forall (rel : Prop) h l s, fineh h -> Forall gact_ok l -> one_at_a_time h l -> (rel -> reliable l) -> runs h l s -> inv3 rel s.
Proof.
  intros rel h l. induction l as [|a l IH] using rev_ind; intros s F K ONE RE R; unfold runs in R.
  - cbn [exec_all] in R. injection R as <-. apply inv3_0.
  - rewrite exec_all_app in R. destruct (exec_all (g0 h) l) as [s1|] eqn:E1; [|discriminate R]. cbn [exec_all] in R. destruct (exec s1 a) as [s2|] eqn:E2; [|discriminate R]. injection R as <-.
    apply Forall_app in K. destruct K as [K1 K2]. assert (R1 : rel -> reliable l /\ rel_act a). { intro X. specialize (RE X). unfold reliable in RE. apply Forall_app in RE. destruct RE as [A B]. inversion B; subst. now split. }
    apply (exec_inv3 rel s1 a s2); try exact E2.
    + apply (runs_inv2 h l s1 F K1 E1).
    + apply IH; try assumption; [|intro X; apply (R1 X)]. intros l1 k l2 s0 t th -> P R0 N Q. apply (ONE l1 k (l2 ++ [a]) s0 t th); try assumption. rewrite <- app_assoc. reflexivity.
    + intro X. apply (R1 X).
    + intros k -> P t th N Q. apply (ONE l k [] s1 t th); try assumption. reflexivity.
Qed.
(** A check of [one_at_a_time], for examples *)
Definition oneb_at (s : gst) (k : call) : bool :=
  match payload_of k with None => true | Some _ => forallb (fun th => match payload_of (t_call th), t_ph th with Some _, Ended _ => true | Some _, _ => false | None, _ => true end) (g_thr s) end.
Fixpoint oneb (s : gst) (l : list act) : bool :=
  match l with [] => true | a :: r => ((match a with GCall k => oneb_at s k | _ => true end) && match exec s a with Some s' => oneb s' r | None => true end)%bool end.
Lemma oneb_ok : forall h l, oneb (g0 h) l = true -> one_at_a_time h l.
Proof.
  intros h l O l1 k l2 s1 t th -> P R N Q. unfold runs in R. revert O R. generalize (g0 h) as s0. clear h. induction l1 as [|a l1 IH]; intros s0 O R; cbn [app oneb exec_all] in *; apply Bool.andb_true_iff in O; destruct O as [O1 O2].
  - injection R as ->. unfold oneb_at in O1. destruct (payload_of k); [|congruence]. rewrite forallb_forall in O1. specialize (O1 th (nth_error_In _ _ N)). destruct (payload_of (t_call th)); [|congruence]. destruct (t_ph th) as [| | | |ok]; try discriminate O1. now exists ok.
  - destruct (exec s0 a) as [s2|]; [|discriminate R]. apply (IH s2 O2 R).
Qed.
