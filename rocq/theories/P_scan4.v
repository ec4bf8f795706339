(** Proofs about M_scan: structure of reachable states; progress of Connect. *)
Require Import Verif.Base Verif.M_scan Verif.S_scan Verif.P_scan Verif.P_scan2 Verif.P_scan3.

Record sinv (k : kind) (sync : bool) (s : st) : Prop := mkSinv {
  j_loop : sync = false -> s_loop s = None;
  j_gos : sync = true -> s_gos s = [];
  j_task : forall t, In t (tasks s) -> match t with TSend _ => k = CConnect /\ s_ctx2 s <> None | TGot _ _ => k = CFind | _ => True end;
  j_ph : match s_main s with P4 | P5 => waited k s <> None | P6 | P7 _ => k = CConnect /\ s_ctx2 s = Some Canceled | PRet (RCtx r) => k <> CConnect /\ s_ctx s = Some r | _ => True end;
  j_dl : s_ctx2 s = Some Deadline -> s_ctx s = Some Deadline;
  j_h : s_hset s = false -> s_main s = P0 /\ s_q s = [] /\ tasks s = [] }.
Lemma sinv_start : forall k sync, sinv k sync start.
Proof. intros. constructor; cbn; try tauto; try discriminate. Qed.
Lemma upd_nil : forall {A} i (x : A), upd [] i x = []. Proof. intros A [|i] x; reflexivity. Qed.
Lemma task_ctx2 : forall k f s t s' t', task_step k f s t = Some (s', t') -> (s_ctx2 s <> None -> s_ctx2 s' = s_ctx2 s) /\ match t' with TSend _ => k = CConnect /\ s_ctx2 s' <> None | TGot _ _ => k = CFind | _ => True end /\ (k <> CConnect -> s_ctx2 s' = s_ctx2 s).
Proof.
  intros k f s t s' t' H. destruct t as [a|a|a l|a|]; cbn in H; try discriminate.
  - destruct (f a); injection H as <- <-; cbn; tauto.
  - destruct k; injection H as <- <-; cbn; try tauto. destruct (s_ctx2 s); (split; [congruence|]); split; [split; [reflexivity|discriminate]|congruence|split; [reflexivity|discriminate]|congruence].
  - injection H as <- <-; cbn; tauto.
Qed.
Lemma sinv_pres : forall k sync late f s a s', phase_inv s -> sinv k sync s -> exec k sync late f s a = Some s' -> sinv k sync s'.
Proof.
  intros k sync late f s a s' PI [J1 J2 J3 J4 J5 J6] H.
  assert (TASK : forall t s1 t1 lo g, task_step k f s t = Some (s1, t1) -> In t (tasks s) -> (forall y, In y (tasks (set_tasks s1 lo g)) -> In y (tasks s) \/ y = t1) -> (sync = false -> lo = None) -> (sync = true -> g = []) -> sinv k sync (set_tasks s1 lo g)).
  { intros t s1 t1 lo g T IN SUB LO GO. destruct (task_frame _ _ _ _ _ _ T) as (F1 & F2 & F3 & F4 & F5 & F6 & F7 & F8 & F9 & F10 & F11). destruct (task_ctx2 _ _ _ _ _ _ T) as (C1 & C2 & C3). constructor.
    - exact LO.
    - exact GO.
    - intros y Y. cbn [set_tasks s_ctx2]. destruct (SUB y Y) as [Y'| ->]; [|exact C2]. specialize (J3 y Y'). destruct y; try exact J3. destruct J3 as [K N]. split; [exact K|]. rewrite (C1 N). exact N.
    - cbn [set_tasks s_main]. rewrite F8. destruct (s_main s) as [| | | | | | | |[r|]]; try exact J4.
      + unfold waited in *. cbn [set_tasks s_ctx s_ctx2]. rewrite F1. destruct k; try exact J4. rewrite (C1 J4). exact J4.
      + unfold waited in *. cbn [set_tasks s_ctx s_ctx2]. rewrite F1. destruct k; try exact J4. rewrite (C1 J4). exact J4.
      + cbn [set_tasks s_ctx2]. destruct J4 as [K C]. split; [exact K|]. rewrite C1; [exact C|congruence].
      + cbn [set_tasks s_ctx2]. destruct J4 as [K C]. split; [exact K|]. rewrite C1; [exact C|congruence].
      + cbn [set_tasks s_ctx]. rewrite F1. exact J4.
    - cbn [set_tasks s_ctx s_ctx2]. rewrite F1. intro D. apply J5. destruct F11 as [F|[_ F]]; congruence.
    - cbn [set_tasks s_hset]. rewrite F5. intro HS. destruct (J6 HS) as (_ & _ & E). rewrite E in IN. destruct IN. }
  destruct a as [| | |i| |i|b|addr data|r| | |]; cbn in H.
  - unfold main_step in H. destruct (s_main s) eqn:M; try discriminate.
    + injection H as <-. constructor; auto; cbn; try tauto; discriminate.
    + injection H as <-. constructor; auto; cbn; try tauto. intro HS. now destruct (J6 HS).
    + destruct (waited k s) eqn:W; [|discriminate]. injection H as <-. constructor; auto; cbn; [|intro HS; now destruct (J6 HS)]. unfold waited in *. cbn. destruct k; congruence.
    + destruct (waited k s) as [r|] eqn:W; [|discriminate]. destruct k; cbn in W; [|destruct late|destruct r]; injection H as <-; (constructor; auto; cbn; [|intro HS; now destruct (J6 HS)]); try exact Logic.I; try (split; [discriminate|exact W]); now split.
  - unfold loop_step in H. destruct (s_loop s) eqn:L; [discriminate|]. destruct (s_q s) as [|[a|ok] q] eqn:Q; [discriminate| |].
    + change (s_hset (set_q s q)) with (s_hset s) in H. destruct (s_hset s) eqn:HS; [|now destruct (J6 eq_refl) as (_ & X & _)]. destruct sync; injection H as <-.
      * constructor; try assumption; try discriminate; cbn [set_tasks set_q s_gos s_hset s_ctx2]; try assumption; [|rewrite HS; discriminate].
        intros t T. unfold tasks in T. cbn [set_tasks set_q s_loop s_gos app] in T. destruct T as [<-|T]; [exact Logic.I|]. apply J3. unfold tasks. rewrite L. exact T.
      * constructor; try assumption; try discriminate; cbn [set_tasks set_q s_gos s_hset s_ctx2]; try tauto; [|rewrite HS; discriminate].
        intros t T. unfold tasks in T. cbn [set_tasks set_q s_loop s_gos app] in T. apply in_app_or in T. destruct T as [T|[<-|[]]]; [|exact Logic.I]. apply J3. unfold tasks. rewrite L. exact T.
    + cbn in H. destruct (s_hset s) eqn:HS; [|now destruct (J6 eq_refl) as (_ & X & _)].
      assert (X : forall p, match p with P4 | P5 => waited k s <> None | P6 | P7 _ => k = CConnect /\ s_ctx2 s = Some Canceled | PRet (RCtx r) => k <> CConnect /\ s_ctx s = Some r | _ => True end -> sinv k sync (set_main (set_q s q) p)).
      { intros p HP. constructor; cbn; try assumption. rewrite L. exact (fun _ => eq_refl). rewrite HS; discriminate. }
      assert (Y : set_q s q = set_main (set_q s q) (s_main s)) by reflexivity.
      destruct (s_main s) eqn:M; injection H as <-; try (rewrite Y; apply X; exact J4); apply X; destruct ok; try exact Logic.I. exact J4.
  - destruct (s_loop s) as [t|] eqn:L; [|discriminate]. destruct (task_step k f s t) as [[s1 t1]|] eqn:T; [|discriminate]. injection H as <-. destruct (task_frame _ _ _ _ _ _ T) as (_ & _ & _ & _ & _ & _ & G & _). rewrite G.
    destruct sync; [|now discriminate (J1 eq_refl)]. apply (TASK t s1 t1); auto; [unfold tasks; rewrite L; now left| |discriminate].
    intros y Y. pose proof (stepped_loop (s_gos s) t t1) as (_ & SUB & _). unfold tasks. rewrite L. apply SUB. exact Y.
  - destruct (nth_error (s_gos s) i) as [t|] eqn:N; [|discriminate]. destruct (task_step k f s t) as [[s1 t1]|] eqn:T; [|discriminate]. injection H as <-. destruct (task_frame _ _ _ _ _ _ T) as (_ & _ & _ & _ & _ & LO & G & _). rewrite LO, G.
    destruct (stepped_go (match s_loop s with Some x => [x] | None => [] end) (s_gos s) i t t1 N) as (IN & SUB & _). apply (TASK t s1 t1); auto. intro S. rewrite (J2 S). apply upd_nil.
  - destruct (s_main s) eqn:M; try discriminate. destruct (s_loop s) as [[a|a|a l|a|]|] eqn:L; try discriminate. injection H as <-. constructor; cbn; try tauto; try assumption.
    + intros t T. apply J3. unfold tasks. cbn in T. apply in_or_app. now right.
    + intro HS. now destruct (J6 HS).
  - destruct (s_main s) eqn:M; try discriminate. destruct (nth_error (s_gos s) i) as [[a|a|a l|a|]|] eqn:N; try discriminate. injection H as <-. constructor; cbn; try tauto; try assumption.
    + intro S. rewrite (J2 S). apply upd_nil.
    + intros t T. destruct (stepped_go (match s_loop s with Some x => [x] | None => [] end) (s_gos s) i _ TDone N) as (_ & SUB & _). destruct (SUB t T) as [T'| ->]; [now apply J3|exact Logic.I].
    + intro HS. now destruct (J6 HS).
  - destruct (s_cmd s) as [e|] eqn:C; [|discriminate]. injection H as <-. constructor; try assumption. cbn. intro HS. destruct (J6 HS) as (M & _). unfold phase_inv in PI. rewrite M in PI. destruct PI as [PI _]. congruence.
  - destruct (s_scan s) eqn:C; [|discriminate]. injection H as <-. constructor; try assumption. cbn. intro HS. destruct (J6 HS) as (M & _). unfold phase_inv in PI. rewrite M in PI. destruct PI as (_ & _ & PI). congruence.
  - destruct (s_ctx s) eqn:C; [discriminate|]. injection H as <-. constructor; cbn; try assumption; [|intro D; now discriminate (J5 D)].
    destruct (s_main s) as [| | | | | | | |[r0|]]; try exact J4; [unfold waited in *; cbn; destruct k; try discriminate; exact J4|unfold waited in *; cbn; destruct k; try discriminate; exact J4|now destruct J4].
  - destruct (s_ctx s) eqn:C; [|discriminate]. destruct (s_ctx2 s) eqn:D; [discriminate|]. injection H as <-. constructor; cbn; rewrite ?D, ?C; try assumption.
    + intros t T. specialize (J3 t T). destruct t; try exact J3. destruct J3. congruence.
    + destruct (s_main s) as [| | | | | | | |[r0|]]; try exact J4; [unfold waited in *; cbn; rewrite ?D; destruct k; congruence|unfold waited in *; cbn; rewrite ?D; destruct k; congruence|destruct J4; congruence|destruct J4; congruence].
    + congruence.
  - destruct (s_ctx s) eqn:C; [|discriminate]. destruct (s_ctx2 s) eqn:D; [discriminate|]. injection H as <-. constructor; cbn; rewrite ?D, ?C; try assumption.
    + intros t T. specialize (J3 t T). destruct t; try exact J3. destruct J3. congruence.
    + destruct (s_main s) as [| | | | | | | |[r0|]]; try exact J4; [unfold waited in *; cbn; rewrite ?D; destruct k; congruence|unfold waited in *; cbn; rewrite ?D; destruct k; congruence|destruct J4; congruence|destruct J4; congruence].
    + congruence.
  - destruct (s_main s) eqn:M; try discriminate; injection H as <-; (constructor; cbn; try tauto; try assumption; intro HS; now destruct (J6 HS)).
Qed.
Lemma execs_inv : forall k sync late f s l s', execs k sync late f s l s' -> phase_inv s -> inv f s -> sinv k sync s -> phase_inv s' /\ inv f s' /\ sinv k sync s'.
Proof.
  intros k sync late f s l s' H. induction H as [s|s a s1 l s2 X E IH]; intros A B C; [split; [exact A|split; [exact B|exact C]]|]. apply IH; [exact (phase_pres _ _ _ _ _ _ _ A X)|exact (inv_pres _ _ _ _ _ _ _ B X)|exact (sinv_pres _ _ _ _ _ _ _ A C X)].
Qed.
Lemma reach_inv : forall k sync late f s, reach k sync late f s -> phase_inv s /\ inv f s /\ sinv k sync s.
Proof. intros k sync late f s [l H]. apply (execs_inv _ _ _ _ _ _ _ H); [|apply inv_start|apply sinv_start]. unfold phase_inv. cbn. split; [reflexivity|]. split; [intros b []|reflexivity]. Qed.
Lemma reach_step : forall k sync late f s a s', reach k sync late f s -> exec k sync late f s a = Some s' -> reach k sync late f s'.
Proof.
  intros k sync late f s a s' [l H] X. exists (l ++ [a]). induction H as [s|s b s1 l s2 Y E IH]; [apply (ex_cons _ _ _ _ _ _ _ _ _ X), ex_nil|cbn; apply (ex_cons _ _ _ _ _ _ _ _ _ Y), IH, X].
Qed.
