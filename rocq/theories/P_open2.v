(** Devices of one process, over histories. *)
Require Import Verif.Base Verif.M_uuid Verif.M_adv Verif.M_cmd Verif.M_params Verif.S_params Verif.M_gap Verif.M_open Verif.S_open Verif.P_open.

Record sane (w : world) : Prop := mkSane {
  sn_below : below w;
  sn_run : Forall (fun fd => (fd < w_next w)%nat /\ In fd (fds w) /\ ~ In fd (w_stop w)) (w_run w);
  sn_stop : Forall (fun fd => (fd < w_next w)%nat) (w_stop w);
  sn_held : NoDup (held w);
  sn_fds : NoDup (fds w) }.
Lemma new_hci_cfg : forall opts c, new_hci opts = Some c -> c = set_all new_cfg (setters opts).
Proof. intros opts c E. unfold new_hci, hci_option in E. destruct (option_loop new_cfg true opts) as [c1 ok] eqn:O. destruct ok; [|discriminate]. injection E as <-. exact (option_loop_set _ _ _ _ _ O). Qed.
Lemma new_hci_tr : forall opts c, new_hci opts = Some c -> g_tr c = tr_of (transport_for opts).
Proof. intros opts c E. rewrite (new_hci_cfg _ _ E). apply (set_tr (setters opts) new_cfg None). reflexivity. Qed.
Lemma filter_fresh : forall n l, Forall (fun x => (x < n)%nat) l -> filter (fun x => negb (Nat.eqb x n)) l = l.
Proof. intros n l. induction l as [|x l IH]; intro F; [reflexivity|]. apply Forall_cons_iff in F. destruct F as [F1 F2]. cbn [filter]. destruct (Nat.eqb_spec x n) as [->|_]; [lia|]. cbn. now rewrite IH. Qed.
Lemma close_new : forall w n, Forall (fun x => (x < n)%nat) (w_run w) -> close_dev (run_loops w n) n = mkW (w_files w) (w_next w) (w_t w) (w_run w) (n :: w_stop w).
Proof. intros w n F. unfold close_dev, run_loops. cbn. rewrite Nat.eqb_refl. cbn. now rewrite filter_fresh. Qed.
Lemma close_not : forall w n, Forall (fun x => (x < n)%nat) (w_run w) -> close_dev w n = w.
Proof.
  intros w n F. unfold close_dev. destruct (existsb (Nat.eqb n) (w_run w)) eqn:E; [|reflexivity]. apply existsb_exists in E. destruct E as (x & I & X). apply Nat.eqb_eq in X. subst x. rewrite Forall_forall in F. specialize (F _ I). lia.
Qed.
Definition runs_below (w : world) : Prop := Forall (fun x => (x < w_next w)%nat) (w_run w).

(** every way NewDevice ends *)
Inductive ends {K} (env : environ) (step : controller K) (w : world) (k : K) (opts : list option_fn) (w' : world) : K -> outcome -> Prop :=
| EndClean : gone w w' -> ends env step w k opts w' k NErr
| EndBroken : w_files w' = w_files w -> w_next w' = S (w_next w) -> w_run w' = w_run w -> w_stop w' = w_next w :: w_stop w -> ends env step w k opts w' k NErr
| EndLeak c t f : new_hci opts = Some c -> params_valid c = false -> transport_for opts = Some t -> is_for t f -> (forall i, f = FRaw (Some i) -> ~ In i (held w)) -> at_fd w f w' -> ends env step w k opts w' k NErr
| EndPool c t f h k' : new_hci opts = Some c -> params_valid c = true -> transport_for opts = Some t -> is_for t f -> (forall i, f = FRaw (Some i) -> ~ In i (held w)) -> init_host step (g_host c) k = Ret (h, k', false) ->
    w_files w' = (w_next w, f) :: w_files w -> w_next w' = S (w_next w) -> w_run w' = w_run w -> w_stop w' = w_next w :: w_stop w -> ends env step w k opts w' k' NErr
| EndDevice c t f h k' : new_hci opts = Some c -> params_valid c = true -> transport_for opts = Some t -> is_for t f -> (forall i, f = FRaw (Some i) -> ~ In i (held w)) -> init_host step (g_host c) k = Ret (h, k', true) ->
    w_files w' = (w_next w, f) :: w_files w -> w_next w' = S (w_next w) -> w_run w' = w_next w :: w_run w -> w_stop w' = w_stop w -> ends env step w k opts w' k' (NDev (with_host c h) (w_next w)).

Lemma new_device_ends : forall K env rounds n (step : controller K) w k opts w' k' o, below w -> runs_below w -> new_device env rounds n step w k opts = Some (Ret (w', k', o)) -> ends env step w k opts w' k' o.
Proof.
  intros K env rounds n step w k opts w' k' o B R E. unfold new_device in E. destruct (new_hci opts) as [c|] eqn:H.
  2: { injection E as <- <- <-. apply EndClean. repeat split; lia. }
  unfold init in E. pose proof (new_hci_tr _ _ H) as T. rewrite T in E. destruct (get_transport env rounds n w (tr_of (transport_for opts))) as [[w1 r]|] eqn:G; [|discriminate].
  destruct (get_at _ _ _ _ _ _ _ B G) as [(-> & X)|(-> & t & f & O & F & A & N)].
  - injection E as <- <- <-. now apply EndClean.
  - assert (R1 : Forall (fun x => (x < w_next w)%nat) (w_run w1)) by (destruct A as (_ & _ & -> & _); exact R).
    destruct (params_valid c) eqn:P; cbn [negb] in E.
    + change (w_t (run_loops w1 (w_next w))) with (w_t w1) in E. destruct (e_break (env (w_t w1))).
      * pose proof (close_at _ _ _ B A) as (C1 & C2 & C3 & C4 & C5).
        assert (CN : close_dev (sys_close (run_loops w1 (w_next w)) (w_next w)) (w_next w) = mkW (w_files w) (S (w_next w)) (S (w_t w1)) (w_run w) (w_next w :: w_stop w)).
        { assert (SC : sys_close (run_loops w1 (w_next w)) (w_next w) = run_loops (sys_close w1 (w_next w)) (w_next w)) by reflexivity. rewrite SC, close_new by exact R1. rewrite C1, C3, C4. destruct A as (_ & A2 & _). cbn. now rewrite A2. }
        rewrite CN in E. injection E as <- <- <-. now apply EndBroken.
      * destruct (init_host step (g_host c) k) as [[[h k1] ok]|] eqn:I; cbn [gbind] in E; [|discriminate].
        destruct A as (A1 & A2 & A3 & A4 & A5). destruct ok; injection E as <- <- <-.
        -- eapply EndDevice; try eassumption. cbn. now rewrite A3.
        -- assert (CN : close_dev (tick (run_loops w1 (w_next w))) (w_next w) = tick (close_dev (run_loops w1 (w_next w)) (w_next w))) by (unfold close_dev; cbn; rewrite Nat.eqb_refl; reflexivity).
           rewrite CN, close_new by exact R1. eapply EndPool; try eassumption. cbn. now rewrite A4.
    + injection E as <- <- <-. rewrite close_not by exact R1. eapply EndLeak; eassumption.
Qed.

Lemma sane_runs : forall w, sane w -> runs_below w.
Proof. intros w S. unfold runs_below. eapply Forall_impl; [|apply (sn_run _ S)]. cbv beta. intros a H. apply H. Qed.
Lemma held_filter : forall p l, NoDup (flat_map (fun x : nat * file => match snd x with FRaw (Some i) => [i] | _ => [] end) l) -> NoDup (flat_map (fun x : nat * file => match snd x with FRaw (Some i) => [i] | _ => [] end) (filter p l)).
Proof.
  intros p l. induction l as [|x l IH]; intro N; [exact N|]. cbn [flat_map filter] in *. destruct x as [g [[i|]| |]]; cbn [snd app] in N; [inversion N as [|y m N1 N2]; subst|..]; (destruct (p _); [cbn [flat_map snd app]|]); auto.
  constructor; [|auto]. intro I. apply N1. apply in_flat_map in I. destruct I as (y & I & J). apply in_flat_map. exists y. split; [|exact J]. apply filter_In in I. apply I.
Qed.
Lemma fds_filter : forall p l, NoDup (map (@fst nat file) l) -> NoDup (map fst (filter p l)).
Proof.
  intros p l. induction l as [|x l IH]; intro N; [exact N|]. cbn [map filter] in *. inversion N as [|y m N1 N2]; subst. destruct (p x); [|auto]. cbn [map]. constructor; [|auto].
  intro I. apply N1. apply in_map_iff in I. destruct I as (y & <- & I). apply in_map. apply filter_In in I. apply I.
Qed.
Lemma sane_new : forall w f w', sane w -> (forall i, f = FRaw (Some i) -> ~ In i (held w)) -> w_files w' = (w_next w, f) :: w_files w -> w_next w' = S (w_next w) ->
  ((w_run w' = w_run w /\ (w_stop w' = w_stop w \/ w_stop w' = w_next w :: w_stop w)) \/ (w_run w' = w_next w :: w_run w /\ w_stop w' = w_stop w)) -> sane w'.
Proof.
  intros w f w' [S1 S2 S3 S4 S5] N F X RS.
  assert (FD : fds w' = w_next w :: fds w) by (unfold fds; now rewrite F).
  assert (S1' : Forall (fun fd => (fd < S (w_next w))%nat) (fds w)) by (eapply Forall_impl; [|exact S1]; cbv beta; intros; lia).
  assert (S3' : Forall (fun fd => (fd < S (w_next w))%nat) (w_stop w)) by (eapply Forall_impl; [|exact S3]; cbv beta; intros; lia).
  assert (Fr : ~ In (w_next w) (w_stop w)) by (intro I; rewrite Forall_forall in S3; specialize (S3 _ I); lia).
  assert (Fr2 : ~ In (w_next w) (fds w)) by (intro I; unfold below in S1; rewrite Forall_forall in S1; specialize (S1 _ I); lia).
  constructor.
  - unfold below. rewrite FD, X. constructor; [lia|exact S1'].
  - rewrite X, FD. destruct RS as [(-> & ST)|(-> & ->)].
    + eapply Forall_impl; [|exact S2]. cbv beta. intros a (Q1 & Q2 & Q3). split; [lia|]. split; [now right|]. destruct ST as [->| ->]; [exact Q3|]. intros [<-|I]; [lia|contradiction].
    + constructor; [split; [lia|]; split; [now left|exact Fr]|]. eapply Forall_impl; [|exact S2]. cbv beta. intros a (Q1 & Q2 & Q3). split; [lia|]. split; [now right|exact Q3].
  - rewrite X. destruct RS as [(_ & [->| ->])|(_ & ->)]; [exact S3'|constructor; [lia|exact S3']|exact S3'].
  - unfold held. rewrite F. cbn [flat_map snd]. destruct f as [[i|]| |]; cbn [app]; try exact S4. constructor; [apply N; reflexivity|exact S4].
  - rewrite FD. now constructor.
Qed.
Lemma sane_gone : forall w w', sane w -> gone w w' -> sane w'.
Proof.
  intros w w' [S1 S2 S3 S4 S5] (F & X & R & T & _). assert (FD : fds w' = fds w) by (unfold fds; now rewrite F). constructor.
  - unfold below. rewrite FD. eapply Forall_impl; [|exact S1]. cbv beta. lia.
  - rewrite R, T, FD. eapply Forall_impl; [|exact S2]. cbv beta. intros a (Q1 & Q2 & Q3). split; [lia|now split].
  - rewrite T. eapply Forall_impl; [|exact S3]. cbv beta. lia.
  - unfold held. rewrite F. exact S4.
  - now rewrite FD.
Qed.
Lemma sane_happens : forall K env w w', sane w -> happens (K := K) env w w' -> sane w'.
Proof.
  intros K env w w' S H. destruct H as [rounds n step k opts w w' k' o E|w fd|w|w].
  - destruct (new_device_ends _ _ _ _ _ _ _ _ _ _ _ (sn_below _ S) (sane_runs _ S) E).
    + now apply (sane_gone w).
    + pose proof S as [S1 S2 S3 S4 S5]. assert (FD : fds w' = fds w) by (unfold fds; congruence). constructor.
      * unfold below. rewrite FD, H0. eapply Forall_impl; [|exact S1]. cbv beta. lia.
      * rewrite H0, H1, H2, FD. eapply Forall_impl; [|exact S2]. cbv beta. intros a (Q1 & Q2 & Q3). split; [lia|]. split; [exact Q2|]. intros [<-|I]; [lia|contradiction].
      * rewrite H0, H2. constructor; [lia|]. eapply Forall_impl; [|exact S3]. cbv beta. lia.
      * unfold held. rewrite H. exact S4.
      * now rewrite FD.
    + destruct H4 as (A1 & A2 & A3 & A4 & _). apply (sane_new w f); [exact S|exact H3|exact A1|exact A2|]. left. split; [exact A3|]. now left.
    + apply (sane_new w f); try assumption. left. split; [assumption|]. now right.
    + apply (sane_new w f); try assumption. right. now split.
  - unfold close_dev. destruct (existsb (Nat.eqb fd) (w_run w)) eqn:E; [|exact S]. destruct S as [S1 S2 S3 S4 S5].
    apply existsb_exists in E. destruct E as (x & I & X). apply Nat.eqb_eq in X. subst x. constructor; cbn; try assumption.
    + rewrite Forall_forall in S2 |- *. intros a J. apply filter_In in J. destruct J as [J1 J2]. destruct (S2 _ J1) as (Q1 & Q2 & Q3). split; [exact Q1|]. split; [exact Q2|]. intros [<-|Y]; [rewrite Nat.eqb_refl in J2; discriminate|contradiction].
    + constructor; [|exact S3]. rewrite Forall_forall in S2. apply S2. exact I.
  - destruct S as [S1 S2 S3 S4 S5]. constructor; cbn.
    + unfold below, fds in *. cbn. rewrite Forall_forall in S1 |- *. intros a J. apply in_map_iff in J. destruct J as (y & <- & J). apply filter_In in J. apply S1. apply in_map. apply J.
    + rewrite Forall_forall in S2 |- *. intros a J. destruct (S2 _ J) as (Q1 & Q2 & Q3). split; [exact Q1|]. split; [|easy]. unfold fds in *. cbn. apply in_map_iff in Q2. destruct Q2 as (y & <- & Q2). apply in_map. apply filter_In. split; [exact Q2|].
      destruct (existsb (Nat.eqb (fst y)) (w_stop w)) eqn:E; [|reflexivity]. apply existsb_exists in E. destruct E as (z & Z1 & Z2). apply Nat.eqb_eq in Z2. subst z. contradiction.
    + constructor.
    + now apply held_filter.
    + now apply fds_filter.
  - destruct S as [S1 S2 S3 S4 S5]. now constructor.
Qed.
Lemma sane_later : forall K env w w', later (K := K) env w w' -> sane w -> sane w'.
Proof. intros K env w w' L. induction L as [w|w w1 w2 H L IH]; intro S; [exact S|]. apply IH. exact (sane_happens _ _ _ _ S H). Qed.
Lemma sane_fresh : sane fresh_world.
Proof. constructor; constructor. Qed.

(** A descriptor no goroutine serves is never closed *)
Definition orphan (w : world) (fd : nat) (f : file) : Prop := In (fd, f) (w_files w) /\ ~ In fd (w_run w) /\ ~ In fd (w_stop w).
Lemma orphan_happens : forall K env w w' fd f, sane w -> happens (K := K) env w w' -> orphan w fd f -> orphan w' fd f.
Proof.
  intros K env w w' fd f S H (O1 & O2 & O3).
  assert (LT : (fd < w_next w)%nat). { pose proof (sn_below _ S) as B. unfold below in B. rewrite Forall_forall in B. apply B. unfold fds. apply in_map_iff. now exists (fd, f). }
  destruct H as [rounds n step k opts w w' k' o E|w g|w|w].
  - destruct (new_device_ends _ _ _ _ _ _ _ _ _ _ _ (sn_below _ S) (sane_runs _ S) E) as [G|F1 F2 F3 F4|c t f0 _ _ _ _ _ A|c t f0 h k1 _ _ _ _ _ _ F1 F2 F3 F4|c t f0 h k1 _ _ _ _ _ _ F1 F2 F3 F4].
    + destruct G as (F & _ & R & T & _). unfold orphan. now rewrite F, R, T.
    + unfold orphan. rewrite F1, F3, F4. split; [exact O1|]. split; [exact O2|]. intros [X|X]; [lia|contradiction].
    + destruct A as (F & _ & R & T & _). unfold orphan. rewrite F, R, T. split; [now right|]. now split.
    + unfold orphan. rewrite F1, F3, F4. split; [now right|]. split; [exact O2|]. intros [X|X]; [lia|contradiction].
    + unfold orphan. rewrite F1, F3, F4. split; [now right|]. split; [|exact O3]. intros [X|X]; [lia|contradiction].
  - unfold close_dev. destruct (existsb (Nat.eqb g) (w_run w)) eqn:E; [|now split]. apply existsb_exists in E. destruct E as (x & I & X). apply Nat.eqb_eq in X. subst x. unfold orphan. cbn. split; [exact O1|]. split.
    + intro J. apply filter_In in J. now apply O2.
    + intros [<-|J]; contradiction.
  - unfold orphan. cbn. split; [|split; [exact O2|easy]]. apply filter_In. split; [exact O1|]. cbn [fst]. destruct (existsb (Nat.eqb fd) (w_stop w)) eqn:E; [|reflexivity]. apply existsb_exists in E. destruct E as (x & I & X). apply Nat.eqb_eq in X. now subst x.
  - now split.
Qed.
Lemma orphan_later : forall K env w w' fd f, later (K := K) env w w' -> sane w -> orphan w fd f -> orphan w' fd f.
Proof. intros K env w w' fd f L. induction L as [w|w w1 w2 H L IH]; intros S O; [exact O|]. apply IH; [exact (sane_happens _ _ _ _ S H)|exact (orphan_happens _ _ _ _ _ _ S H O)]. Qed.
Lemma later_trans : forall K env w w1 w2, later (K := K) env w w1 -> later (K := K) env w1 w2 -> later (K := K) env w w2.
Proof. intros K env w w1 w2 L. induction L as [w|w w0 w1 H L IH]; intro L2; [exact L2|]. apply later_step with (w1 := w0); [exact H|]. now apply IH. Qed.
