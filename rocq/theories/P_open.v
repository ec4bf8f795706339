(** Lemmas about the construction of devices. *)
Require Import Verif.Base Verif.M_uuid Verif.M_adv Verif.M_cmd Verif.M_params Verif.S_params Verif.M_gap Verif.M_open Verif.S_open.

(** ---- options ---- *)
Lemma last_cons : forall A (l : list A) a d, last (a :: l) d = last l a.
Proof. intros A l. induction l as [|b l IH]; intros a d; [reflexivity|]. change (last (a :: b :: l) d) with (last (b :: l) d). rewrite !IH. reflexivity. Qed.
Lemma set_all_cons : forall c s l, set_all c (s :: l) = set_all (fst (set c s)) l.
Proof. reflexivity. Qed.
Lemma set_all_app : forall l l' c, set_all c (l ++ l') = set_all (set_all c l) l'.
Proof. intros l l' c. unfold set_all. apply fold_left_app. Qed.
Lemma option_loop_set : forall l c ok c' ok', option_loop c ok l = (c', ok') -> c' = set_all c (setters l).
Proof.
  induction l as [|o l IH]; intros c ok c' ok' E; [now inversion E|]. cbn [option_loop] in E. destruct (apply_option c o) as [c1 ok1] eqn:A. apply IH in E. subst c'.
  change (setters (o :: l)) with ((match o with Opt s => [s] | OUser l0 _ => l0 end) ++ setters l). rewrite set_all_app. f_equal.
  destruct o as [s|l0 ok0]; cbn [apply_option] in A; inversion A; reflexivity.
Qed.
Lemma option_loop_ok : forall l c, (forall o, In o l -> exists s, o = Opt s) -> snd (option_loop c true l) = true.
Proof.
  induction l as [|o l IH]; intros c H; [reflexivity|]. destruct (H o (or_introl eq_refl)) as [s ->]. cbn [option_loop apply_option]. apply IH. intros o' I. apply H. now right.
Qed.
Ltac setting f := let l := fresh "l" in let c := fresh "c" in let IH := fresh "IH" in
  intros l; induction l as [|[| | | | | | | | |[] | | | |] l IH]; intros c; [reflexivity|..]; rewrite set_all_cons, IH; unfold f; cbn [flat_map app]; rewrite ?last_cons; reflexivity.
Lemma set_dial : forall l c, g_dial (set_all c l) = last (dialers l) (g_dial c). Proof. setting dialers. Qed.
Lemma set_listen : forall l c, g_listen (set_all c l) = last (listeners l) (g_listen c). Proof. setting listeners. Qed.
Lemma set_sync : forall l c, g_sync (set_all c l) = last (syncs l) (g_sync c). Proof. setting syncs. Qed.
Lemma set_errh : forall l c, g_errh (set_all c l) = last (errhs l) (g_errh c). Proof. setting errhs. Qed.
Lemma set_cache : forall l c, g_cache (set_all c l) = last (caches l) (g_cache c). Proof. setting caches. Qed.
Lemma set_sec : forall l c, g_sec (set_all c l) = last (managers l) (g_sec c). Proof. setting managers. Qed.
Lemma set_conn : forall l c, h_connp (g_host (set_all c l)) = last (connps l) (h_connp (g_host c)). Proof. setting connps. Qed.
Lemma set_scan : forall l c, h_scanp (g_host (set_all c l)) = last (scanps l) (h_scanp (g_host c)). Proof. setting scanps. Qed.
Lemma set_adv : forall l c, h_advp (g_host (set_all c l)) = last (advps l) (h_advp (g_host c)). Proof. setting advps. Qed.
Definition tr_of (o : option wanted) : transport :=
  match o with None => no_transport | Some (WHci id) => mkT (Some id) None None | Some (WTcp a t) => mkT None None (Some (a, t)) | Some (WTty p b) => mkT None (Some (p, b)) None end.
Lemma set_tr : forall l c o, g_tr c = tr_of o -> g_tr (set_all c l) = tr_of (last (transports l) o).
Proof.
  intros l. induction l as [|[| | | | | | | | |[] | | | |] l IH]; intros c o H; [exact H|..]; rewrite set_all_cons; unfold transports; cbn [flat_map app]; rewrite ?last_cons; apply IH; first [exact H|reflexivity].
Qed.

(** ---- descriptors ---- *)
Definition at_fd (w0 : world) (f : file) (w : world) : Prop :=
  w_files w = (w_next w0, f) :: w_files w0 /\ w_next w = S (w_next w0) /\ w_run w = w_run w0 /\ w_stop w = w_stop w0 /\ (w_t w0 <= w_t w)%nat.
Definition gone (w0 w : world) : Prop :=
  w_files w = w_files w0 /\ (w_next w0 <= w_next w)%nat /\ w_run w = w_run w0 /\ w_stop w = w_stop w0 /\ (w_t w0 <= w_t w)%nat.
Definition below (w : world) : Prop := Forall (fun fd => (fd < w_next w)%nat) (fds w).
Lemma at_tick : forall w0 f w, at_fd w0 f w -> at_fd w0 f (tick w).
Proof. intros w0 f w (A & B & C & D & E). split; [exact A|]. split; [exact B|]. split; [exact C|]. split; [exact D|]. cbn. lia. Qed.
Lemma gone_tick : forall w0 w, gone w0 w -> gone w0 (tick w).
Proof. intros w0 w (A & B & C & D & E). split; [exact A|]. split; [exact B|]. split; [exact C|]. split; [exact D|]. cbn. lia. Qed.
Lemma at_file : forall w0 f w, at_fd w0 f w -> file_of w (w_next w0) = Some f.
Proof. intros w0 f w (A & _). unfold file_of. rewrite A. cbn. now rewrite Nat.eqb_refl. Qed.
Lemma not_there : forall w, below w -> find (fun x => Nat.eqb (fst x) (w_next w)) (w_files w) = None.
Proof.
  intros w B. unfold below, fds in B. generalize dependent (w_next w). intro n. induction (w_files w) as [|[g f] l IH]; intro B; [reflexivity|]. cbn [map fst] in B. apply Forall_cons_iff in B. destruct B as [B1 B2].
  cbn [find fst]. destruct (Nat.eqb_spec g n) as [->|_]; [lia|]. now apply IH.
Qed.
Lemma gone_file : forall w0 w, below w0 -> gone w0 w -> file_of w (w_next w0) = None.
Proof. intros w0 w B (A & _). unfold file_of. rewrite A, not_there by exact B. reflexivity. Qed.
Lemma filter_below : forall w, below w -> filter (fun x => negb (Nat.eqb (fst x) (w_next w))) (w_files w) = w_files w.
Proof.
  intros w B. unfold below, fds in B. generalize dependent (w_next w). intro n. induction (w_files w) as [|[g f] l IH]; intro B; [reflexivity|]. cbn [map fst] in B. apply Forall_cons_iff in B. destruct B as [B1 B2].
  cbn [filter fst]. destruct (Nat.eqb_spec g n) as [->|_]; [lia|]. cbn [negb]. now rewrite IH.
Qed.
Lemma close_at : forall w0 f w, below w0 -> at_fd w0 f w -> gone w0 (sys_close w (w_next w0)).
Proof.
  intros w0 f w B (A & N & C & D & E). unfold gone, sys_close. cbn. rewrite A. cbn [filter fst]. rewrite Nat.eqb_refl. cbn [negb]. rewrite filter_below by exact B.
  split; [reflexivity|]. split; [lia|]. split; [exact C|]. split; [exact D|]. lia.
Qed.
Lemma close_gone : forall w0 w, below w0 -> gone w0 w -> gone w0 (sys_close w (w_next w0)).
Proof.
  intros w0 w B (A & N & C & D & E). unfold gone, sys_close. cbn. rewrite A, filter_below by exact B.
  split; [reflexivity|]. split; [lia|]. split; [exact C|]. split; [exact D|]. lia.
Qed.
Lemma holds_held : forall w i, bound_here w i = true <-> In i (held w).
Proof.
  intros w i. unfold bound_here, held. rewrite existsb_exists, in_flat_map. split; intros (x & I & H); exists x; (split; [exact I|]); destruct x as [g [[j|]| |]]; cbn in *; try discriminate; try contradiction.
  - left. lia.
  - destruct H as [->|[]]. apply Z.eqb_refl.
Qed.
Lemma bound_at : forall w0 w i, at_fd w0 (FRaw None) w -> bound_here w i = bound_here w0 i.
Proof. intros w0 w i (A & _). unfold bound_here. rewrite A. reflexivity. Qed.
Lemma map_below : forall w g, below w -> map (fun x => if Nat.eqb (fst x) (w_next w) then (w_next w, g) else x) (w_files w) = w_files w.
Proof.
  intros w g B. unfold below, fds in B. generalize dependent (w_next w). intro n. induction (w_files w) as [|[h f] l IH]; intro B; [reflexivity|]. cbn [map fst] in B. apply Forall_cons_iff in B. destruct B as [B1 B2].
  cbn [map fst]. destruct (Nat.eqb_spec h n) as [->|_]; [lia|]. now rewrite IH.
Qed.
(** sys_bind on the new descriptor *)
Lemma bind_at : forall env w0 w id w' ok, below w0 -> at_fd w0 (FRaw None) w -> sys_bind env w (w_next w0) id = (w', ok) ->
  (ok = true /\ at_fd w0 (FRaw (Some (u16 id))) w' /\ ~ In (u16 id) (held w0) /\ In (u16 id) (e_devs (env (w_t w))) /\ e_taken (env (w_t w)) (u16 id) = false /\ u16 id <> 65535) \/ (ok = false /\ at_fd w0 (FRaw None) w').
Proof.
  intros env w0 w id w' ok B A E. unfold sys_bind in E. rewrite (at_file _ _ _ A) in E.
  destruct (negb (e_deny (env (w_t w))) && negb (u16 id =? 65535) && available env w (u16 id)) eqn:G.
  - left. injection E as <- <-. split; [reflexivity|]. apply andb_prop in G. destruct G as [G1 G2]. apply andb_prop in G1. destruct G1 as [_ G1]. unfold available in G2. apply andb_prop in G2. destruct G2 as [G2 G3]. apply andb_prop in G2. destruct G2 as [G2 G4].
    split.
    + destruct A as (A1 & A2 & A3 & A4 & A5). unfold at_fd. cbn. rewrite A1. cbn [map fst]. rewrite Nat.eqb_refl, map_below by exact B. split; [reflexivity|]. split; [exact A2|]. split; [exact A3|]. split; [exact A4|]. lia.
    + split; [|split; [|split]].
      * rewrite <- holds_held. rewrite <- (bound_at _ _ _ A). destruct (bound_here w (u16 id)); [discriminate|easy].
      * apply existsb_exists in G2. destruct G2 as (x & I & X). apply Z.eqb_eq in X. now subst x.
      * destruct (e_taken (env (w_t w)) (u16 id)); [discriminate|reflexivity].
      * intro X. rewrite X in G1. discriminate.
  - right. injection E as <- <-. split; [reflexivity|]. now apply at_tick.
Qed.
Lemma open_at : forall env w0 w id w' ok, below w0 -> at_fd w0 (FRaw None) w -> open env w (w_next w0) id = (w', ok) ->
  (ok = true /\ at_fd w0 (FRaw (Some (u16 id))) w' /\ ~ In (u16 id) (held w0) /\ (exists u, (w_t w <= u)%nat /\ In (u16 id) (e_devs (env u)) /\ e_taken (env u) (u16 id) = false) /\ u16 id <> 65535) \/
  (ok = false /\ (at_fd w0 (FRaw None) w' \/ exists j, at_fd w0 (FRaw (Some j)) w' /\ ~ In j (held w0))).
Proof.
  intros env w0 w id w' ok B A E. unfold open in E. unfold sys_down in E. rewrite (at_file _ _ _ A) in E.
  destruct (negb (e_deny (env (w_t w))) && available env w (u16 id)).
  - destruct (sys_bind env (tick w) (w_next w0) id) as [w1 ok1] eqn:BD. destruct (bind_at _ _ _ _ _ _ B (at_tick _ _ _ A) BD) as [(-> & A1 & N & I1 & I2 & I3)|(-> & A1)].
    + destruct (e_poll (env (w_t w1))); injection E as <- <-.
      * right. split; [reflexivity|]. right. eexists. split; [apply at_tick; exact A1|exact N].
      * left. split; [reflexivity|]. split; [now do 2 apply at_tick|]. split; [exact N|]. split; [|exact I3]. exists (w_t (tick w)). split; [cbn; lia|]. now split.
      * left. split; [reflexivity|]. split; [now apply at_tick|]. split; [exact N|]. split; [|exact I3]. exists (w_t (tick w)). split; [cbn; lia|]. now split.
    + injection E as <- <-. right. split; [reflexivity|]. now left.
  - injection E as <- <-. right. split; [reflexivity|]. left. now apply at_tick.
Qed.
Lemma open_bound : forall env w0 w id j, at_fd w0 (FRaw (Some j)) w -> open env w (w_next w0) id = (tick w, false).
Proof. intros env w0 w id j A. unfold open, sys_down. rewrite (at_file _ _ _ A). reflexivity. Qed.
Lemma open_gone : forall env w0 w id, below w0 -> gone w0 w -> open env w (w_next w0) id = (tick w, false).
Proof. intros env w0 w id B G. unfold open, sys_down. rewrite (gone_file _ _ B G). reflexivity. Qed.
Lemma retry_gone : forall env n w0 w id, below w0 -> gone w0 w -> exists w', retry env n w (w_next w0) id = (w', false) /\ gone w0 w'.
Proof.
  intros env n. induction n as [|n IH]; intros w0 w id B G; [now exists w|]. cbn [retry]. rewrite (open_gone env _ _ id B G). apply IH; [exact B|]. apply close_gone; [exact B|]. now apply gone_tick.
Qed.
Lemma retry_first : forall env n w0 w id, below w0 -> at_fd w0 (FRaw None) w ->
  (open env w (w_next w0) id = (fst (open env w (w_next w0) id), true) /\ retry env (S n) w (w_next w0) id = open env w (w_next w0) id) \/
  (snd (open env w (w_next w0) id) = false /\ exists w', retry env (S n) w (w_next w0) id = (w', false) /\ gone w0 w').
Proof.
  intros env n w0 w id B A. destruct (open env w (w_next w0) id) as [w1 ok] eqn:O. destruct (open_at _ _ _ _ _ _ B A O) as [(-> & _)|(-> & C)].
  - left. split; [reflexivity|]. cbn [retry]. now rewrite O.
  - right. split; [reflexivity|]. cbn [retry]. rewrite O. apply retry_gone; [exact B|]. destruct C as [C|(j & C & _)]; exact (close_at _ _ _ B C).
Qed.
Lemma first_bound : forall env m w0 w id j, at_fd w0 (FRaw (Some j)) w -> exists w', first_open env m w (w_next w0) id = (w', false) /\ at_fd w0 (FRaw (Some j)) w'.
Proof.
  intros env m. induction m as [|m IH]; intros w0 w id j A; [now exists w|]. cbn [first_open]. rewrite (open_bound env _ _ id j A). apply IH. now apply at_tick.
Qed.
(** one device after the other: the first one that opens; the ones before it were refused *)
Lemma first_at : forall env m w0 w id w' ok, below w0 -> at_fd w0 (FRaw None) w -> first_open env m w (w_next w0) id = (w', ok) ->
  (ok = true /\ exists i, id <= i < id + Z.of_nat m /\ at_fd w0 (FRaw (Some (u16 i))) w' /\ ~ In (u16 i) (held w0) /\ (exists u, (w_t w <= u)%nat /\ In (u16 i) (e_devs (env u)) /\ e_taken (env u) (u16 i) = false)) \/
  (ok = false /\ exists f, at_fd w0 f w').
Proof.
  intros env m. induction m as [|m IH]; intros w0 w id w' ok B A E; cbn [first_open] in E.
  - injection E as <- <-. right. split; [reflexivity|]. now exists (FRaw None).
  - destruct (open env w (w_next w0) id) as [w1 ok1] eqn:O. destruct (open_at _ _ _ _ _ _ B A O) as [(-> & A1 & N & U & _)|(-> & [C|(j & C & _)])].
    + injection E as <- <-. left. split; [reflexivity|]. exists id. split; [lia|]. split; [exact A1|]. now split.
    + destruct (IH _ _ _ _ _ B C E) as [(-> & i & R & H1 & H2 & u & U1 & U2)|H]; [|now right]. left. split; [reflexivity|]. exists i. split; [lia|]. split; [exact H1|]. split; [exact H2|]. exists u. split; [|exact U2].
      assert (w_t w <= w_t w1)%nat; [|lia]. revert O. unfold open, sys_down, sys_bind. clear. destruct (match file_of w (w_next w0) with Some (FRaw None) => _ | _ => false end); [|intro E; injection E as <-; cbn; lia].
      destruct (file_of (tick w) (w_next w0)) as [[[|]| |]|]; try (intro E; injection E as <-; cbn; lia).
      destruct (_ && _ && _); [|intro E; injection E as <-; cbn; lia]. destruct (e_poll _); intro E; injection E as <-; cbn; lia.
    + destruct (first_bound env m _ _ (id + 1) _ C) as (w2 & E2 & C2). rewrite E2 in E. injection E as <- <-. right. split; [reflexivity|]. eexists. exact C2.
Qed.
Lemma new_at : forall env w f w' r, sys_new env w f = (w', r) -> (r = None /\ gone w w') \/ (r = Some (w_next w) /\ at_fd w f w').
Proof.
  intros env w f w' r E. unfold sys_new in E. destruct (e_deny (env (w_t w))); injection E as <- <-.
  - left. split; [reflexivity|]. apply gone_tick. repeat split; lia.
  - right. split; [reflexivity|]. apply at_tick. repeat split; cbn; lia.
Qed.
Lemma new_socket_at : forall env rounds w id w' r, below w -> new_socket env rounds w id = (w', r) ->
  (r = None /\ gone w w') \/ (r = Some (w_next w) /\ exists i, at_fd w (FRaw (Some i)) w' /\ ~ In i (held w) /\ (id <> -1 -> i = u16 id) /\
    (id = -1 -> exists j l, i = u16 j /\ 0 <= j < Z.of_nat (length l) /\ (exists u, (w_t w <= u)%nat /\ l = firstn 16 (e_devs (env u)))) /\
    exists u, (w_t w <= u)%nat /\ In i (e_devs (env u)) /\ e_taken (env u) i = false).
Proof.
  intros env rounds w id w' r B E. unfold new_socket in E. destruct (sys_new env w (FRaw None)) as [w1 r1] eqn:N. destruct (new_at _ _ _ _ _ N) as [(-> & G)|(-> & A)].
  - injection E as <- <-. left. now split.
  - assert (T1 : (w_t w <= w_t w1)%nat) by apply A. destruct (id =? -1) eqn:I; cbn [negb] in E.
    + apply Z.eqb_eq in I. unfold sys_devlist in E. rewrite (at_file _ _ _ A) in E. destruct (e_deny (env (w_t w1))) eqn:D; cbv beta iota zeta in E.
      * injection E as <- <-. left. split; [reflexivity|]. apply close_at with (f := FRaw None); [exact B|]. now apply at_tick.
      * destruct (first_open env (length (firstn 16 (e_devs (env (w_t w1))))) (tick w1) (w_next w) 0) as [w2 ok] eqn:F.
        destruct (first_at _ _ _ _ _ _ _ B (at_tick _ _ _ A) F) as [(-> & i & R & H1 & H2 & u & U1 & U2)|(-> & f & H)].
        -- injection E as <- <-. right. split; [reflexivity|]. exists (u16 i). split; [exact H1|]. split; [exact H2|]. split; [intro; lia|]. split.
           ++ intros _. exists i, (firstn 16 (e_devs (env (w_t w1)))). split; [reflexivity|]. split; [lia|]. exists (w_t w1). split; [exact T1|reflexivity].
           ++ exists u. cbn in U1. split; [lia|exact U2].
        -- injection E as <- <-. left. split; [reflexivity|]. exact (close_at _ _ _ B H).
    + apply Z.eqb_neq in I. destruct (retry_first env rounds w w1 id B A) as [(O & R)|(_ & w2 & R & G)]; rewrite R in E.
      * destruct (open env w1 (w_next w) id) as [w2 ok] eqn:OP. injection O as ->. injection E as <- <-. right. split; [reflexivity|].
        destruct (open_at _ _ _ _ _ _ B A OP) as [(_ & A2 & NH & (u & U1 & U2) & _)|(X & _)]; [|discriminate]. exists (u16 id). split; [exact A2|]. split; [exact NH|]. split; [reflexivity|]. split; [intro; lia|]. exists u. split; [lia|exact U2].
      * injection E as <- <-. left. now split.
Qed.
Lemma wait_files : forall env eof n w0 f w w' ok, at_fd w0 f w -> wait_idle env eof n w = Some (w', ok) -> at_fd w0 f w'.
Proof.
  intros env eof n. induction n as [|n IH]; intros w0 f w w' ok A E; [discriminate|]. cbn [wait_idle] in E. pose proof (at_tick _ _ _ A) as A1.
  destruct (e_read (env (w_t w))) as [[|k]| | |]; [injection E as <- _; exact A1| |..];
    (destruct (e_late (env (w_t w))); [injection E as <- _; exact A1|]); first [exact (IH _ _ _ _ _ A1 E)|injection E as <- _; exact A1].
Qed.
Lemma new_h4_at : forall env f eof n w w' r, below w -> new_h4 env f eof n w = Some (w', r) -> (r = None /\ gone w w') \/ (r = Some (w_next w) /\ at_fd w f w').
Proof.
  intros env f eof n w w' r B E. unfold new_h4 in E. destruct (sys_new env w f) as [w1 r1] eqn:N. destruct (new_at _ _ _ _ _ N) as [(-> & G)|(-> & A)].
  - injection E as <- <-. left. now split.
  - destruct (reset_and_wait env eof n w1) as [[w2 ok]|] eqn:R; [|discriminate].
    assert (A2 : at_fd w f w2). { unfold reset_and_wait in R. destruct (e_deny (env (w_t w1))); [injection R as <- _; now apply at_tick|]. exact (wait_files _ _ _ _ _ _ _ _ (at_tick _ _ _ A) R). }
    destruct ok; injection E as <- <-; [right; now split|]. left. split; [reflexivity|]. exact (close_at _ _ _ B A2).
Qed.
(** what getTransport leaves open *)
Lemma get_at : forall env rounds n w o w' r, below w -> get_transport env rounds n w (tr_of o) = Some (w', r) ->
  (r = None /\ gone w w') \/ (r = Some (w_next w) /\ exists t f, o = Some t /\ is_for t f /\ at_fd w f w' /\ (forall i, f = FRaw (Some i) -> ~ In i (held w))).
Proof.
  intros env rounds n w o w' r B E. destruct o as [[id|a tm|p b]|]; cbn in E.
  - injection E as E. destruct (new_socket_at _ _ _ _ _ _ B E) as [H|(-> & i & A & N & I1 & I2 & _)]; [now left|]. right. split; [reflexivity|]. exists (WHci id), (FRaw (Some i)). split; [reflexivity|]. split.
    + cbn. destruct (Z.eqb_spec id (-1)) as [X|X]; [now exists i|]. rewrite (I1 X). reflexivity.
    + split; [exact A|]. intros j J. injection J as <-. exact N.
  - destruct (new_h4_at _ _ _ _ _ _ _ B E) as [H|(-> & A)]; [now left|]. right. split; [reflexivity|]. exists (WTcp a tm), (FTcp a). split; [reflexivity|]. split; [reflexivity|]. split; [exact A|discriminate].
  - destruct (new_h4_at _ _ _ _ _ _ _ B E) as [H|(-> & A)]; [now left|]. right. split; [reflexivity|]. eexists (WTty p b), _. split; [reflexivity|]. split; [reflexivity|]. split; [exact A|discriminate].
  - injection E as <- <-. left. split; [reflexivity|]. repeat split; lia.
Qed.
