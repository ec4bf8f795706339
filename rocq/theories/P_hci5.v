(** Proofs about the HCI host: the life of a connection. *)
Require Import Verif.Base Verif.M_uuid Verif.M_advrep Verif.M_hci Verif.S_hci Verif.P_hci Verif.P_hci2 Verif.P_hci3 Verif.P_hci4.

Definition flags (k : conn) : bool * bool := (k_inclosed k, k_done k).
Definition stays (s s' : host) (c : nat) (k : conn) : Prop :=
  exists k', nth_error (objs s') c = Some k' /\ idof k' = idof k /\ flags k' = flags k.
Definition oeqz (o : option Z) (x : Z) : bool := match o with Some y => y =? x | None => false end.

Definition shuts (a : act) : bool := match a with AShut => true | _ => false end.
(** One step: the table, and the flags of every connection. *)
Lemma step_life : forall smp s a s', inv s -> exec smp s a = Ret (Some s') ->
  isopen s' = (isopen s && negb (shuts a))%bool /\
  (forall x, tab s' x = match new_conns a with
                        | (h, _, _) :: _ => if x =? h then Some (length (objs s)) else tab s x
                        | [] => if oeqz (removes s a) x then None else tab s x
                        end) /\
  (forall h role addr, new_conns a = [(h, role, addr)] ->
     nth_error (objs s') (length (objs s)) = Some (mkConn h role addr [] false false RxRun)) /\
  (forall c k, nth_error (objs s) c = Some k ->
     exists k', nth_error (objs s') c = Some k' /\ idof k' = idof k /\
       flags k' = if (match removes s a with Some h => match tab s h with Some c' => Nat.eqb c' c | None => false end | None => false end)
                  then (true, isopen s || negb (k_role k =? 1))%bool else flags k).
Proof.
  intros smp s a s' I E.
  assert (Simple : forall x, removes s a = None -> new_conns a = [] -> x = s' -> isopen x = (isopen s && negb (shuts a))%bool -> (forall h, tab x h = tab s h) ->
    (forall c k, nth_error (objs s) c = Some k -> stays s x c k) ->
    isopen s' = (isopen s && negb (shuts a))%bool /\
  (forall x, tab s' x = match new_conns a with
                        | (h, _, _) :: _ => if x =? h then Some (length (objs s)) else tab s x
                        | [] => if oeqz (removes s a) x then None else tab s x
                        end) /\
  (forall h role addr, new_conns a = [(h, role, addr)] ->
     nth_error (objs s') (length (objs s)) = Some (mkConn h role addr [] false false RxRun)) /\
  (forall c k, nth_error (objs s) c = Some k ->
     exists k', nth_error (objs s') c = Some k' /\ idof k' = idof k /\
       flags k' = if (match removes s a with Some h => match tab s h with Some c' => Nat.eqb c' c | None => false end | None => false end)
                  then (true, isopen s || negb (k_role k =? 1))%bool else flags k)).
  { intros x -> -> <- H1 H2 H3. split; [exact H1|]. split; [exact H2|]. split; [discriminate|]. intros c k K. exact (H3 c k K). }
  assert (Clean : forall x h, removes s a = Some h -> new_conns a = [] -> shuts a = false -> inv x -> cleanup x h = Ret s' -> isopen x = isopen s -> (forall h, tab x h = tab s h) ->
    (forall c k, nth_error (objs s) c = Some k -> stays s x c k) ->
    isopen s' = (isopen s && negb (shuts a))%bool /\
  (forall x, tab s' x = match new_conns a with
                        | (h, _, _) :: _ => if x =? h then Some (length (objs s)) else tab s x
                        | [] => if oeqz (removes s a) x then None else tab s x
                        end) /\
  (forall h role addr, new_conns a = [(h, role, addr)] ->
     nth_error (objs s') (length (objs s)) = Some (mkConn h role addr [] false false RxRun)) /\
  (forall c k, nth_error (objs s) c = Some k ->
     exists k', nth_error (objs s') c = Some k' /\ idof k' = idof k /\
       flags k' = if (match removes s a with Some h => match tab s h with Some c' => Nat.eqb c' c | None => false end | None => false end)
                  then (true, isopen s || negb (k_role k =? 1))%bool else flags k)).
  { intros x h -> -> -> Ix C H1 H2 H3. destruct (cleanup_effect _ _ _ Ix C) as (_ & M & _ & _ & _ & _ & O & _ & _ & _ & T & H).
    split; [rewrite O, H1, andb_true_r; reflexivity|]. split; [intros y; rewrite T; cbn [oeqz]; rewrite Z.eqb_sym; rewrite H2; reflexivity|]. split; [discriminate|].
    intros c k K. destruct (H3 c k K) as (k1 & K1 & F1 & F2).
    assert (L : exists k', nth_error (objs s') c = Some k').
    { destruct (nth_error (objs s') c) eqn:Y; [eauto|]. apply nth_error_None in Y.
      assert (L2 : (c < length (map idof (objs x)))%nat) by (rewrite map_length; apply nth_error_Some; congruence).
      rewrite <- M, map_length in L2. lia. }
    destruct L as [k' K']. exists k'. split; [exact K'|]. destruct (H _ _ K') as (k2 & K2 & _ & _ & F3 & F4 & F5).
    rewrite K1 in K2. injection K2 as <-. split; [congruence|]. rewrite H2 in F4, F5.
    destruct (tab s h) as [c'|] eqn:T'.
    - destruct (Nat.eqb_spec c' c) as [->|N].
      + destruct (F4 eq_refl) as [G1 G2]. unfold flags. rewrite G1, G2, H1. unfold idof in F1. replace (k_role k1) with (k_role k) by congruence. reflexivity.
      + rewrite F5 by congruence. exact F2.
    - rewrite F5 by discriminate. exact F2. }
  assert (Same : forall c k, nth_error (objs s) c = Some k -> stays s s c k) by (intros c k K; exists k; auto).
  assert (Upd : forall c k k', nth_error (objs s) c = Some k -> idof k' = idof k -> flags k' = flags k ->
     forall c0 k0, nth_error (objs s) c0 = Some k0 -> stays s (set_conn s c k') c0 k0).
  { intros c k k' K H1 H2 c0 k0 K0. unfold stays. fields. destruct (Nat.eq_dec c c0) as [->|N].
    - exists k'. rewrite (nth_upd_same _ _ _ _ K). split; [reflexivity|]. split; congruence.
    - exists k0. rewrite nth_upd_other by exact N. auto. }
  destruct a; cbn [exec] in E.
  - destruct (loop s) eqn:L; try discriminate E.
    destruct (dec_pkt b) as [k|] eqn:D; [|discriminate E]. cbn [gbind] in E.
    assert (A2 : new_conns (APkt b) = match k with KConn h r _ addr => [(h, r, addr)] | _ => [] end) by (cbn; now rewrite D).
    assert (A3 : removes s (APkt b) = match k with KDisc h r => if r =? 22 then None else Some h | _ => None end) by (cbn; now rewrite D).
    destruct k as [h p|h role pt addr|h reason|h rest|h st|code p|p|p|];
      try (injection E as <-; apply (Simple s); auto; cbn; now rewrite andb_true_r).
    + destruct (tab s h) as [c|] eqn:T; injection E as <-; eapply Simple; auto; try exact Same; cbn; now rewrite andb_true_r.
    + injection E as <-. rewrite A2, A3. fields. split; [cbn; now rewrite andb_true_r|]. split; [intros x; unfold sett; reflexivity|]. split.
      * intros h' r' a' X. injection X as <- <- <-. rewrite nth_error_app2 by lia. now rewrite Nat.sub_diag.
      * intros c k K. exists k. split; [now apply nth_app_ex|]. auto.
    + destruct (reason =? 22); [injection E as <-; apply (Simple s); auto; cbn; now rewrite andb_true_r|].
      destruct (cleanup s h) as [s1|] eqn:C; [|discriminate E]. injection E as <-. apply (Clean s h); auto.
    + destruct (tab s h); [|injection E as <-; apply (Simple s); auto; cbn; now rewrite andb_true_r]. destruct rest as [x|]; [|discriminate E]. cbn [gbind] in E.
      destruct (negb (fst x =? 0) && negb smp); [discriminate E|]. injection E as <-. apply (Simple s); auto; cbn; now rewrite andb_true_r.
    + destruct (tab s h); [|injection E as <-; apply (Simple s); auto; cbn; now rewrite andb_true_r]. destruct (negb (st =? 0) && negb smp); [discriminate E|].
      injection E as <-. apply (Simple s); auto; cbn; now rewrite andb_true_r.
  - destruct (loop s) as [|c p|c|c| |] eqn:L; try discriminate E.
    destruct (nth_error (objs s) c) as [k|] eqn:K; [|discriminate E].
    destruct (k_inclosed k); [discriminate E|]. destruct (Nat.ltb (length (k_in k)) in_cap); [|discriminate E]. injection E as <-.
    eapply Simple; try reflexivity; [cbn; now rewrite andb_true_r|]. exact (Upd c k (set_in k (k_in k ++ [p])) K eq_refl eq_refl).
  - destruct (loop s) as [|c p|c|c| |] eqn:L; try discriminate E.
    destruct (mclosed s); [discriminate E|]. destruct (master s); [|discriminate E]. injection E as <-. eapply Simple; try reflexivity; [cbn; now rewrite andb_true_r|exact Same].
  - destruct (loop s) as [|c p|c|c| |] eqn:L; try discriminate E. injection E as <-. eapply Simple; try reflexivity; [cbn; now rewrite andb_true_r|exact Same].
  - destruct (loop s) as [|c p|c|c| |] eqn:L; try discriminate E. injection E as <-. eapply Simple; try reflexivity; [cbn; now rewrite andb_true_r|exact Same].
  - destruct (nth_error (objs s) c) as [k|] eqn:K; [|discriminate E].
    destruct (k_rx k) eqn:R; try discriminate E. destruct (k_in k) as [|p q] eqn:Q; [discriminate E|]. injection E as <-.
    eapply Simple; try reflexivity; [cbn; now rewrite andb_true_r|]. exact (Upd c k (set_in k q) K eq_refl eq_refl).
  - destruct (nth_error (objs s) c) as [k|] eqn:K; [|discriminate E]. destruct (k_rx k) eqn:R; try discriminate E. injection E as <-.
    eapply Simple; try reflexivity; [cbn; now rewrite andb_true_r|]. exact (Upd c k (set_rx k RxClean) K eq_refl eq_refl).
  - destruct (nth_error (objs s) c) as [k|] eqn:K; [|discriminate E].
    destruct (k_rx k) eqn:R; try discriminate E. destruct (mlock s); [discriminate E|].
    assert (I1 : inv (set_conn s c (set_rx k RxEnd))) by (eapply conn_inv; eauto; cbn; now apply (i_cap _ I c)).
    destruct (cleanup (set_conn s c (set_rx k RxEnd)) (k_handle k)) as [s1|] eqn:C; [|discriminate E]. injection E as <-.
    eapply Clean; try exact C; try exact I1; try reflexivity; [cbn; now rewrite K|]. exact (Upd c k (set_rx k RxEnd) K eq_refl eq_refl).
  - destruct (nth_error (objs s) c) as [k|] eqn:K; [|discriminate E]. destruct (k_rx k) eqn:R; try discriminate E.
    destruct ((k_inclosed k && Nat.eqb (length (k_in k)) 0) || negb (isopen s))%bool; [|discriminate E]. injection E as <-.
    eapply Simple; try reflexivity; [cbn; now rewrite andb_true_r|]. exact (Upd c k (set_rx k RxEnd) K eq_refl eq_refl).
  - destruct (Nat.ltb c (length (objs s))); [|discriminate E]. injection E as <-. eapply Simple; try reflexivity; [cbn; now rewrite andb_true_r|exact Same].
  - destruct (nth_error (closers s) i) as [[c|c|c|c]|]; try discriminate E. destruct (nth_error (objs s) c); [|discriminate E]. injection E as <-. eapply Simple; try reflexivity; [cbn; now rewrite andb_true_r|exact Same].
  - destruct (nth_error (closers s) i) as [[c|c|c|c]|] eqn:N; try discriminate E. injection E as <-. eapply Simple; try reflexivity; [cbn; now rewrite andb_true_r|exact Same].
  - destruct (nth_error (closers s) i) as [[c|c|c|c]|] eqn:N; try discriminate E. destruct (nth_error (objs s) c) as [k|] eqn:K; [|discriminate E].
    destruct (mlock s); [discriminate E|].
    assert (I1 : inv (set_closers s (upd (closers s) i (ClRet c)))) by (apply closers_upd_inv with c; eauto).
    destruct (cleanup (set_closers s (upd (closers s) i (ClRet c))) (k_handle k)) as [s1|] eqn:C; [|discriminate E]. injection E as <-.
    eapply Clean; try exact C; try exact I1; try reflexivity; [cbn; now rewrite N, K|exact Same].
  - destruct (haserr s || negb (isopen s))%bool; [discriminate E|]. injection E as <-. eapply Simple; try reflexivity; [cbn; now rewrite andb_true_r|exact Same].
  - destruct (nth_error (dials s) i) as [[x|x|x|x y|x|x]|]; try discriminate E; destruct (master s); try discriminate E; injection E as <-; eapply Simple; try reflexivity; try exact Same; cbn; now rewrite andb_true_r.
  - destruct (nth_error (dials s) i) as [[x|x|x|x y|x|x]|]; try discriminate E; destruct (mclosed s && Nat.eqb (length (master s)) 0)%bool; try discriminate E. injection E as <-. eapply Simple; try reflexivity; [cbn; now rewrite andb_true_r|exact Same].
  - destruct (nth_error (dials s) i) as [[x|x|x|x y|x|x]|]; try discriminate E. injection E as <-. eapply Simple; try reflexivity; [cbn; now rewrite andb_true_r|exact Same].
  - destruct (nth_error (dials s) i) as [[x|x|x|x y|x|x]|]; try discriminate E. destruct (isopen s) eqn:O; [discriminate E|]. injection E as <-. eapply Simple; try reflexivity; [cbn; now rewrite O|exact Same].
  - destruct (nth_error (dials s) i) as [[x|x|x|x y|x|x]|]; try discriminate E. injection E as <-. eapply Simple; try reflexivity; [cbn; now rewrite andb_true_r|exact Same].
  - destruct (nth_error (dials s) i) as [[x|x|x|x y|x|x]|]; try discriminate E. injection E as <-. eapply Simple; try reflexivity; [cbn; now rewrite andb_true_r|exact Same].
  - destruct (nth_error (dials s) i) as [[x|x|x|x y|x|x]|]; try discriminate E. injection E as <-. eapply Simple; try reflexivity; [cbn; now rewrite andb_true_r|exact Same].
  - destruct (nth_error (dials s) i) as [[x|x|x|x y|x|x]|]; try discriminate E. injection E as <-. eapply Simple; try reflexivity; [cbn; now rewrite andb_true_r|exact Same].
  - injection E as <-. eapply Simple; try reflexivity; [cbn; now rewrite andb_false_r|exact Same].
  - injection E as <-. eapply Simple; try reflexivity; [cbn; now rewrite andb_true_r|exact Same].
  - destruct (loop s) as [|c p|c|c| |] eqn:L; try discriminate E. injection E as <-. eapply Simple; try reflexivity; [cbn; now rewrite andb_true_r|exact Same].
  - destruct (loop s) as [|c p|c|c| |] eqn:L; try discriminate E. destruct (mlock s); [discriminate E|].
    destruct (cleanup s h) as [s1|] eqn:C; [|discriminate E]. injection E as <-. eapply Clean; try exact C; try exact I; try reflexivity; exact Same.
  - destruct (loop s) as [|c p|c|c| |] eqn:L; try discriminate E. destruct (forallb _ _); [|discriminate E]. injection E as <-. eapply Simple; try reflexivity; [cbn; now rewrite andb_true_r|exact Same].
Qed.
