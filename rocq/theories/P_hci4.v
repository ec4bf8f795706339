(** Proofs about the HCI host: routing of data and life of connections. *)
Require Import Verif.Base Verif.M_uuid Verif.M_advrep Verif.M_hci Verif.S_hci Verif.P_hci Verif.P_hci2 Verif.P_hci3.

(** ---- a complete description of each step, without the shared record updates ---- *)
Definition idof (k : conn) : Z * Z * bytes := (k_handle k, k_role k, k_addr k).

Lemma map_upd : forall {A B} (f : A -> B) l i x y, nth_error l i = Some y -> f x = f y -> map f (upd l i x) = map f l.
Proof.
  intros A B f l. induction l as [|z l IH]; intros [|i] x y H E; cbn in *; try discriminate; [injection H as ->; congruence|].
  f_equal. eapply IH; eauto.
Qed.

Lemma cleanup_effect : forall s h s', inv s -> cleanup s h = Ret s' ->
  loop s' = loop s /\ map idof (objs s') = map idof (objs s) /\ closers s' = closers s /\ dials s' = dials s /\ accepted s' = accepted s /\
  master s' = master s /\ isopen s' = isopen s /\ haserr s' = haserr s /\ mlock s' = mlock s /\ mclosed s' = mclosed s /\
  (forall x, tab s' x = if x =? h then None else tab s x) /\
  (forall c k', nth_error (objs s') c = Some k' -> exists k, nth_error (objs s) c = Some k /\ k_in k' = k_in k /\ k_rx k' = k_rx k /\ idof k' = idof k /\
     (tab s h = Some c -> k_inclosed k' = true /\ k_done k' = (isopen s || negb (k_role k =? 1))%bool) /\
     (tab s h <> Some c -> k' = k)).
Proof.
  intros s h s' I E. destruct (cleanup_cases s h I) as [[T E1]|(c & k & d & T & K & H1 & H2 & H3 & Hd & E1)]; rewrite E1 in E; injection E as <-.
  - repeat (split; [reflexivity|]). split.
    + intros x. destruct (Z.eqb_spec x h); [subst; exact T|reflexivity].
    + intros c k' X. exists k'. split; [exact X|]. repeat (split; [reflexivity|]). split; [intros; congruence|auto].
  - fields. repeat (split; [reflexivity|]). split.
    { apply (map_upd idof _ _ _ _ K). reflexivity. }
    repeat (split; [reflexivity|]).
    intros c' k' X. apply (nth_upd_some (objs s)) in X. destruct X as [[<- ->]|[N X]].
      + exists k. split; [exact K|]. repeat (split; [reflexivity|]). cbn. split; [auto|]. intros X; exfalso; apply X; exact T.
      + exists k'. split; [exact X|]. repeat (split; [reflexivity|]). split; [intros; congruence|auto].
Qed.

Definition qin (s : host) (c : nat) : list bytes := match nth_error (objs s) c with Some k => k_in k | None => [] end.
Definition put1 (s : host) (a : act) (c : nat) : list bytes :=
  match a, loop s with AAclPut, LAcl c' p => if Nat.eqb c' c then [p] else [] | _, _ => [] end.
Definition take1 (s : host) (a : act) (c : nat) : list bytes :=
  match a with ARxTake c' => if Nat.eqb c' c then match nth_error (objs s) c with Some k => firstn 1 (k_in k) | None => [] end else [] | _ => [] end.
Definition addr1 (s : host) (a : act) (c : nat) : list bytes :=
  match arrivals1 a with (h, p) :: _ => match tab s h with Some c' => if Nat.eqb c' c then [p] else [] | None => [] end | [] => [] end.

Lemma qin_upd : forall s c k k' c', nth_error (objs s) c = Some k ->
  qin (set_conn s c k') c' = if Nat.eqb c c' then k_in k' else qin s c'.
Proof.
  intros s c k k' c' K. unfold qin. fields. destruct (Nat.eqb_spec c c') as [->|N]; [now rewrite (nth_upd_same _ _ _ _ K)|].
  now rewrite nth_upd_other.
Qed.
Lemma cleanup_qin : forall s h s' c, inv s -> cleanup s h = Ret s' -> qin s' c = qin s c.
Proof.
  intros s h s' c I E. destruct (cleanup_effect _ _ _ I E) as (_ & M & _ & _ & _ & _ & _ & _ & _ & _ & _ & H). unfold qin.
  destruct (nth_error (objs s') c) as [k'|] eqn:X; [destruct (H _ _ X) as (k & K & Q & _); now rewrite K|].
  destruct (nth_error (objs s) c) as [k|] eqn:Y; [|reflexivity].
  apply (map_nth_error idof) in Y. rewrite <- M in Y. apply nth_error_None in X. exfalso.
  assert (L : (c < length (map idof (objs s')))%nat) by (apply nth_error_Some; congruence). rewrite map_length in L. lia.
Qed.

(** One step: the packet in hand, the queue of every connection, the identity of every connection. *)
Lemma step_data : forall smp s a s' c, inv s -> exec smp s a = Ret (Some s') ->
  in_hand s c ++ addr1 s a c = put1 s a c ++ in_hand s' c /\
  qin s c ++ put1 s a c = take1 s a c ++ qin s' c /\
  map idof (objs s') = map idof (objs s) ++ new_conns a.
Proof.
  intros smp s a s' c0 I E.
  assert (Simple : forall x, addr1 s a c0 = [] -> put1 s a c0 = [] -> take1 s a c0 = [] -> new_conns a = [] -> x = s' -> in_hand s c0 = in_hand x c0 -> objs x = objs s ->
    in_hand s c0 ++ addr1 s a c0 = put1 s a c0 ++ in_hand s' c0 /\ qin s c0 ++ put1 s a c0 = take1 s a c0 ++ qin s' c0 /\ map idof (objs s') = map idof (objs s) ++ new_conns a).
  { intros x -> -> -> -> <- H1 H2. unfold qin. rewrite H1, H2, !app_nil_r. auto. }
  assert (Clean : forall x h, addr1 s a c0 = [] -> put1 s a c0 = [] -> take1 s a c0 = [] -> new_conns a = [] -> inv x -> cleanup x h = Ret s' -> in_hand s c0 = in_hand x c0 -> qin x c0 = qin s c0 ->
      map idof (objs x) = map idof (objs s) ->
    in_hand s c0 ++ addr1 s a c0 = put1 s a c0 ++ in_hand s' c0 /\ qin s c0 ++ put1 s a c0 = take1 s a c0 ++ qin s' c0 /\ map idof (objs s') = map idof (objs s) ++ new_conns a).
  { intros x h -> -> -> -> Ix Ex H1 H2 H3. destruct (cleanup_effect _ _ _ Ix Ex) as (L & M & _). rewrite (cleanup_qin _ _ _ c0 Ix Ex).
    rewrite H1, H2, !app_nil_r, M, H3. unfold in_hand. rewrite L. auto. }
  assert (Conn : forall c k k', addr1 s a c0 = [] -> put1 s a c0 = [] -> new_conns a = [] -> nth_error (objs s) c = Some k -> s' = set_conn s c k' -> idof k' = idof k ->
      qin s c0 = take1 s a c0 ++ (if Nat.eqb c c0 then k_in k' else qin s c0) ->
    in_hand s c0 ++ addr1 s a c0 = put1 s a c0 ++ in_hand s' c0 /\ qin s c0 ++ put1 s a c0 = take1 s a c0 ++ qin s' c0 /\ map idof (objs s') = map idof (objs s) ++ new_conns a).
  { intros c k k' -> -> -> K -> H1 H2. rewrite (qin_upd s c k k' c0 K), <- H2, !app_nil_r. fields. rewrite (map_upd idof _ _ _ _ K H1). auto. }
  destruct a; cbn [exec] in E.
  - destruct (loop s) eqn:L; try discriminate E.
    destruct (dec_pkt b) as [k|] eqn:D; [|discriminate E]. cbn [gbind] in E.
    assert (A1 : arrivals1 (APkt b) = match k with KAcl h p => [(h, p)] | _ => [] end) by (cbn; now rewrite D).
    assert (A2 : new_conns (APkt b) = match k with KConn h r _ addr => [(h, r, addr)] | _ => [] end) by (cbn; now rewrite D).
    assert (P1 : put1 s (APkt b) c0 = []) by reflexivity.
    assert (T1 : take1 s (APkt b) c0 = []) by reflexivity.
    assert (A3 : addr1 s (APkt b) c0 = match k with KAcl h p => match tab s h with Some c' => if Nat.eqb c' c0 then [p] else [] | None => [] end | _ => [] end).
    { unfold addr1. rewrite A1. destruct k; reflexivity. }
    destruct k as [h p|h role pt addr|h reason|h rest|h st|code p|p|p|];
      try (injection E as <-; apply (Simple s); auto; fail).
    + destruct (tab s h) as [c|] eqn:T; injection E as <-; [|apply (Simple s); auto].
      rewrite A2, A3, P1, T1. unfold in_hand. rewrite L. fields. cbn [app]. rewrite !app_nil_r. unfold qin. fields. auto.
    + injection E as <-. rewrite A2, A3, P1, T1. unfold in_hand. rewrite L. fields. cbn [app]. rewrite !app_nil_r. split; [destruct (role =? 0); reflexivity|].
      split; [|rewrite map_app; reflexivity]. unfold qin. fields.
      destruct (Nat.ltb_spec c0 (length (objs s))).
      * now rewrite nth_error_app1 by lia.
      * rewrite nth_error_app2 by lia. rewrite (proj2 (nth_error_None (objs s) c0)) by lia.
        destruct (c0 - length (objs s))%nat as [|[|n]]; reflexivity.
    + destruct (reason =? 22); [injection E as <-; apply (Simple s); auto|].
      destruct (cleanup s h) as [s1|] eqn:C; [|discriminate E]. injection E as <-. apply (Clean s h); auto.
    + destruct (tab s h); [|injection E as <-; apply (Simple s); auto]. destruct rest as [x|]; [|discriminate E]. cbn [gbind] in E.
      destruct (negb (fst x =? 0) && negb smp); [discriminate E|]. injection E as <-. apply (Simple s); auto.
    + destruct (tab s h); [|injection E as <-; apply (Simple s); auto]. destruct (negb (st =? 0) && negb smp); [discriminate E|].
      injection E as <-. apply (Simple s); auto.
  - destruct (loop s) as [|c p|c|c| |] eqn:L; try discriminate E.
    destruct (nth_error (objs s) c) as [k|] eqn:K; [|discriminate E].
    destruct (k_inclosed k); [discriminate E|]. destruct (Nat.ltb (length (k_in k)) in_cap); [|discriminate E]. injection E as <-.
    unfold in_hand, addr1, put1, take1. rewrite L. cbn [arrivals1 new_conns]. fields. rewrite !app_nil_r. split; [reflexivity|]. split.
    + unfold qin. fields. destruct (Nat.eqb_spec c c0) as [->|N].
      * now rewrite (nth_upd_same _ _ _ _ K), K.
      * now rewrite nth_upd_other, app_nil_r by exact N.
    + now rewrite (map_upd idof _ _ _ _ K).
  - destruct (loop s) as [|c p|c|c| |] eqn:L; try discriminate E.
    destruct (mclosed s); [discriminate E|]. destruct (master s); [|discriminate E]. injection E as <-. eapply Simple; try reflexivity. unfold in_hand. now rewrite L.
  - destruct (loop s) as [|c p|c|c| |] eqn:L; try discriminate E. injection E as <-. eapply Simple; try reflexivity. unfold in_hand. now rewrite L.
  - destruct (loop s) as [|c p|c|c| |] eqn:L; try discriminate E. injection E as <-. eapply Simple; try reflexivity. unfold in_hand. now rewrite L.
  - destruct (nth_error (objs s) c) as [k|] eqn:K; [|discriminate E].
    destruct (k_rx k) eqn:R; try discriminate E. destruct (k_in k) as [|p q] eqn:Q; [discriminate E|]. injection E as <-.
    eapply Conn; eauto. cbn [take1 k_in set_in]. destruct (Nat.eqb_spec c c0) as [->|N]; [|reflexivity]. unfold qin. rewrite K, Q. reflexivity.
  - destruct (nth_error (objs s) c) as [k|] eqn:K; [|discriminate E]. destruct (k_rx k) eqn:R; try discriminate E. injection E as <-.
    eapply Conn; eauto. cbn. unfold qin. destruct (Nat.eqb_spec c c0) as [->|N]; [now rewrite K|reflexivity].
  - destruct (nth_error (objs s) c) as [k|] eqn:K; [|discriminate E].
    destruct (k_rx k) eqn:R; try discriminate E. destruct (mlock s); [discriminate E|].
    assert (I1 : inv (set_conn s c (set_rx k RxEnd))) by (eapply conn_inv; eauto; cbn; now apply (i_cap _ I c)).
    destruct (cleanup (set_conn s c (set_rx k RxEnd)) (k_handle k)) as [s1|] eqn:C; [|discriminate E]. injection E as <-.
    eapply Clean; eauto.
    + rewrite (qin_upd s c k _ c0 K). unfold qin. destruct (Nat.eqb_spec c c0) as [->|N]; [now rewrite K|reflexivity].
    + fields. now rewrite (map_upd idof _ _ _ _ K).
  - destruct (nth_error (objs s) c) as [k|] eqn:K; [|discriminate E]. destruct (k_rx k) eqn:R; try discriminate E.
    destruct ((k_inclosed k && Nat.eqb (length (k_in k)) 0) || negb (isopen s))%bool; [|discriminate E]. injection E as <-.
    eapply Conn; eauto. cbn. unfold qin. destruct (Nat.eqb_spec c c0) as [->|N]; [now rewrite K|reflexivity].
  - destruct (Nat.ltb c (length (objs s))); [|discriminate E]. injection E as <-. eapply Simple; reflexivity.
  - destruct (nth_error (closers s) i) as [[c|c|c|c]|]; try discriminate E. destruct (nth_error (objs s) c); [|discriminate E]. injection E as <-. eapply Simple; reflexivity.
  - destruct (nth_error (closers s) i) as [[c|c|c|c]|]; try discriminate E. injection E as <-. eapply Simple; reflexivity.
  - destruct (nth_error (closers s) i) as [[c|c|c|c]|] eqn:N; try discriminate E. destruct (nth_error (objs s) c) as [k|] eqn:K; [|discriminate E].
    destruct (mlock s); [discriminate E|].
    assert (I1 : inv (set_closers s (upd (closers s) i (ClRet c)))) by (apply closers_upd_inv with c; eauto).
    destruct (cleanup (set_closers s (upd (closers s) i (ClRet c))) (k_handle k)) as [s1|] eqn:C; [|discriminate E]. injection E as <-.
    eapply Clean; eauto.
  - destruct (haserr s || negb (isopen s))%bool; [discriminate E|]. injection E as <-. eapply Simple; reflexivity.
  - destruct (nth_error (dials s) i) as [[x|x|x|x y|x|x]|]; try discriminate E; destruct (master s); try discriminate E; injection E as <-; eapply Simple; reflexivity.
  - destruct (nth_error (dials s) i) as [[x|x|x|x y|x|x]|]; try discriminate E; destruct (mclosed s && Nat.eqb (length (master s)) 0)%bool; try discriminate E. injection E as <-. eapply Simple; reflexivity.
  - destruct (nth_error (dials s) i) as [[x|x|x|x y|x|x]|]; try discriminate E. injection E as <-. eapply Simple; reflexivity.
  - destruct (nth_error (dials s) i) as [[x|x|x|x y|x|x]|]; try discriminate E. destruct (isopen s); [discriminate E|]. injection E as <-. eapply Simple; reflexivity.
  - destruct (nth_error (dials s) i) as [[x|x|x|x y|x|x]|]; try discriminate E. injection E as <-. eapply Simple; reflexivity.
  - destruct (nth_error (dials s) i) as [[x|x|x|x y|x|x]|]; try discriminate E. injection E as <-. eapply Simple; reflexivity.
  - destruct (nth_error (dials s) i) as [[x|x|x|x y|x|x]|]; try discriminate E. injection E as <-. eapply Simple; reflexivity.
  - destruct (nth_error (dials s) i) as [[x|x|x|x y|x|x]|]; try discriminate E. injection E as <-. eapply Simple; reflexivity.
  - injection E as <-. eapply Simple; reflexivity.
  - injection E as <-. eapply Simple; reflexivity.
  - destruct (loop s) as [|c p|c|c| |] eqn:L; try discriminate E. injection E as <-. eapply Simple; try reflexivity. unfold in_hand. now rewrite L.
  - destruct (loop s) as [|c p|c|c| |] eqn:L; try discriminate E. destruct (mlock s); [discriminate E|].
    destruct (cleanup s h) as [s1|] eqn:C; [|discriminate E]. injection E as <-. eapply Clean; eauto.
  - destruct (loop s) as [|c p|c|c| |] eqn:L; try discriminate E. destruct (forallb _ _); [|discriminate E]. injection E as <-. eapply Simple; try reflexivity. unfold in_hand. now rewrite L.
Qed.

Lemma trace_data : forall smp l s s' c, inv s -> exec_all smp s l = Ret (Some s') ->
  in_hand s c ++ addressed smp s l c = handed smp s l c ++ in_hand s' c /\
  qin s c ++ handed smp s l c = taken smp s l c ++ qin s' c /\
  map idof (objs s') = map idof (objs s) ++ conns_of l.
Proof.
  intros smp l. induction l as [|a l IH]; intros s s' c I E; cbn [exec_all] in E.
  - injection E as <-. cbn. rewrite !app_nil_r. auto.
  - destruct (exec smp s a) as [[s1|]|] eqn:X; try discriminate E. cbn [gbind] in E.
    destruct (step_data _ _ _ _ c I X) as (A & B & C). destruct (IH _ _ c (exec_inv _ _ _ _ I X) E) as (A' & B' & C').
    cbn [addressed handed taken]. rewrite X. fold (addr1 s a c) (put1 s a c) (take1 s a c). split; [|split].
    + rewrite app_assoc, A, <- app_assoc, A'. apply app_assoc.
    + rewrite app_assoc, B, <- app_assoc, B'. apply app_assoc.
    + unfold conns_of in *. cbn [flat_map]. rewrite C', C. now rewrite app_assoc.
Qed.

Lemma arrivals1_handle : forall s a c p, inv s -> In p (addr1 s a c) -> exists h k, arrivals1 a = [(h, p)] /\ nth_error (objs s) c = Some k /\ k_handle k = h.
Proof.
  intros s a c p I H. unfold addr1 in H. destruct (arrivals1 a) as [|[h q] r] eqn:A; [destruct H|].
  destruct (tab s h) as [c'|] eqn:T; [|destruct H]. destruct (Nat.eqb_spec c' c) as [->|N]; [|destruct H]. destruct H as [<-|[]].
  destruct (i_tab _ I _ _ T) as (k & K & HK & _). exists h, k. split; [|auto].
  unfold arrivals1 in A. destruct a; try discriminate A. destruct (dec_pkt b) as [[]|]; try discriminate A. injection A as <- <- <-. reflexivity.
Qed.
