(** Proofs about the HCI host: exactly which steps panic. *)
Require Import Verif.Base Verif.M_uuid Verif.M_advrep Verif.M_hci Verif.S_hci Verif.P_hci Verif.P_hci2.

Lemma cleanup_no_panic : forall s h, inv s -> exists s', cleanup s h = Ret s'.
Proof. intros s h I. destruct (cleanup_cases s h I) as [[_ E]|(c & k & d & _ & _ & _ & _ & _ & _ & E)]; rewrite E; eauto. Qed.

(** Apart from packets, no step panics: no send on a closed channel, no second close of a channel. *)
Lemma exec_panic_pkt : forall smp s a, inv s -> exec smp s a = Panic -> (exists b, a = APkt b /\ loop s = LIdle) \/ (exists i, a = ADialMClosed i /\ abandoned s i).
Proof.
  intros smp s a I E. destruct a; cbn [exec] in E; try discriminate E.
  - left. exists b. destruct (loop s); try discriminate E. auto.
  - destruct (loop s) as [|c p|c|c| |] eqn:L; try discriminate E.
    destruct (i_acl _ I _ _ L) as [h T]. destruct (i_tab _ I _ _ T) as (k & K & _ & X & _). rewrite K, X in E.
    destruct (Nat.ltb _ _); discriminate E.
  - destruct (loop s) as [|c p|c|c| |] eqn:L; try discriminate E.
    destruct (mclosed s) eqn:MC; [apply (i_mclosed _ I) in MC; destruct MC; congruence|]. destruct (master s); discriminate E.
  - destruct (loop s); discriminate E.
  - destruct (loop s); discriminate E.
  - destruct (nth_error (objs s) c) as [k|]; [|discriminate E]. destruct (k_rx k), (k_in k); discriminate E.
  - destruct (nth_error (objs s) c) as [k|]; [|discriminate E]. destruct (k_rx k); discriminate E.
  - destruct (nth_error (objs s) c) as [k|] eqn:K; [|discriminate E]. destruct (k_rx k) eqn:R; try discriminate E. destruct (mlock s); [discriminate E|].
    assert (I1 : inv (set_conn s c (set_rx k RxEnd))) by (eapply conn_inv; eauto; cbn; now apply (i_cap _ I c)).
    destruct (cleanup_no_panic _ (k_handle k) I1) as [s' C]. rewrite C in E. discriminate E.
  - destruct (nth_error (objs s) c) as [k|]; [|discriminate E]. destruct (k_rx k); try discriminate E.
    destruct ((k_inclosed k && Nat.eqb (length (k_in k)) 0) || negb (isopen s))%bool; discriminate E.
  - destruct (Nat.ltb c (length (objs s))); discriminate E.
  - destruct (nth_error (closers s) i) as [[c|c|c|c]|]; try discriminate E. destruct (nth_error (objs s) c); discriminate E.
  - destruct (nth_error (closers s) i) as [[c|c|c|c]|]; discriminate E.
  - destruct (nth_error (closers s) i) as [[c|c|c|c]|] eqn:N; try discriminate E. destruct (nth_error (objs s) c) as [k|] eqn:K; [|discriminate E].
    destruct (mlock s); [discriminate E|].
    assert (I1 : inv (set_closers s (upd (closers s) i (ClRet c)))) by (apply closers_upd_inv with c; eauto).
    destruct (cleanup_no_panic _ (k_handle k) I1) as [s' C]. rewrite C in E. discriminate E.
  - destruct (haserr s || negb (isopen s))%bool; discriminate E.
  - destruct (nth_error (dials s) i) as [[x|x|x|x y|x|x]|]; try discriminate E; destruct (master s); discriminate E.
  - destruct (nth_error (dials s) i) as [[x|x|x|x y|x|x]|] eqn:N; try discriminate E; destruct (mclosed s) eqn:M1; try discriminate E; destruct (master s) eqn:M2; try discriminate E.
    right. exists i. split; [reflexivity|]. exists x. auto.
  - destruct (nth_error (dials s) i) as [[x|x|x|x y|x|x]|]; discriminate E.
  - destruct (nth_error (dials s) i) as [[x|x|x|x y|x|x]|]; try discriminate E; destruct (isopen s); discriminate E.
  - destruct (nth_error (dials s) i) as [[x|x|x|x y|x|x]|]; discriminate E.
  - destruct (nth_error (dials s) i) as [[x|x|x|x y|x|x]|]; discriminate E.
  - destruct (nth_error (dials s) i) as [[x|x|x|x y|x|x]|]; discriminate E.
  - destruct (nth_error (dials s) i) as [[x|x|x|x y|x|x]|]; discriminate E.
  - destruct (loop s); discriminate E.
  - destruct (loop s); try discriminate E. destruct (mlock s); [discriminate E|]. destruct (cleanup_no_panic s h I) as [s' C]. rewrite C in E. discriminate E.
  - destruct (loop s); try discriminate E. destruct (forallb _ _); discriminate E.
Qed.

(** What the decoder returns for the two events that are examined further. *)
Lemma dec_enc_form : forall st h0 h1 r, (length r < 253)%nat ->
  dec_pkt (event 8 (st :: h0 :: h1 :: r)) = Ret (KEnc (de16 h0 h1) (match r with [] => Panic | e :: _ => Ret (st, e) end)).
Proof.
  intros st h0 h1 r L. rewrite dec_event by (cbn; lia). cbv [Z.eqb Pos.eqb orb]. unfold dec_enc.
  rewrite gfrom_ok by (cbn; lia). cbn [skipn gbind gle16 gidx nth_error]. destruct r; reflexivity.
Qed.

Lemma too_short_cases : forall s smp b, too_short b (known s) smp <->
  gpanics (dec_pkt b) \/
  (exists h x, dec_pkt b = Ret (KEnc h x) /\ known s h /\ (x = Panic \/ exists y, x = Ret y /\ fst y <> 0 /\ smp = false)) \/
  (exists h st, dec_pkt b = Ret (KRefresh h st) /\ known s h /\ st <> 0 /\ smp = false).
Proof.
  intros s smp b. rewrite dec_pkt_panic. destruct b as [|t p]; [cbn; tauto|].
  destruct (Z.eq_dec t 2) as [->|N2].
  { cbn [too_short]. split; [intros X; left; left; auto|].
    intros [[[_ X]|[X _]]|[(h & x & D & _)|(h & st & D & _)]]; [exact X|lia| |];
      unfold dec_pkt, dec_acl in D; cbn [gidx nth_error gbind] in D; rewrite gfrom_ok in D by (cbn; lia); cbn [gbind skipn Z.eqb Pos.eqb] in D;
      destruct p as [|? [|? ?]]; cbn [gidx nth_error gbind] in D; discriminate. }
  destruct (Z.eq_dec t 4) as [->|N4].
  2:{ assert (D : dec_pkt (t :: p) = Ret KNothing).
      { unfold dec_pkt. cbn [gidx nth_error gbind]. rewrite gfrom_ok by (cbn; lia). cbn [gbind].
        destruct (Z.eqb_spec t 2); [contradiction|]. destruct (Z.eqb_spec t 4); [contradiction|]. reflexivity. }
      split.
      - intros X. exfalso. unfold too_short in X. destruct t as [|t|t]; try exact X.
        repeat (match goal with p : positive |- _ => destruct p; try contradiction; try congruence end).
      - intros [[[X _]|[X _]]|[(h & x & Y & _)|(h & st & Y & _)]]; try contradiction; congruence. }
  cbn [too_short]. destruct p as [|code [|n q]]; [tauto|tauto|].
  destruct (Z.eq_dec n (Z.of_nat (length q))) as [->|Nn].
  2:{ assert (D : dec_pkt (4 :: code :: n :: q) = Ret KNothing).
      { unfold dec_pkt. cbn [gidx nth_error gbind]. rewrite gfrom_ok by (cbn; lia). cbn [gbind skipn Z.eqb Pos.eqb]. unfold dec_evt.
        cbn [gidx nth_error gbind]. rewrite gfrom_ok by (cbn; lia). cbn [gbind skipn]. destruct (Z.eqb_spec n (Z.of_nat (length q))); [contradiction|reflexivity]. }
      split; [tauto|]. intros [[[X _]|[_ [X _]]]|[(h & x & Y & _)|(h & st & Y & _)]]; try lia; congruence. }
  assert (DE : dec_pkt (4 :: code :: Z.of_nat (length q) :: q) =
    if code =? 62 then dec_meta q else if (code =? 14) || (code =? 15) || (code =? 255) then Ret (KCmd code q)
    else if code =? 5 then dec_disc q else if code =? 19 then Ret (KCompleted q) else if code =? 8 then dec_enc q else Ret KNothing).
  { unfold dec_pkt. cbn [gidx nth_error gbind]. rewrite gfrom_ok by (cbn; lia). cbn [gbind skipn Z.eqb Pos.eqb]. unfold dec_evt.
    cbn [gidx nth_error gbind]. rewrite gfrom_ok by (cbn; lia). cbn [gbind skipn]. rewrite Z.eqb_refl. reflexivity. }
  rewrite DE. clear DE.
  destruct (Z.eqb_spec code 62) as [->|C62].
  { destruct q as [|sub r].
    { split; [intros _; left; right; split; [reflexivity|]; split; [reflexivity|]; left; auto|]. intros _. split; [reflexivity|]. left. auto. }
    destruct (Z.eq_dec sub 1) as [->|S1].
    { split.
      - intros [_ [[_ X]|[[X _]|[X _]]]]; try lia. left. right. split; [reflexivity|]. split; [reflexivity|]. left. split; [reflexivity|].
        right. left. exists r. split; [reflexivity|exact X].
      - intros [[[X _]|(_ & _ & [(_ & [X|[(r' & X & Y)|(r' & X & Y)]])|[[X _]|[X _]]])]|[(h & x & D & _)|(h & st & D & _)]]; try lia; try discriminate.
        + injection X as <-. split; [reflexivity|]. left. split; [reflexivity|exact Y].
        + exfalso. unfold dec_meta in D. cbn [gidx nth_error gbind Z.eqb Pos.eqb] in D. unfold dec_conn in D.
          destruct (gidx (1 :: r) 1) as [st|]; [|discriminate]. cbn [gbind] in D. destruct (negb (st =? 0)); [discriminate|].
          destruct (gfrom (1 :: r) 6); [|discriminate]. cbn [gbind] in D. destruct (gfrom (1 :: r) 2) as [w|]; [|discriminate]. cbn [gbind] in D.
          destruct (gle16 w); [|discriminate]. cbn [gbind] in D. destruct (gidx (1 :: r) 4); discriminate.
        + exfalso. unfold dec_meta in D. cbn [gidx nth_error gbind Z.eqb Pos.eqb] in D. unfold dec_conn in D.
          destruct (gidx (1 :: r) 1) as [st'|]; [|discriminate]. cbn [gbind] in D. destruct (negb (st' =? 0)); [discriminate|].
          destruct (gfrom (1 :: r) 6); [|discriminate]. cbn [gbind] in D. destruct (gfrom (1 :: r) 2) as [w|]; [|discriminate]. cbn [gbind] in D.
          destruct (gle16 w); [|discriminate]. cbn [gbind] in D. destruct (gidx (1 :: r) 4); discriminate. }
    destruct (Z.eq_dec sub 48) as [->|S48].
    { assert (DM : dec_meta (48 :: r) = match r with h0 :: h1 :: _ => Ret (KRefresh (de16 h0 h1) 48) | _ => Panic end).
      { unfold dec_meta, dec_refresh. cbn [gidx nth_error gbind Z.eqb Pos.eqb]. rewrite gfrom_ok by (cbn; lia). cbn [gbind skipn].
        destruct r as [|a [|b r]]; reflexivity. }
      rewrite DM. split.
      - intros [_ [[_ X]|[[X _]|[X _]]]]; try lia. destruct r as [|h0 [|h1 r]].
        + left. right. split; [reflexivity|]. split; [reflexivity|]. left. split; [reflexivity|]. right. right. eexists. split; [reflexivity|cbn; lia].
        + left. right. split; [reflexivity|]. split; [reflexivity|]. left. split; [reflexivity|]. right. right. eexists. split; [reflexivity|cbn; lia].
        + right. right. exists (de16 h0 h1), 48. split; [reflexivity|]. destruct X as [X Y]. split; [exact X|]. split; [lia|exact Y].
      - intros [[[X _]|(_ & _ & [(_ & [X|[(r' & X & Y)|(r' & X & Y)]])|[[X _]|[X _]]])]|[(h & x & D & _)|(h & st & D & KN & ST & SM)]]; try lia; try discriminate.
        + injection X as <-. split; [reflexivity|]. left. split; [reflexivity|]. destruct r as [|? [|? ?]]; auto. cbn in Y. lia.
        + destruct r as [|? [|? ?]]; discriminate.
        + destruct r as [|h0 [|h1 r]]; try discriminate. injection D as <- <-. split; [reflexivity|]. left. auto. }
    assert (DM : dec_meta (sub :: r) = Ret (KAdv (sub :: r)) \/ dec_meta (sub :: r) = Ret KNothing).
    { unfold dec_meta. cbn [gidx nth_error gbind]. destruct (Z.eqb_spec sub 2); [auto|]. destruct (Z.eqb_spec sub 1); [contradiction|].
      destruct (Z.eqb_spec sub 48); [contradiction|]. auto. }
    split.
    - intros [_ [[_ X]|[[X _]|[X _]]]]; try lia. exfalso.
      destruct sub as [|sub|sub]; try exact X. repeat (match goal with p : positive |- _ => destruct p; try contradiction; try congruence end).
    - intros [[[X _]|(_ & _ & [(_ & [X|[(r' & X & Y)|(r' & X & Y)]])|[[X _]|[X _]]])]|[(h & x & D & _)|(h & st & D & _)]]; try lia; try congruence;
        destruct DM as [DM|DM]; rewrite DM in D; discriminate. }
  destruct ((code =? 14) || (code =? 15) || (code =? 255))%bool eqn:CC.
  { split; [intros [_ [[X _]|[[X _]|[X _]]]]; subst code; try contradiction; discriminate|].
    intros [[[X _]|(_ & _ & [(X & _)|[[X _]|[X _]]])]|[(h & x & D & _)|(h & st & D & _)]]; try lia; try contradiction; try (subst code; discriminate); discriminate. }
  destruct (Z.eqb_spec code 5) as [->|C5].
  { split.
    - intros [_ [[X _]|[[_ X]|[X _]]]]; [lia| |lia]. left. right. split; [reflexivity|]. split; [reflexivity|]. right. left. auto.
    - intros [[[X _]|(_ & _ & [(X & _)|[[_ X]|[X _]]])]|[(h & x & D & _)|(h & st & D & _)]]; try lia.
      + unfold dec_disc in D. destruct (gfrom q 1) as [w|]; [|discriminate]. cbn [gbind] in D. destruct (gle16 w); [|discriminate]. cbn [gbind] in D.
        destruct (gidx q 3); discriminate.
      + unfold dec_disc in D. destruct (gfrom q 1) as [w|]; [|discriminate]. cbn [gbind] in D. destruct (gle16 w); [|discriminate]. cbn [gbind] in D.
        destruct (gidx q 3); discriminate. }
  destruct (Z.eqb_spec code 19) as [->|C19].
  { split; [intros [_ [[X _]|[[X _]|[X _]]]]; lia|].
    intros [[[X _]|(_ & _ & [(X & _)|[[X _]|[X _]]])]|[(h & x & D & _)|(h & st & D & _)]]; try lia; discriminate. }
  destruct (Z.eqb_spec code 8) as [->|C8].
  2:{ split; [intros [_ [[X _]|[[X _]|[X _]]]]; contradiction|].
      intros [[[X _]|(_ & _ & [(X & _)|[[X _]|[X _]]])]|[(h & x & D & _)|(h & st & D & _)]]; try lia; try contradiction; discriminate. }
  assert (DM : dec_enc q = match q with st :: h0 :: h1 :: r => Ret (KEnc (de16 h0 h1) (match r with [] => Panic | e :: _ => Ret (st, e) end)) | _ => Panic end).
  { unfold dec_enc. destruct q as [|a [|b [|c r]]]; try reflexivity. rewrite gfrom_ok by (cbn; lia). cbn [skipn gbind gle16 gidx nth_error]. destruct r; reflexivity. }
  rewrite DM. split.
  - intros [_ [[X _]|[[X _]|[_ X]]]]; try lia. destruct q as [|st [|h0 [|h1 r]]];
      try (left; right; split; [reflexivity|]; split; [reflexivity|]; right; right; split; [reflexivity|cbn; lia]).
    right. left. destruct X as [KN X]. eexists _, _. split; [reflexivity|]. split; [exact KN|].
    destruct r as [|e r]; [left; reflexivity|]. right. destruct X as [X|[X Y]]; [discriminate|]. exists (st, e). auto.
  - intros [[[X _]|(_ & _ & [(X & _)|[[X _]|[_ X]]])]|[(h & x & D & KN & Y)|(h & st & D & _)]]; try lia.
    + split; [reflexivity|]. right. right. split; [reflexivity|]. destruct q as [|? [|? [|? ?]]]; auto. cbn in X. lia.
    + split; [reflexivity|]. right. right. split; [reflexivity|]. destruct q as [|st [|h0 [|h1 r]]]; auto. injection D as <- <-. split; [exact KN|].
      destruct r as [|e r]; [left; reflexivity|right]. destruct Y as [Y|(y & Y & Z1 & Z2)]; [discriminate|]. injection Y as <-. auto.
    + destruct q as [|? [|? [|? ?]]]; discriminate.
Qed.

Theorem exec_panic_iff : forall smp s a, inv s ->
  (exec smp s a = Panic <->
   (exists b, a = APkt b /\ loop s = LIdle /\ too_short b (known s) smp) \/ (exists i, a = ADialMClosed i /\ abandoned s i)).
Proof.
  intros smp s a I. split.
  - intros E. destruct (exec_panic_pkt _ _ _ I E) as [(b & -> & L)|X]; [left|right; exact X]. exists b. split; [reflexivity|]. split; [exact L|].
    apply too_short_cases. cbn [exec] in E. rewrite L in E.
    destruct (dec_pkt b) as [k|] eqn:D; [|left; reflexivity]. cbn [gbind] in E. right.
    destruct k as [h p|h role pt addr|h reason|h rest|h st|code p|p|p|]; try discriminate E.
    + destruct (tab s h); discriminate E.
    + destruct (reason =? 22); [discriminate E|]. destruct (cleanup_no_panic s h I) as [s' C]. rewrite C in E. discriminate E.
    + left. exists h, rest. split; [reflexivity|]. destruct (tab s h) as [c|] eqn:T; [|discriminate E]. split; [exists c; exact T|].
      destruct rest as [x|]; [right|left; reflexivity]. cbn [gbind] in E. exists x. split; [reflexivity|].
      destruct (Z.eqb_spec (fst x) 0); destruct smp; cbn in E; try discriminate E. auto.
    + right. exists h, st. split; [reflexivity|]. destruct (tab s h) as [c|] eqn:T; [|discriminate E]. split; [exists c; exact T|].
      destruct (Z.eqb_spec st 0); destruct smp; cbn in E; try discriminate E. auto.
  - intros [(b & -> & L & X)|(i & -> & a0 & N & M1 & M2)]; [|cbn [exec]; rewrite N, M1, M2; reflexivity]. apply too_short_cases in X. cbn [exec]. rewrite L.
    destruct X as [X|[(h & x & D & [c T] & X)|(h & st & D & [c T] & X1 & X2)]].
    + rewrite X. reflexivity.
    + rewrite D. cbn [gbind]. rewrite T. destruct X as [->|(y & -> & Y & ->)]; [reflexivity|]. cbn [gbind].
      destruct (Z.eqb_spec (fst y) 0); [contradiction|reflexivity].
    + rewrite D. cbn [gbind]. rewrite T, X2. destruct (Z.eqb_spec st 0); [contradiction|reflexivity].
Qed.
