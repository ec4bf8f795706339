(** Every run satisfies the invariant. *)
Require Import Verif.Base Verif.M_smp Verif.M_enc Verif.S_enc Verif.P_enc Verif.P_enc2 Verif.P_enc3.
Require Verif.M_hci Verif.S_smp.

Lemma remove_in : forall {A} (l : list A) j x, In x (firstn j l ++ skipn (S j) l) -> In x l.
Proof.
  intros A l j x H. apply in_app_or in H. destruct H as [H|H].
  - rewrite <- (firstn_skipn j l). apply in_or_app. now left.
  - rewrite <- (firstn_skipn (S j) l). apply in_or_app. now right.
Qed.
Lemma nth_split_at : forall {A} (l : list A) j x, nth_error l j = Some x -> l = firstn j l ++ x :: skipn (S j) l.
Proof.
  induction l as [|y l IH]; intros j x H; destruct j; cbn in *; try discriminate.
  - now injection H as ->.
  - f_equal. now apply IH.
Qed.
Lemma upd_in : forall {A} (l : list A) j x y, In y (upd l j x) -> y = x \/ In y l.
Proof.
  induction l as [|z l IH]; intros j x y H; destruct j; cbn in H; try contradiction.
  - destruct H as [H|H]; [left; congruence|right; now right].
  - destruct H as [H|H]; [right; left; exact H|]. destruct (IH _ _ _ H); [now left|right; now right].
Qed.

Section Step.
Variable C : prims.
Variable HC : S_smp.prims_ok C.
Variables (t : list (bytes * bondinfo)) (cap : nat -> nat).
Notation Iv := (Inv C t cap).

Lemma dull_act : forall l a o, match a with TPacket _ _ | TStart _ _ _ | TFinish _ => False | _ => True end -> dull l a o.
Proof. intros l a o H. unfold dull. destruct a; cbn in H; try contradiction; (split; [reflexivity|split; reflexivity]). Qed.
Lemma created_same : forall l a o, match a with TConnect _ _ _ _ _ _ => False | _ => True end -> created_in (l ++ [(a, o)]) = created_in l.
Proof. intros l a o H. rewrite created_snoc. destruct a; cbn in H; try contradiction; apply app_nil_r. Qed.
Lemma owner_same : forall l a o h, match a with TConnect _ _ _ _ _ _ | TRemove _ => False | _ => True end -> owner (l ++ [(a, o)]) h = owner l h.
Proof. intros l a o h H. rewrite owner_snoc. now destruct a. Qed.
Lemma count_same : forall l a o i cs, starts_of l i = (returns_of l i + ncalls i cs)%nat -> rets o i = O ->
  match a with TStart _ _ _ => False | _ => True end -> starts_of (l ++ [(a, o)]) i = (returns_of (l ++ [(a, o)]) i + ncalls i cs)%nat.
Proof. intros l a o i cs H R A. rewrite starts_snoc, returns_snoc, R. destruct a; cbn in A; try contradiction; lia. Qed.

Lemma step_connect : forall l w h la ra lat rat sec, Iv l w ->
  Iv (l ++ [(TConnect h la ra lat rat sec, [])]) (set_tab ((h, length (conns w)) :: drop_handle h (tab w)) (set_conns (conns w ++ [new_conn h la ra lat rat sec]) w)).
Proof.
  intros l w h la ra lat rat sec [J1 J2 J3 J4 J5 J6 J7 J8 J9 J10].
  assert (D : dull l (TConnect h la ra lat rat sec) []) by now apply dull_act.
  split; cbn [conns tab bonds chans calls senders set_tab set_conns].
  - rewrite created_snoc, !app_length, J1. reflexivity.
  - intros i c Hi. destruct (Nat.lt_ge_cases i (length (conns w))) as [L|L].
    + rewrite nth_error_app1 in Hi by exact L. apply conn_ok_dull; [exact D|]. now apply J2.
    + rewrite nth_error_app2 in Hi by exact L. assert (Ei : i = length (conns w)).
      { destruct (i - length (conns w))%nat as [|n] eqn:E; [lia|]. cbn in Hi. destruct n; discriminate. }
      subst i. rewrite Nat.sub_diag in Hi. cbn in Hi. injection Hi as <-.
      destruct (virgin_dull l _ _ _ D (J3 _ L)) as (V1 & V2 & V3).
      split.
      * exists (mkCr h ra sec). split.
        { unfold conn_of. rewrite created_snoc, J1, nth_error_app2, Nat.sub_diag by lia. reflexivity. }
        split; [reflexivity|]. unfold new_conn. cbn. destruct sec; [|reflexivity]. split; [reflexivity|]. split; [reflexivity|].
        exists la, lat, rat, []. cbn. apply srun_nil.
      * intros s Hs N. unfold new_conn in Hs. cbn in Hs. destruct sec; [|discriminate]. injection Hs as <-. cbn in N. congruence.
      * now rewrite V1.
      * now rewrite V2.
      * now rewrite V3.
  - intros i Hi. rewrite app_length in Hi. cbn [length] in Hi. apply virgin_dull; [exact D|]. apply J3. lia.
  - intro k. rewrite owner_snoc. cbn [assoc]. rewrite owner_count, J1, assoc_drop, J4, (Z.eqb_sym h k). now destruct (k =? h).
  - intros k i Hk. rewrite app_length. cbn [length assoc] in *. destruct (h =? k); [injection Hk as <-; lia|]. rewrite assoc_drop in Hk.
    destruct (k =? h); [discriminate|]. specialize (J5 _ _ Hk). lia.
  - intro a. rewrite store_quiet by (intros x []). apply J6.
  - intro k. apply chan_ok_quiet; [|apply J7]. split; [reflexivity|]. split; [reflexivity|exact Logic.I].
  - intros c Hc. rewrite app_length. specialize (J8 _ Hc). lia.
  - intro i. apply count_same; [apply J9|reflexivity|exact Logic.I].
  - intros s Hs. now apply sender_ok_snoc, J10.
Qed.
Lemma step_remove : forall l w h, Iv l w -> Iv (l ++ [(TRemove h, [])]) (set_tab (drop_handle h (tab w)) w).
Proof.
  intros l w h [J1 J2 J3 J4 J5 J6 J7 J8 J9 J10]. assert (D : dull l (TRemove h) []) by now apply dull_act.
  split; cbn [conns tab bonds chans calls senders set_tab].
  - now rewrite created_same.
  - intros i c Hi. apply conn_ok_dull; [exact D|]. now apply J2.
  - intros i Hi. apply virgin_dull; [exact D|]. now apply J3.
  - intro k. now rewrite owner_snoc, assoc_drop, J4.
  - intros k i Hk. rewrite assoc_drop in Hk. destruct (k =? h); [discriminate|]. exact (J5 _ _ Hk).
  - intro a. rewrite store_quiet by (intros x []). apply J6.
  - intro k. apply chan_ok_quiet; [|apply J7]. split; [reflexivity|]. split; [reflexivity|exact Logic.I].
  - exact J8.
  - intro i. apply count_same; [apply J9|reflexivity|exact Logic.I].
  - intros s Hs. now apply sender_ok_snoc, J10.
Qed.

(** *** Packets *)
Lemma failure_frame : forall c st del w w0 o0, on_failure c st del w = Ret (w0, o0) ->
  conns w0 = conns w /\ tab w0 = tab w /\ chans w0 = chans w /\ calls w0 = calls w /\ senders w0 = senders w /\
  (forall k, find_bond k (bonds w0) = fold_left store_obs o0 (fun k => find_bond k (bonds w)) k) /\
  (o0 = [] \/ exists s, st <> 0 /\ c_smp c = Some s /\ del = true /\ find_bond (p_raddr (ctx s)) (bonds w) <> None /\ o0 = [ODeleted (p_raddr (ctx s))]) /\
  (o0 = [] -> st = 0 \/ exists s, c_smp c = Some s /\ (del = false \/ find_bond (p_raddr (ctx s)) (bonds w) = None)).
Proof.
  intros c st del w w0 o0 H. unfold on_failure in H. destruct (Z.eqb_spec st 0) as [->|N].
  - injection H as <- <-. do 5 (split; [reflexivity|]). split; [reflexivity|]. split; [now left|]. now left.
  - destruct (c_smp c) as [s|] eqn:Es; [|discriminate]. apply (f_equal (fun x => match x with Ret y => y | Panic => (w, []) end)) in H.
    unfold delete_bond in H. destruct (find_bond (p_raddr (ctx s)) (bonds w)) as [b|] eqn:Ef.
    + destruct del; injection H as <- <-.
      * do 5 (split; [reflexivity|]). split; [intro k; cbn; apply find_drop|]. split.
        { right. exists s. split; [exact N|]. split; [reflexivity|]. split; [reflexivity|]. split; [congruence|reflexivity]. }
        discriminate.
      * do 5 (split; [reflexivity|]). split; [reflexivity|]. split; [now left|]. intros _. right. exists s. split; [reflexivity|now left].
    + injection H as <- <-. do 5 (split; [reflexivity|]). split; [reflexivity|]. split; [now left|]. intros _. right. exists s. split; [reflexivity|now right].
Qed.
Lemma report_frame : forall i ch v w w' o, report i ch v w = (w', o) ->
  conns w' = conns w /\ tab w' = tab w /\ bonds w' = bonds w /\ calls w' = calls w /\ senders w' = senders w /\
  (forall x, In x o -> match x with OReport _ _ _ | OLost _ _ _ | OGot _ _ => True | _ => False end).
Proof.
  intros i ch v w w' o H. unfold report in H. destruct ch as [k|]; [|injection H as <- <-; do 5 (split; [reflexivity|]); intros x []].
  destruct (chan_send k v w) as [[w1 o1]|] eqn:E.
  - injection H as <- <-. unfold chan_send in E. destruct (Nat.ltb 0 (ch_wait (chans w k))).
    + injection E as <- <-. do 5 (split; [reflexivity|]). intros x [<-|[<-|[]]]; exact Logic.I.
    + destruct (Nat.ltb (length (ch_buf (chans w k))) (ch_cap (chans w k))); [|discriminate]. injection E as <- <-.
      do 5 (split; [reflexivity|]). intros x [<-|[]]; exact Logic.I.
  - injection H as <- <-. do 5 (split; [reflexivity|]). intros x [<-|[]]; exact Logic.I.
Qed.
Lemma report_chans : forall l a i ch v w w' o pre, report i ch v w = (w', o) ->
  (forall j, chan_ok cap l j (chans w j)) -> (forall j, puts pre j = []) -> (forall j, gots pre j = []) ->
  match a with TRecv _ | TLeave _ => False | _ => True end ->
  forall j, chan_ok cap (l ++ [(a, pre ++ o)]) j (chans w' j).
Proof.
  intros l a i ch v w w' o pre H Hc P G A j. unfold report in H.
  assert (Q : (forall x, In x o -> match x with OLost _ _ _ => True | _ => False end) -> w' = w -> chan_ok cap (l ++ [(a, pre ++ o)]) j (chans w' j)).
  { intros No ->. apply chan_ok_quiet; [|apply Hc]. unfold quiet_chan, puts, gots in *. split; [|split; [|exact A]].
    - intro k. rewrite flat_map_app, P. clear - No. induction o as [|x o IH]; [reflexivity|]. cbn. pose proof (No x (or_introl eq_refl)).
      destruct x; try contradiction. apply IH. intros y Hy. apply No. now right.
    - intro k. rewrite flat_map_app, G. clear - No. induction o as [|x o IH]; [reflexivity|]. cbn. pose proof (No x (or_introl eq_refl)).
      destruct x; try contradiction. apply IH. intros y Hy. apply No. now right. }
  destruct ch as [k|]; [|injection H as <- <-; apply Q; [intros x []|reflexivity]].
  destruct (chan_send k v w) as [[w1 o1]|] eqn:E; [|injection H as <- <-; apply Q; [intros x [<-|[]]; exact Logic.I|reflexivity]].
  injection H as <- <-. now apply (send_ok cap l a i k v w w1 o1 pre E).
Qed.

Lemma nth_upd : forall {A} (l : list A) i j x y, nth_error (upd l i x) j = Some y -> (j = i /\ y = x) \/ (j <> i /\ nth_error l j = Some y).
Proof.
  intros A l i j x y H. rewrite nth_error_upd in H. destruct (Nat.eqb_spec i j) as [->|N].
  - left. split; [reflexivity|]. destruct (Nat.ltb j (length l)); congruence.
  - right. split; [congruence|]. exact H.
Qed.
Lemma puts_none : forall o, (forall x, In x o -> match x with OReport _ _ _ | OGot _ _ => False | _ => True end) -> forall k, puts o k = [] /\ gots o k = [].
Proof.
  induction o as [|x o IH]; intros H k; [split; reflexivity|]. destruct (IH (fun y Hy => H y (or_intror Hy)) k) as (A & B).
  pose proof (H x (or_introl eq_refl)). cbn. destruct x; try contradiction; split; assumption.
Qed.
Lemma rets_none : forall o i, (forall x, In x o -> match x with OStartRet _ _ => False | _ => True end) -> rets o i = O.
Proof.
  induction o as [|x o IH]; intros i H; [reflexivity|]. pose proof (H x (or_introl eq_refl)). unfold rets. cbn. destruct x; try contradiction;
    apply IH; intros y Hy; apply H; now right.
Qed.

Lemma event_iff : forall l w b i, Iv l w ->
  event_for l b i = match enc_event b with
                    | Some v => match assoc (ev_handle v) (tab w) with Some j => if Nat.eqb j i then Some v else None | None => None end
                    | None => None
                    end.
Proof. intros l w b i J. unfold event_for. destruct (enc_event b) as [v|]; [|reflexivity]. now rewrite (J_tab _ _ _ _ _ J). Qed.
Lemma no_event_dull : forall l b del o, (forall i, event_for l b i = None) -> dull l (TPacket b del) o.
Proof.
  intros l b del o H. split; [|split]; intros i x; cbn; now rewrite ?H.
Qed.
Lemma step_packet : forall l w b del w' o, Iv l w -> handle_packet b del w = Ret (w', o) -> Iv (l ++ [(TPacket b del, o)]) w'.
Proof.
  intros l w b del w' o J H.
  destruct (packet_cases _ _ _ _ _ H) as [(v & i & c & Hv & Ha & Hi & Hap)|(-> & -> & Hno)].
  2:{ assert (D : dull l (TPacket b del) []).
      { apply no_event_dull. intro i. rewrite (event_iff l w b i J). destruct (enc_event b) as [v|] eqn:Ev; [|reflexivity].
        destruct (assoc (ev_handle v) (tab w)) as [j|] eqn:A; [|reflexivity]. specialize (Hno _ _ eq_refl A). apply nth_error_None in Hno.
        pose proof (J_tabv _ _ _ _ _ J _ _ A). lia. }
      destruct J as [J1 J2 J3 J4 J5 J6 J7 J8 J9 J10]. split.
      - now rewrite created_same.
      - intros i c Hi. apply conn_ok_dull; [exact D|]. now apply J2.
      - intros i Hi. apply virgin_dull; [exact D|]. now apply J3.
      - intro k. now rewrite owner_same.
      - exact J5.
      - intro a. rewrite store_quiet by (intros x []). apply J6.
      - intro k. apply chan_ok_quiet; [|apply J7]. split; [reflexivity|]. split; [reflexivity|exact Logic.I].
      - exact J8.
      - intro i. apply count_same; [apply J9|reflexivity|exact Logic.I].
      - intros s Hs. now apply sender_ok_snoc, J10. }
  assert (EV : forall j, event_for l b j = if Nat.eqb i j then Some v else None).
  { intro j. now rewrite (event_iff l w b j J), Hv, Ha. }
  unfold apply_event in Hap. destruct (on_failure c (ev_status v) del w) as [[w0 o0]|] eqn:Ef; [|discriminate]. cbn [gbind fst snd] in Hap.
  destruct (failure_frame _ _ _ _ _ _ Ef) as (F1 & F2 & F3 & F4 & F5 & F6 & F7 & _).
  set (f := match v with Change _ _ _ => fun c => set_info (ev_info v) (set_enabled (i_enabled (ev_info v)) c) | Refresh _ _ => set_enabled true end) in Hap.
  assert (W1 : on_conn i f w0 = set_conns (upd (conns w) i (f c)) w0).
  { unfold on_conn. rewrite F1, Hi. reflexivity. }
  rewrite W1 in Hap. destruct (report i (c_ch c) (ev_info v) (set_conns (upd (conns w) i (f c)) w0)) as [w2 o2] eqn:Er.
  apply (f_equal (fun x => match x with Ret y => y | Panic => (w, []) end)) in Hap. injection Hap as <- <-.
  destruct (report_frame _ _ _ _ _ _ Er) as (R1 & R2 & R3 & R4 & R5 & R6). cbn [conns tab bonds calls senders set_conns] in *.
  destruct J as [J1 J2 J3 J4 J5 J6 J7 J8 J9 J10].
  assert (O0 : forall x, In x o0 -> match x with ODeleted _ => True | _ => False end).
  { intros x Hx. destruct F7 as [-> | (s & _ & _ & _ & _ & ->)]; [destruct Hx|]. destruct Hx as [<-|[]]. exact Logic.I. }
  split.
  - rewrite R1, upd_length, created_same by exact Logic.I. exact J1.
  - intros j cj Hj. rewrite R1 in Hj. apply nth_upd in Hj. destruct Hj as [(-> & ->)|(N & Hj)].
    + destruct (J2 _ _ Hi) as [(cr & A & B & S) K E I L].
      assert (Fs : c_smp (f c) = c_smp c /\ c_handle (f c) = c_handle c /\ c_ch (f c) = c_ch c) by (unfold f; destruct v; split; [reflexivity|split; reflexivity|reflexivity|split; reflexivity]).
      destruct Fs as (Fs & Fh & Fc). split.
      * exists cr. rewrite Fh, Fs. split; [now apply conn_of_old|]. split; assumption.
      * intros s Hs Nk. rewrite Fs in Hs. now apply stk_snoc, K.
      * rewrite encrypted_snoc. cbn [on_step]. rewrite EV, Nat.eqb_refl. unfold f. destruct v; reflexivity.
      * rewrite info_snoc. cbn [info_step]. rewrite EV, Nat.eqb_refl. unfold f. destruct v; [reflexivity|]. exact I.
      * rewrite listener_snoc. cbn [listener_step]. now rewrite Fc.
    + destruct (J2 _ _ Hj) as [(cr & A & B & S) K E I L]. destruct (Nat.eqb_spec i j); [congruence|].
      assert (EVj : event_for l b j = None) by (rewrite EV; destruct (Nat.eqb_spec i j); [congruence|reflexivity]).
      split.
      * exists cr. split; [now apply conn_of_old|]. split; assumption.
      * intros s Hs Nk. now apply stk_snoc, K.
      * rewrite encrypted_snoc. cbn [on_step]. now rewrite EVj.
      * rewrite info_snoc. cbn [info_step]. now rewrite EVj.
      * rewrite listener_snoc. exact L.
  - intros j Hj. rewrite R1, upd_length in Hj. destruct (J3 _ Hj) as (V1 & V2 & V3).
    assert (EVj : event_for l b j = None).
    { rewrite EV. destruct (Nat.eqb_spec i j) as [->|]; [|reflexivity]. assert (j < length (conns w))%nat by (apply nth_error_Some; congruence). lia. }
    split; [rewrite encrypted_snoc; cbn [on_step]; now rewrite EVj|]. split; [rewrite info_snoc; cbn [info_step]; now rewrite EVj|rewrite listener_snoc; exact V3].
  - intro h. rewrite R2, F2, owner_same by exact Logic.I. apply J4.
  - intros h j Hj. rewrite R1, upd_length. rewrite R2, F2 in Hj. exact (J5 _ _ Hj).
  - intro a. rewrite R3, F6, stored_snoc, fold_left_app.
    assert (Q : forall s, fold_left store_obs o2 s = s).
    { clear - R6. induction o2 as [|x o IH]; intro s; [reflexivity|]. cbn. rewrite IH by (intros y Hy; apply R6; now right).
      pose proof (R6 x (or_introl eq_refl)). now destruct x. }
    rewrite Q. apply fold_obs_ext. exact J6.
  - assert (Hc0 : forall j, chan_ok cap l j (chans (set_conns (upd (conns w) i (f c)) w0) j)) by (cbn [chans set_conns]; rewrite F3; exact J7).
    assert (PG : forall k, puts o0 k = [] /\ gots o0 k = []) by (apply puts_none; intros x Hx; specialize (O0 _ Hx); now destruct x).
    apply (report_chans l (TPacket b del) i (c_ch c) (ev_info v) _ _ _ o0 Er Hc0); [intro j; apply PG|intro j; apply PG|exact Logic.I].
  - intros x Hx. rewrite R1, upd_length. rewrite R4, F4 in Hx. now apply J8.
  - intro j. rewrite R4, F4. apply count_same; [apply J9| |exact Logic.I]. apply rets_none. intros x Hx. apply in_app_or in Hx. destruct Hx as [Hx|Hx].
    + specialize (O0 _ Hx). now destruct x.
    + specialize (R6 _ Hx). now destruct x.
  - intros s Hs. rewrite R5, F5 in Hs. now apply sender_ok_snoc, J10.
Qed.
End Step.
