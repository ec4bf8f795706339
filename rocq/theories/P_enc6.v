(** Every run satisfies the invariant (end). *)
Require Import Verif.Base Verif.M_smp Verif.M_enc Verif.S_enc Verif.P_enc Verif.P_enc2 Verif.P_enc3 Verif.P_enc4 Verif.P_enc5.
Require Verif.M_hci Verif.S_smp.

Section Step.
Variable C : prims.
Variable HC : S_smp.prims_ok C.
Variables (t : list (bytes * bondinfo)) (cap : nat -> nat).
Notation Iv := (Inv C t cap).

Lemma go_eval_inv : forall j w w' o, go_eval j w = Some (Ret (w', o)) ->
  exists i k c, nth_error (senders w) j = Some (mkSender i k None) /\ nth_error (conns w) i = Some c /\
    w' = set_senders (upd (senders w) j (mkSender i k (Some (c_info c)))) w /\ o = [].
Proof.
  intros j w w' o H. unfold go_eval in H. destruct (nth_error (senders w) j) as [[i k [v|]]|]; try discriminate.
  destruct (nth_error (conns w) i) as [c|] eqn:N; [|discriminate]. injection H as <- <-. exists i, k, c.
  split; [reflexivity|]. split; [exact N|]. split; reflexivity.
Qed.
Lemma step_go_eval : forall l w j w' o, Iv l w -> go_eval j w = Some (Ret (w', o)) -> Iv (l ++ [(TGoEval j, o)]) w'.
Proof.
  intros l w j w' o J H. destruct (go_eval_inv _ _ _ _ H) as (i & k & c & Hs & Hi & -> & ->).
  assert (D : dull l (TGoEval j) []) by (apply dull_act; exact Logic.I).
  pose proof (J_conn _ _ _ _ _ J _ _ Hi) as Kc.
  destruct J as [J1 J2 J3 J4 J5 J6 J7 J8 J9 J10]. split; cbn [conns tab bonds chans calls senders set_senders].
  - now rewrite created_same.
  - intros n cj Hj. apply conn_ok_dull; [exact D|]. now apply J2.
  - intros n Hj. apply virgin_dull; [exact D|]. now apply J3.
  - intro h. now rewrite owner_same.
  - exact J5.
  - intro x. rewrite store_quiet by (intros y []). apply J6.
  - intro n. apply chan_ok_quiet; [|apply J7]. split; [reflexivity|]. split; [reflexivity|exact Logic.I].
  - exact J8.
  - intro n. apply (count_same cap); [exact (J9 n)|reflexivity|exact Logic.I].
  - intros x Hx. apply upd_in in Hx. destruct Hx as [->|Hx]; [|now apply sender_ok_snoc, J10].
    destruct (J10 _ (nth_error_In _ _ Hs)) as (l0 & e & l1 & -> & E & _). cbn [s_conn s_chan s_val] in *.
    exists l0, e, (l1 ++ [(TGoEval j, [])]). cbn [s_conn s_chan s_val]. split; [now rewrite <- app_assoc|]. split; [exact E|].
    exists l1, [(TGoEval j, [])]. split; [reflexivity|]. exact (K_info _ _ _ _ Kc).
Qed.
Lemma go_end_inv : forall j g w w' o, go_end j g w = Some (Ret (w', o)) ->
  exists i k v, nth_error (senders w) j = Some (mkSender i k (Some v)) /\
    ((g = true /\ o = [OLost i k v] /\ w' = set_senders (firstn j (senders w) ++ skipn (S j) (senders w)) w) \/
     (g = false /\ exists os, o = OReport i k v :: os /\
       chan_send k v (set_senders (firstn j (senders w) ++ skipn (S j) (senders w)) w) = Some (w', os))).
Proof.
  intros j g w w' o H. unfold go_end in H. destruct (nth_error (senders w) j) as [[i k [v|]]|]; try discriminate.
  exists i, k, v. split; [reflexivity|]. destruct g.
  - left. split; [reflexivity|]. apply (f_equal (fun x => match x with Some (Ret y) => y | _ => (w, []) end)) in H. injection H as <- <-. split; reflexivity.
  - right. split; [reflexivity|]. destruct (chan_send k v _) as [[w2 os]|]; [|discriminate].
    injection H as <- <-. exists os. split; reflexivity.
Qed.
Lemma step_go_end : forall l w j g w' o, Iv l w -> go_end j g w = Some (Ret (w', o)) -> Iv (l ++ [(TGoEnd j g, o)]) w'.
Proof.
  intros l w j g w' o J H. destruct (go_end_inv _ _ _ _ _ H) as (i & k & v & Hs & [(-> & -> & ->)|(-> & os & -> & Hc)]).
  - assert (D : dull l (TGoEnd j true) [OLost i k v]) by (apply dull_act; exact Logic.I).
    destruct J as [J1 J2 J3 J4 J5 J6 J7 J8 J9 J10]. split; cbn [conns tab bonds chans calls senders set_senders].
    + now rewrite created_same.
    + intros n cj Hj. apply conn_ok_dull; [exact D|]. now apply J2.
    + intros n Hj. apply virgin_dull; [exact D|]. now apply J3.
    + intro h. now rewrite owner_same.
    + exact J5.
    + intro x. rewrite store_quiet by (intros y [<-|[]]; exact Logic.I). apply J6.
    + intro n. apply chan_ok_quiet; [|apply J7]. split; [reflexivity|]. split; [reflexivity|exact Logic.I].
    + exact J8.
    + intro n. apply (count_same cap); [exact (J9 n)|reflexivity|exact Logic.I].
    + intros x Hx. apply sender_ok_snoc, J10. exact (remove_in _ _ _ Hx).
  - assert (D : dull l (TGoEnd j false) (OReport i k v :: os)) by (apply dull_act; exact Logic.I).
    destruct (send_some _ _ _ _ _ Hc) as (ch & Ew).
    assert (Os : forall x, In x os -> exists v', x = OGot k v').
    { unfold chan_send in Hc. intros x Hx. destruct (Nat.ltb 0 _).
      - injection Hc as _ <-. destruct Hx as [<-|[]]. now exists v.
      - destruct (Nat.ltb (length _) _); [|discriminate]. injection Hc as _ <-. destruct Hx. }
    pose proof (send_ok cap l (TGoEnd j false) i k v _ _ os [] Hc (J_chan _ _ _ _ _ J) (fun _ => eq_refl) (fun _ => eq_refl) Logic.I) as Ch.
    cbn [app] in Ch. destruct J as [J1 J2 J3 J4 J5 J6 J7 J8 J9 J10].
    split; [..|exact Ch| | |]; subst w'; cbn [conns tab bonds chans calls senders set_senders set_chan set_chans].
    + now rewrite created_same.
    + intros n cj Hj. apply conn_ok_dull; [exact D|]. now apply J2.
    + intros n Hj. apply virgin_dull; [exact D|]. now apply J3.
    + intro h. now rewrite owner_same.
    + exact J5.
    + intro x. rewrite store_quiet; [apply J6|]. intros y [<-|Hy]; [exact Logic.I|]. destruct (Os _ Hy) as (v' & ->). exact Logic.I.
    + exact J8.
    + intro n. apply (count_same cap); [exact (J9 n)| |exact Logic.I]. apply rets_none. intros y [<-|Hy]; [exact Logic.I|]. destruct (Os _ Hy) as (v' & ->). exact Logic.I.
    + intros x Hx. apply sender_ok_snoc, J10. exact (remove_in _ _ _ Hx).
Qed.
Lemma step_chans : forall l w a o w', Iv l w -> match a with TRecv _ | TLeave _ => True | _ => False end ->
  (forall x, In x o -> match x with OGot _ _ => True | _ => False end) ->
  w' = set_chans (chans w') w -> (forall j, chan_ok cap (l ++ [(a, o)]) j (chans w' j)) -> Iv (l ++ [(a, o)]) w'.
Proof.
  intros l w a o w' J A O E Ch.
  assert (D : dull l a o) by (apply dull_act; now destruct a).
  assert (Eq : conns w' = conns w /\ tab w' = tab w /\ bonds w' = bonds w /\ calls w' = calls w /\ senders w' = senders w).
  { rewrite E. split; [reflexivity|]. split; [reflexivity|]. split; [reflexivity|]. split; reflexivity. }
  destruct Eq as (E1 & E2 & E3 & E4 & E5). destruct J as [J1 J2 J3 J4 J5 J6 J7 J8 J9 J10].
  split; [..|exact Ch| | |]; rewrite ?E1, ?E2, ?E3, ?E4, ?E5.
  - rewrite created_same; [exact J1|now destruct a].
  - intros n cj Hj. apply conn_ok_dull; [exact D|]. now apply J2.
  - intros n Hj. apply virgin_dull; [exact D|]. now apply J3.
  - intro h. rewrite owner_same; [apply J4|now destruct a].
  - exact J5.
  - intro x. rewrite store_quiet; [apply J6|]. intros y Hy. specialize (O _ Hy). now destruct y.
  - exact J8.
  - intro n. apply (count_same cap); [exact (J9 n)| |now destruct a]. apply rets_none. intros y Hy. specialize (O _ Hy). now destruct y.
  - intros x Hx. now apply sender_ok_snoc, J10.
Qed.
Lemma step_recv : forall l w k, Iv l w -> Iv (l ++ [(TRecv k, snd (recv k w))]) (fst (recv k w)).
Proof.
  intros l w k J. apply (step_chans l w); [exact J|exact Logic.I| | |apply recv_ok, (J_chan _ _ _ _ _ J)].
  - unfold recv. destruct (ch_buf (chans w k)); intros x Hx; [destruct Hx|]. destruct Hx as [<-|[]]. exact Logic.I.
  - unfold recv. now destruct (ch_buf (chans w k)).
Qed.
Lemma step_leave : forall l w k w', Iv l w -> leave k w = Some w' -> Iv (l ++ [(TLeave k, [])]) w'.
Proof.
  intros l w k w' J H. apply (step_chans l w); [exact J|exact Logic.I|intros x []| |apply (leave_ok _ _ _ _ _ H), (J_chan _ _ _ _ _ J)].
  unfold leave in H. destruct (ch_wait (chans w k)); [discriminate|]. injection H as <-. reflexivity.
Qed.

Theorem step_inv : forall l w a w' o, Iv l w -> step C w a = Some (Ret (w', o)) -> Iv (l ++ [(a, o)]) w'.
Proof.
  intros l w a w' o J H. destruct a; cbn [step] in H.
  - apply (f_equal (fun x => match x with Some (Ret y) => y | _ => (w, []) end)) in H. injection H as <- <-. now apply step_connect.
  - apply (f_equal (fun x => match x with Some (Ret y) => y | _ => (w, []) end)) in H. injection H as <- <-. now apply step_remove.
  - destruct (handle_packet b del w) as [[w1 o1]|] eqn:E; [|discriminate]. injection H as <- <-. now apply step_packet with w.
  - apply step_smp with w; try assumption; destruct a; try discriminate; exact Logic.I || exact H.
  - now apply step_start with w.
  - now apply step_finish with w.
  - now apply step_go_eval with w.
  - now apply step_go_end with w.
  - apply (f_equal (fun x => match x with Some (Ret y) => y | _ => (w, []) end)) in H. rewrite (surjective_pairing (recv k w)) in H. injection H as <- <-. now apply step_recv.
  - destruct (leave k w) as [w1|] eqn:E; [|discriminate]. injection H as <- <-. now apply step_leave with w.
Qed.
Theorem run_inv : forall l w, run C (world0 t cap) l w -> Iv l w.
Proof.
  intros l w H. remember (world0 t cap) as w0 eqn:E0. induction H as [w|w l w1 a w2 o Hr IH He Hs]; subst w.
  - apply inv0.
  - apply (step_inv l w1); auto.
Qed.
End Step.
