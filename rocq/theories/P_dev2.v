(** A server keeps to its table; publications and the objects they touch. *)
Require Import Verif.Base Verif.M_uuid Verif.M_attdb Verif.M_attsrv Verif.P_attsrv Verif.P_attsrv2 Verif.P_attsrv8 Verif.M_srvloop Verif.S_srvloop Verif.M_dev Verif.S_dev Verif.P_dev.

Lemma db_at_in : forall d h a, db_at d h = Ret (Some a) -> In a (db_attrs d).
Proof.
  intros d h a H. unfold db_at in H. destruct (_ <? 0); [discriminate|]. unfold gidx in H. destruct (nth_error _ _) as [x|] eqn:E; [|discriminate]. cbn [gbind] in H. injection H as <-. now apply nth_error_In in E.
Qed.
Lemma att_write_db : forall s e a data s' st cs, att_write s e a data = Ret (s', st, cs) -> prep s' = prep s.
Proof.
  intros s e a data s' st cs H. unfold att_write in H. destruct (a_wh a) as [[i|ci]|]; [injection H as <- _ _; reflexivity| |injection H as <- _ _; reflexivity].
  destruct (cccd_write s ci data) as [[s1 st1]|] eqn:C; [|discriminate]. cbn [gbind] in H. injection H as <- _ _. unfold cccd_write in C. destruct (gle16 data) as [ccc|]; [|discriminate]. cbn [gbind] in C.
  set (old := ccc_of _ _) in C. unfold cccd_start_n, cccd_stop_n, cccd_start_i, cccd_stop_i in C.
  repeat (match type of C with
    | context [if ?b then _ else _] => destruct b
    | context [match ci_nh ?x with _ => _ end] => destruct (ci_nh x)
    | context [match ci_ih ?x with _ => _ end] => destruct (ci_ih x)
    | context [match aget ?m ?x with _ => _ end] => destruct (aget m x)
    end; cbn [gbind negb] in C; try discriminate C); injection C as <- _; reflexivity.
Qed.
Lemma uses_handle : forall d s e r s' o cs, uses d s -> handle s e r = Ret (s', o, cs) -> uses d s'.
Proof.
  intros d s e r s' o cs (D & P & F) H. pose proof (proj1 (handle_env _ _ _ _ _ _ H)) as DB. split; [congruence|]. clear DB.
  destruct r as [|op t]; [injection H as <- _ _; auto|].
  refine (handle_op (fun x => (forall a, prep (fst (fst x)) = Some a -> In a (db_attrs d)) /\ Forall (from_table d) (notifs (fst (fst x)))) s e op t _ _ _ _ _ _ _ _ _ _ _ _ _ H); cbn [fst]; try (intros; split; [exact P|exact F]).
  - intros _ s1 p G. apply h_mtu_inv in G. destruct G as [(-> & _)|(? & ? & _ & _ & -> & _)]; split; assumption.
  - intros _ s1 p c G. unfold h_write in G. destruct (Nat.ltb _ 3); [injection G as <- _ _; auto|]. destruct (r16 _ 1) as [h|]; [|discriminate]. cbn [gbind] in G.
    destruct (db_at (s_db s) h) as [[a|]|] eqn:A; [| |discriminate]; cbn [gbind] in G; [|injection G as <- _ _; auto].
    destruct (gfrom _ 3) as [v|]; [|discriminate]. cbn [gbind] in G. destruct (att_write s e a v) as [[[s2 st] c2]|] eqn:E; [|discriminate]. cbn [gbind] in G. injection G as <- _ _.
    rewrite (att_write_db _ _ _ _ _ _ _ E). split; [exact P|]. apply db_at_in in A. rewrite D in A. eapply ft_write; [exact A|exact F|exact E].
  - intros _ s1 c G. unfold h_write_cmd in G. destruct (Nat.leb _ 3); [injection G as <- _; auto|]. destruct (r16 _ 1) as [h|]; [|discriminate]. cbn [gbind] in G.
    destruct (db_at (s_db s) h) as [[a|]|] eqn:A; [| |discriminate]; cbn [gbind] in G; [|injection G as <- _; auto].
    destruct (gfrom _ 3) as [v|]; [|discriminate]. cbn [gbind] in G. destruct (att_write s e a v) as [[[s2 st] c2]|] eqn:E; [|discriminate]. cbn [gbind] in G. injection G as <- _.
    rewrite (att_write_db _ _ _ _ _ _ _ E). split; [exact P|]. apply db_at_in in A. rewrite D in A. eapply ft_write; [exact A|exact F|exact E].
  - intros _ s1 p G. unfold h_prepare in G. destruct (r16 _ 1) as [h|]; [|discriminate]. cbn [gbind] in G. destruct (Nat.ltb _ 3); [injection G as <- _; auto|].
    destruct (db_at (s_db s) h) as [[a|]|] eqn:A; [| |discriminate]; cbn [gbind] in G; [|injection G as <- _; auto].
    destruct (a_wh a); [|injection G as <- _; auto]. destruct (gfrom _ 5); [|discriminate]. cbn [gbind] in G. destruct (r16 _ 3); [|discriminate]. cbn [gbind] in G. injection G as <- _.
    apply db_at_in in A. rewrite D in A. destruct (prep s) as [b|] eqn:PS; cbn [prep set_prep notifs]; (split; [|exact F]); intros x X; injection X as <-; [now apply P|exact A].
  - intros _ s1 p c G. unfold h_execute in G. destruct (Nat.ltb _ 2); [injection G as <- _ _; auto|]. destruct (gidx _ 1) as [f|]; [|discriminate]. cbn [gbind] in G.
    destruct (f =? 0); [injection G as <- _ _; cbn [prep set_prep notifs]; split; [discriminate|exact F]|]. destruct (f =? 1); [|injection G as <- _ _; auto].
    destruct (prep s) as [a|] eqn:PS; [|discriminate]. destruct (a_wh a) eqn:WH; [|injection G as <- _ _; rewrite PS; auto].
    destruct (att_write s e a (prepdata s)) as [[[s2 st] c2]|] eqn:E; [|discriminate]. cbn [gbind] in G. injection G as <- _ _. cbn [set_prep notifs prep]. split; [discriminate|]. eapply ft_write; [|exact F|exact E]. now apply P.
Qed.
Lemma ft_cleanup : forall d m s l, Forall (from_table d) (notifs s) -> cleanup s m = Ret l -> Forall (from_table d) l.
Proof.
  induction m as [|[h c] m IH]; intros s l F H; cbn [cleanup] in H; [injection H as <-; exact F|].
  destruct (if Z.testbit c 1 then match aget (inn s) h with None => Panic | Some i => Ret (close_notif (notifs s) i) end else Ret (notifs s)) as [l1|] eqn:E1; [|discriminate]. cbn [gbind] in H.
  assert (F1 : Forall (from_table d) l1). { destruct (Z.testbit c 1); [destruct (aget (inn s) h); [|discriminate]; injection E1 as <-; now apply ft_close|injection E1 as <-; exact F]. }
  destruct (if Z.testbit c 0 then match aget (nn s) h with None => Panic | Some i => Ret (close_notif l1 i) end else Ret l1) as [l2|] eqn:E2; [|discriminate]. cbn [gbind] in H.
  assert (F2 : Forall (from_table d) l2). { destruct (Z.testbit c 0); [destruct (aget (nn s) h); [|discriminate]; injection E2 as <-; now apply ft_close|injection E2 as <-; exact F1]. }
  eapply IH; [|exact H]. exact F2.
Qed.

Lemma upd_caller_sv : forall k p s, sv (upd_caller k p s) = sv s.
Proof. intros. unfold upd_caller. now destruct (nth_error _ _). Qed.
Lemma give_back_sv : forall k c n r s s', give_back k c n r s = Some s' -> sv s' = sv s.
Proof. intros k c n r s s' H. unfold give_back in H. destruct (cbuf c s); [discriminate|]. injection H as <-. rewrite upd_caller_sv. unfold set_cbuf. now destruct (c_ind c). Qed.
(** what a step of a connection can do to its server *)
Lemma lstep_sv : forall s a s' v, lstep s a = Some (s', v) ->
  sv s' = sv s \/ (exists e r o cs, handle (sv s) e r = Ret (sv s', o, cs)) \/ (exists l, cleanup (sv s) (cccs (sv s)) = Ret l /\ sv s' = set_nn (sv s) (nn (sv s)) l).
Proof.
  intros s a s' v H. unfold lstep in H. assert (L : live_step s a = Some (s', v)) by (destruct (hd s); congruence). clear H. destruct a; cbn [live_step] in L.
  - destruct (down s); [discriminate|]. injection L as <- _. now left.
  - injection L as <- _. now left.
  - destruct (nth_error _ _); [|discriminate]. injection L as <- _. now left.
  - destruct (rd s); try discriminate. destruct (pool s); [discriminate|]. injection L as <- _. now left.
  - destruct (rd s) as [|k| | | | | |]; try discriminate. unfold step_read in L. left. destruct (inq s) as [|p q]; [destruct (down s); [|discriminate]; injection L as <- _; reflexivity|].
    destruct (Nat.ltb max_mtu (length p)); [injection L as <- _; reflexivity|]. destruct p as [|c p]; [injection L as <- _; reflexivity|]. destruct (nth_error (bufs s) k); [|discriminate].
    destruct (c =? 30); injection L as <- _; reflexivity.
  - destruct k as [j|].
    + destruct (rd s); try discriminate. destruct (nth_error (callers s) j) as [c|]; [|discriminate]. destruct (c_ph c); try discriminate. destruct (give_back j c n COk s) as [x|] eqn:G; [|discriminate]. injection L as <- _. left. exact (give_back_sv _ _ _ _ _ _ G).
    + destruct (rd s); try discriminate. destruct (existsb _ _); [discriminate|]. injection L as <- _. now left.
  - destruct (rd s); try discriminate. destruct (hd s); try discriminate. injection L as <- _. now left.
  - destruct (rd s); try discriminate; injection L as <- _; now left.
  - destruct (hd s); try discriminate. destruct (req_of s k) as [r|]; [|discriminate]. destruct (handle (sv s) e r) as [[[x o] cs]|] eqn:G; injection L as <- _; [right; left; exists e, r, o, cs; exact G|now left].
  - destruct (hd s); try discriminate. destruct (nbuf s); [|discriminate]. injection L as <- _. now left.
  - destruct (hd s); try discriminate. destruct (ibuf s); [|discriminate]. injection L as <- _. now left.
  - destruct (hd s); try discriminate. destruct (may_write _ _ _); [|discriminate]. injection L as <- _. now left.
  - destruct (hd s); try discriminate. destruct (Nat.ltb _ 2); [|discriminate]. injection L as <- _. now left.
  - destruct (hd s); try discriminate. destruct (seq_closed _); [|discriminate]. injection L as <- _. now left.
  - destruct (hd s); try discriminate. destruct (cleanup (sv s) (cccs (sv s))) as [l|] eqn:C; injection L as <- _; [right; right; exists l; split; [reflexivity|reflexivity]|now left].
  - destruct (nth_error _ _) as [c|]; [|discriminate]. destruct (c_ph c); try discriminate. destruct (cbuf c s); [|discriminate]. injection L as <- _. left. rewrite upd_caller_sv. unfold set_cbuf. now destruct (c_ind c).
  - destruct (nth_error _ _) as [c|]; [|discriminate]. destruct (c_ph c); try discriminate. destruct (notify_pdu _ _ _ _); [|injection L as <- _; now left]. destruct (may_write _ _ _); [|discriminate].
    destruct (ok && c_ind c); [injection L as <- _; left; apply upd_caller_sv|]. destruct (give_back _ _ _ _ s) as [x|] eqn:G; [|discriminate]. injection L as <- _. left. exact (give_back_sv _ _ _ _ _ _ G).
  - destruct (nth_error _ _) as [c|]; [|discriminate]. destruct (c_ph c); try discriminate. injection L as <- _. left. apply upd_caller_sv.
  - destruct (nth_error _ _) as [c|]; [|discriminate]. destruct (c_ph c); try discriminate. destruct (give_back _ _ _ _ s) as [x|] eqn:G; [|discriminate]. injection L as <- _. left. exact (give_back_sv _ _ _ _ _ _ G).
  - destruct (nth_error _ _) as [c|]; [|discriminate]. destruct (c_ph c); try discriminate. destruct (conf_closed _); [|discriminate]. destruct (give_back _ _ _ _ s) as [x|] eqn:G; [|discriminate]. injection L as <- _. left. exact (give_back_sv _ _ _ _ _ _ G).
Qed.
Lemma uses_lstep : forall d s a s' v, uses d (sv s) -> lstep s a = Some (s', v) -> uses d (sv s').
Proof.
  intros d s a s' v U L. destruct (lstep_sv _ _ _ _ L) as [->|[(e & r & o & cs & H)|(l & C & ->)]]; [exact U|exact (uses_handle _ _ _ _ _ _ _ U H)|].
  destruct U as (D & P & F). split; [exact D|]. split; [exact P|]. exact (ft_cleanup _ _ _ _ F C).
Qed.
Lemma db_lstep : forall s a s' v, lstep s a = Some (s', v) -> s_db (sv s') = s_db (sv s).
Proof. intros s a s' v L. destruct (lstep_sv _ _ _ _ L) as [->|[(e & r & o & cs & H)|(l & C & ->)]]; [reflexivity|exact (proj1 (handle_env _ _ _ _ _ _ H))|reflexivity]. Qed.

(** Objects *)
Lemma fetch_nth : forall objs ks ss, fetch objs ks = Some ss -> Forall2 (fun k s => nth_error objs k = Some s) ks ss.
Proof.
  induction ks as [|k ks IH]; intros ss H; cbn [fetch] in H; [injection H as <-; constructor|]. destruct (nth_error objs k) as [s|] eqn:E; [|discriminate]. destruct (fetch objs ks) as [l|]; [|discriminate]. injection H as <-. constructor; auto.
Qed.
Lemma store_other : forall ks ss objs k, ~ In k ks -> nth_error (store objs ks ss) k = nth_error objs k.
Proof.
  induction ks as [|x ks IH]; intros ss objs k NI; [destruct ss; reflexivity|]. destruct ss as [|s ss]; [reflexivity|]. cbn [store]. rewrite IH by (intro; apply NI; now right). rewrite nth_error_upd.
  destruct (Nat.eqb x k) eqn:E; [|reflexivity]. apply Nat.eqb_eq in E. subst. exfalso. apply NI. now left.
Qed.
Lemma store_length : forall ks ss objs, length (store objs ks ss) = length objs.
Proof. induction ks as [|x ks IH]; intros [|s ss] objs; cbn [store]; try reflexivity. now rewrite IH, upd_length. Qed.
Lemma store_same : forall ks ss objs, NoDup ks -> Forall (fun k => (k < length objs)%nat) ks -> length ss = length ks -> Forall2 (fun k s => nth_error (store objs ks ss) k = Some s) ks ss.
Proof.
  induction ks as [|x ks IH]; intros ss objs ND B L; destruct ss as [|s ss]; try discriminate; [constructor|]. cbn [store]. inversion_clear ND as [|? ? NI ND']. inversion_clear B as [|? ? B1 B2]. constructor.
  - rewrite store_other by exact NI. rewrite nth_error_upd, Nat.eqb_refl. apply Nat.ltb_lt in B1. now rewrite B1.
  - apply IH; auto. eapply Forall_impl; [|exact B2]. intros k K. now rewrite upd_length.
Qed.
Lemma upd_same : forall {A B} (f : A -> B) l k x y, nth_error l k = Some y -> f x = f y -> map f (upd l k x) = map f l.
Proof. induction l as [|z l IH]; intros [|k] x y H E; cbn in *; try discriminate; [injection H as ->; now rewrite E|]. f_equal. eapply IH; eauto. Qed.
Lemma nth_error_map_some : forall {A B} (f : A -> B) l l' k y, map f l' = map f l -> nth_error l k = Some y -> exists y', nth_error l' k = Some y' /\ f y' = f y.
Proof. induction l as [|z l IH]; intros l' k y E H; [destruct k; discriminate|]. destruct l' as [|z' l']; [discriminate|]. cbn in E. injection E as E1 E2. destruct k; cbn in *; [injection H as <-; eauto|eauto]. Qed.
Lemma store_map : forall {B} (f : service -> B) ks ss ss' objs, Forall2 (fun k s => nth_error objs k = Some s) ks ss -> map f ss' = map f ss -> map f (store objs ks ss') = map f objs.
Proof.
  intros B f ks ss ss' objs F. assert (G : forall o, map f o = map f objs -> map f ss' = map f ss -> map f (store o ks ss') = map f objs); [|now apply G]. revert ss'.
  induction F as [|k s ks ss E F IH]; intros ss' o O M; [destruct ss'; [exact O|discriminate]|]. destruct ss' as [|s' ss']; [discriminate|]. cbn [map] in M. injection M as M1 M2. cbn [store]. apply IH; [|exact M2].
  destruct (nth_error_map_some f objs o k s O E) as (y & Y & FY). rewrite (upd_same f o k s' y Y); [exact O|congruence].
Qed.
Lemma store_all : forall (P : service -> Prop) ks ss objs, Forall P objs -> Forall P ss -> Forall P (store objs ks ss).
Proof.
  intros P. induction ks as [|k ks IH]; intros [|s ss] objs F G; cbn [store]; try exact F. inversion_clear G as [|? ? G1 G2]. apply IH; [|exact G2]. clear IH G2. revert k. induction F as [|y l Y F IH]; intro k; [destruct k; constructor|]. destruct k; cbn [upd]; constructor; auto.
Qed.
Lemma chars_of_ext : forall objs objs' tab, (forall k, In k tab -> nth_error objs' k = nth_error objs k) -> chars_of objs' tab = chars_of objs tab.
Proof. induction tab as [|k tab IH]; intro H; [reflexivity|]. unfold chars_of in *. cbn [flat_map]. rewrite (H k (or_introl eq_refl)), IH; [reflexivity|]. intros j J. apply H. now right. Qed.
Lemma chars_of_same : forall objs ks ss, Forall2 (fun k s => nth_error objs k = Some s) ks ss -> chars_of objs ks = flat_map s_chars ss.
Proof. intros objs ks ss F. induction F as [|k s ks ss E F IH]; [reflexivity|]. unfold chars_of in *. cbn [flat_map]. now rewrite E, IH. Qed.

Definition good (objs : list service) : Prop := NoDup (numbers objs) /\ Forall (fun s => snamed s = true) objs.
Lemma fetch_all : forall (P : service -> Prop) objs ks ss, Forall P objs -> Forall2 (fun k s => nth_error objs k = Some s) ks ss -> Forall P ss.
Proof. intros P objs ks ss F G. induction G as [|k s ks ss E G IH]; constructor; [|exact IH]. rewrite Forall_forall in F. apply F. now apply nth_error_In in E. Qed.

(** What a publication does. *)
Lemma publish_facts : forall d objs ks d', good objs -> publish d objs ks = Some d' ->
  good (dv_objs d') /\ length (dv_objs d') = length objs /\ dv_pub d' = ks /\ dv_name d' = dv_name d /\ grounded ks (dv_objs d') (dv_db d') /\
  (forall k, ~ In k ks -> nth_error (dv_objs d') k = nth_error objs k) /\ dv_conns d' = map (refresh_conn (dv_objs d')) (dv_conns d).
Proof.
  intros d objs ks d' [ND NM] H. unfold publish in H. destruct (distinct ks) eqn:DK; [|discriminate]. destruct (fetch objs ks) as [ss|] eqn:F; [|discriminate]. apply fetch_nth in F.
  pose proof (new_db_knows ss 1 (fetch_all _ _ _ _ NM F)) as K. destruct (new_db ss 1) as [ss' t]. destruct K as (K1 & K2 & K3). injection H as <-. cbn.
  split; [split; [rewrite numbers_sch, (store_map sch ks ss ss' objs F K2), <- numbers_sch; exact ND|now apply store_all]|]. split; [apply store_length|]. split; [reflexivity|]. split; [reflexivity|]. split; [|split; [|reflexivity]].
  - red. rewrite (chars_of_same _ ks ss'); [exact K1|]. apply store_same; [now apply distinct_nodup| |].
    + clear - F. induction F as [|k s ks ss E F IH]; constructor; [|exact IH]. apply nth_error_Some. congruence.
    + apply (f_equal (@length _)) in K2. rewrite !map_length in K2. assert (L : length ks = length ss) by (clear - F; induction F; cbn; congruence). congruence.
  - intros k NI. now apply store_other.
Qed.
