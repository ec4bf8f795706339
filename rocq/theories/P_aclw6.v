Require Import Verif.Base Verif.S_l2cap Verif.M_l2cap Verif.P_l2cap Verif.P_l2cap2 Verif.M_aclw Verif.S_aclw Verif.P_aclw Verif.P_aclw2 Verif.P_aclw3 Verif.P_aclw4 Verif.P_aclw5.
From Coq Require Import Lia.
Local Open Scope nat_scope.

Lemma peer : forall s bl c h rxmps, 4 <= k_bufsz s -> Inv s bl -> handle_of s c = Some h ->
  (forall t k, call_of s t = Some k -> conn_of k = c -> returned s t true) ->
  (forall t k, call_of s t = Some k -> conn_of k = c -> pdu_of k <> [] -> good_pdu rxmps (pdu_of k)) ->
  exists ts, NoDup ts /\ (forall t, In t ts <-> exists k, call_of s t = Some k /\ conn_of k = c /\ pdu_of k <> []) /\
    recombine_run rxmps (map (@tl Z) (on_conn s c (k_log s))) = Base.Ret (map (fun t => match call_of s t with Some k => pdu_of k | None => [] end) ts, true).
Proof.
  intros s bl c h rxmps NB IV H RT GD. assert (IV2 := IV). destruct IV2 as (IT & ND & LG & BK & BO). set (bs := filter (fun b => onc s c (fst b)) bl). exists (map fst bs). split; [|split].
  - unfold bs. clear - ND. induction bl as [|[t fs] bl IH]; [constructor|]. cbn [map fst] in ND. apply NoDup_cons_iff in ND. destruct ND as [N ND]. cbn [filter fst]. destruct (onc s c t); [|now apply IH].
    cbn [map fst]. constructor; [|now apply IH]. intros I. apply N. apply in_map_iff in I. destruct I as (b & Q & I). apply filter_In in I. apply in_map_iff. exists b. now split.
  - intros t. split.
    + intros I. apply in_map_iff in I. destruct I as ((t' & fs) & Q & I). cbn [fst] in Q. subst t'. apply filter_In in I. destruct I as [I O]. cbn [fst] in O. unfold onc in O. destruct (call_of s t) as [k|] eqn:C; [|discriminate]. exists k. split; [reflexivity|]. split; [now apply Nat.eqb_eq|].
      destruct (BK t fs I) as (_ & th & more & N & _ & F). intros E. unfold call_of in C. rewrite N in C. cbn in C. assert (t_call th = k) by congruence. subst k. rewrite E in F. now apply cut_nil in F.
    + intros (k & C & <- & NE). destruct (whole s bl t k ltac:(lia) IV C) as (b & fs & more & a & L & _ & _ & _ & _ & F & M). specialize (F NE). rewrite (M (RT t k C eq_refl)), app_nil_r in F.
      assert (I : isin t bl). { destruct fs as [|f fs]; [destruct F as (? & ? & ? & _ & _ & _ & Q & _); discriminate|]. apply (flat_in bl t (2%Z :: f)). rewrite <- LG, L. apply in_or_app. right. now left. }
      apply in_map_iff in I. destruct I as ((t' & fs') & Q & I). cbn [fst] in Q. subst t'. apply in_map_iff. exists (t, fs'). split; [reflexivity|]. apply filter_In. split; [exact I|]. cbn [fst]. unfold onc. rewrite C. apply Nat.eqb_refl.
  - rewrite LG, on_conn_flat. fold bs. assert (HH : (0 <= h < 4096)%Z).
    { unfold handle_of in H. destruct (nth_error (k_conns s) c) as [x|] eqn:X; [|discriminate]. cbn in H. injection H as <-. destruct BO as [_ BO]. apply (proj1 (Forall_forall _ _) BO x). now apply nth_error_In in X. }
    assert (G : Forall (good_pdu rxmps) (map (fun t => match call_of s t with Some k => pdu_of k | None => [] end) (map fst bs)) /\ Forall2 (rx_frags h) (map (fun t => match call_of s t with Some k => pdu_of k | None => [] end) (map fst bs)) (map snd bs)).
    { assert (G : forall t fs, In (t, fs) bs -> good_pdu rxmps (match call_of s t with Some k => pdu_of k | None => [] end) /\ rx_frags h (match call_of s t with Some k => pdu_of k | None => [] end) fs).
      { intros t fs I. apply filter_In in I. destruct I as [I O]. cbn [fst] in O. unfold onc in O. destruct (call_of s t) as [k|] eqn:C; [|discriminate]. apply Nat.eqb_eq in O. subst c.
        destruct (BK t fs I) as (_ & th & more & N & BD & F). assert (Q := C). unfold call_of in Q. rewrite N in Q. cbn in Q. assert (t_call th = k) by congruence. subst k. set (k := t_call th) in *.
        assert (NE : pdu_of k <> []) by (intros E; rewrite E in F; now apply cut_nil in F). assert (GP := GD t k C eq_refl NE). split; [exact GP|].
        destruct (RT t k C eq_refl) as (k' & R). destruct (IT t _ R) as (CL & _ & T). unfold tinv in T. cbn [t_call t_ph] in *. assert (k' = k) by (subst k; now replace th with (mkT k' (Ended true)) by congruence). subst k'.
        assert (HK : hnd s k = h) by (rewrite (hnd_of s k CL) in H; congruence). rewrite HK in T. destruct T as [T|[[T _]|(fs' & I' & F')]]; [contradiction|contradiction|].
        assert (fs' = fs). { clear - ND I I'. induction bl as [|b bl IH]; [destruct I|]. cbn [map] in ND. apply NoDup_cons_iff in ND. destruct ND as [N ND]. destruct I as [->|I], I' as [E|I'].
          - congruence.
          - elim N. cbn [fst]. now apply isin_in in I'.
          - subst b. elim N. cbn [fst]. now apply isin_in in I.
          - now apply IH. }
        subst fs'. apply (cut_rx (k_bufsz s)); [exact NB| |exact F']. destruct GP as (c0 & d & -> & _). unfold b_frame. rewrite !app_length, !le16_length. lia. }
      clearbody bs. clear - G. induction bs as [|[t fs] bs IH]; cbn [map fst snd]; [split; constructor|]. destruct (G t fs (or_introl eq_refl)) as [G1 G2]. destruct IH as [I1 I2]; [intros t' fs' I; apply G; now right|]. split; constructor; assumption. }
    apply (recombine_seq rxmps h); [exact HH|exact (proj1 G)|exact (proj2 G)|].
    lia.
Qed.

(** Once a connection is closed *)
Lemma conn_keep : forall (l : list conn) c0 x x' c, nth_error l c0 = Some x -> (c_done x = true -> c_done x' = true) -> (exists y, nth_error l c = Some y /\ c_done y = true) -> exists y, nth_error (upd l c0 x') c = Some y /\ c_done y = true.
Proof.
  intros l c0 x x' c X D (y & Y & Q). destruct (Nat.eq_dec c0 c) as [->|N].
  - rewrite (nth_upd_eq _ _ _ _ X). exists x'. split; [reflexivity|]. apply D. congruence.
  - rewrite nth_upd_ne by exact N. now exists y.
Qed.
Lemma act_closed : forall s a s' c, exec s a = Some s' -> closed s c -> closed s' c /\ (forall t, psend s' t -> onc s' c t = true -> psend s t /\ forall ok, a <> AWrite t ok).
Proof.
  intros s a s' c E CL. assert (UP : forall t k p0 p (s2 : kst), nth_error (k_thr s) t = Some (mkT k p0) -> k_thr s2 = upd (k_thr s) t (mkT k p) -> (forall b pdu lft, p = PSend b pdu lft -> conn_of k <> c) ->
    forall t', psend s2 t' -> onc s2 c t' = true -> t' <> t /\ psend s t').
  { intros t k p0 p s2 N Q NP t' (k' & b & pdu & lft & N') O. unfold onc, call_of in O. rewrite N' in O. cbn [option_map t_call] in O. apply Nat.eqb_eq in O. rewrite Q in N'. destruct (Nat.eq_dec t' t) as [->|D].
    - rewrite (nth_upd_eq _ _ _ _ N) in N'. injection N' as <- ->. now elim (NP b pdu lft eq_refl).
    - rewrite nth_upd_ne in N' by congruence. split; [exact D|]. now exists k', b, pdu, lft. }
  destruct a as [k|t|t ok|c0 n|c0 v|h v]; unfold exec in E.
  - destruct (Nat.ltb (conn_of k) (length (k_conns s))); [|discriminate]. apply some_inj in E. subst s'. split; [exact CL|]. intros t (k' & b & pdu & lft & N) _. split; [|discriminate]. exists k', b, pdu, lft. cbn [k_thr] in N.
    destruct (Nat.lt_ge_cases t (length (k_thr s))) as [L|L]; [now rewrite nth_error_app1 in N|]. rewrite nth_error_app2 in N by exact L. destruct (t - length (k_thr s)) as [|d]; [destruct k; discriminate|destruct d; discriminate].
  - unfold step in E. destruct (nth_error (k_thr s) t) as [[k p]|] eqn:N; [|discriminate]. destruct (nth_error (k_conns s) (conn_of k)) as [x|] eqn:X; [|discriminate].
    assert (G : closed s' c /\ exists p', k_thr s' = upd (k_thr s) t (mkT k p') /\ (forall b pdu lft, p' = PSend b pdu lft -> conn_of k <> c)).
    { assert (DX : conn_of k = c -> c_done x = true) by (intros <-; destruct CL as (y & Y & D); congruence). unfold closed in *.
      destruct p as [| | |pdu lft|pdu lft|pdu first lft|b pdu first lft|b pdu lft|b pdu lft|r|r| | | |ok0|]; try discriminate; try (destruct k; try discriminate).
      all: repeat match goal with
        | H : match ?q with _ => _ end = Some _ |- _ => destruct q eqn:?; try discriminate
        end; apply some_inj in E; subst s'; cbn [with_thr with_lock with_free with_buf with_conn k_conns k_thr];
        (split; [first [exact CL|apply (conn_keep _ _ x); [exact X|cbn; auto|exact CL]]|eexists; split; [reflexivity|]; intros ? ? ? Q; try discriminate; try (injection Q as <- <- <-); try (intros W; apply DX in W; congruence)]).
      all: repeat match goal with Q : (if ?b then _ else _) = PSend _ _ _ |- _ => destruct b; try discriminate Q | Q : next_of ?l = _ |- _ => destruct l as [[|]|]; discriminate Q end. }
    destruct G as (G1 & p' & G2 & G3). split; [exact G1|]. intros t' P O. destruct (UP t k p p' s' N G2 G3 t' P O) as [_ P']. split; [exact P'|discriminate].
  - destruct (nth_error (k_thr s) t) as [[k p]|] eqn:N; [|discriminate]. destruct p as [| | |pdu lft|pdu lft|pdu first lft|b pdu first lft|b pdu lft|b pdu lft|r|r| | | |ok0|]; try discriminate.
    assert (G : closed s' c /\ exists p', k_thr s' = upd (k_thr s) t (mkT k p') /\ (forall b pdu lft, p' = PSend b pdu lft -> conn_of k <> c)).
    { destruct ok; apply some_inj in E; subst s'; (split; [exact CL|eexists; split; [reflexivity|discriminate]]). }
    destruct G as (G1 & p' & G2 & G3). split; [exact G1|]. intros t' P O. destruct (UP t k _ p' s' N G2 G3 t' P O) as [D P']. split; [exact P'|]. intros ok' Q. injection Q as Q _. congruence.
  - destruct (nth_error (k_conns s) c0) as [x|] eqn:X; [|discriminate]. apply some_inj in E. subst s'. split; [apply (conn_keep _ _ x); [exact X|cbn; auto|exact CL]|]. intros t P _. split; [exact P|discriminate].
  - destruct (nth_error (k_conns s) c0) as [x|] eqn:X; [|discriminate]. apply some_inj in E. subst s'. split; [apply (conn_keep _ _ x); [exact X|cbn; auto|exact CL]|]. intros t P _. split; [exact P|discriminate].
  - apply some_inj in E. subst s'. split; [|intros t P _; split; [exact P|discriminate]]. destruct CL as (x & X & D). exists x. split; [|exact D]. cbn [k_conns]. rewrite nth_error_app1; [exact X|]. apply nth_error_Some. congruence.
Qed.
Lemma act_add : forall s a s' add t p, exec s a = Some s' -> k_log s' = k_log s ++ add -> In (t, p) add -> a = AWrite t true.
Proof.
  intros s a s' add t p E L I. assert (Z0 : k_log s' = k_log s -> False). { intros Q. rewrite Q in L. rewrite <- (app_nil_r (k_log s)) in L at 1. apply app_inv_head in L. now subst add. }
  destruct a as [k|t0|t0 ok|c n|c v|h v]; unfold exec in E.
  - exfalso. destruct (Nat.ltb (conn_of k) (length (k_conns s))); [|discriminate]. apply some_inj in E. subst s'. now apply Z0.
  - exfalso. apply Z0. unfold step in E. destruct (nth_error (k_thr s) t0) as [[k p0]|]; [|discriminate]. destruct (nth_error (k_conns s) (conn_of k)) as [x|]; [|discriminate].
    destruct p0; try discriminate; try (destruct k; try discriminate);
        repeat match goal with
        | H : match ?q with _ => _ end = Some _ |- _ => destruct q; try discriminate
        end; apply some_inj in E; subst s'; reflexivity.
  - destruct (nth_error (k_thr s) t0) as [[k p0]|]; [|discriminate]. destruct p0; try discriminate. destruct ok; apply some_inj in E; subst s'; [|now elim Z0]. cbn [with_log k_log with_thr] in L. apply app_inv_head in L. subst add. destruct I as [I|[]]. now injection I as -> _.
  - exfalso. destruct (nth_error (k_conns s) c) as [x|]; [|discriminate]. apply some_inj in E. subst s'. now apply Z0.
  - exfalso. destruct (nth_error (k_conns s) c) as [x|]; [|discriminate]. apply some_inj in E. subst s'. now apply Z0.
  - exfalso. apply some_inj in E. subst s'. now apply Z0.
Qed.
Lemma psend_one : forall s bl t t', Inv s bl -> psend s t -> psend s t' -> t = t'.
Proof.
  intros s bl t t' (IT & _) (k & b & pdu & lft & N) (k' & b' & pdu' & lft' & N'). destruct (IT t _ N) as (_ & (H & _) & _). destruct (IT t' _ N') as (_ & (H' & _) & _). specialize (H eq_refl). specialize (H' eq_refl). congruence.
Qed.
Lemma calm_pre : forall cnt n l l', calm cnt n (l ++ l') -> calm cnt n l.
Proof. intros cnt n l l' CA l1 c v l2 s t sdu -> R. apply (CA l1 c v (l2 ++ l') s t sdu); [now rewrite <- app_assoc|exact R]. Qed.
Lemma handles_pre : forall l l', handles_ok (l ++ l') -> handles_ok l.
Proof. intros l l' H h v I. apply (H h v). apply in_or_app. now left. Qed.
Lemma on_conn_app : forall s c a b, on_conn s c (a ++ b) = on_conn s c a ++ on_conn s c b.
Proof. intros. unfold on_conn. now rewrite filter_app, map_app. Qed.
Lemma on_conn_ext : forall s s' c l, (forall t p, In (t, p) l -> call_of s' t = call_of s t) -> on_conn s' c l = on_conn s c l.
Proof.
  intros s s' c l H. unfold on_conn. f_equal. apply filter_ext_in. intros [t p] I. cbn [fst]. now rewrite (H t p I).
Qed.
Lemma closed_run : forall cnt n l1 l2 s1 s c, 1 <= n -> handles_ok (l1 ++ l2) -> calm cnt n (l1 ++ l2) -> runs cnt n l1 s1 -> closed s1 c -> runs cnt n (l1 ++ l2) s ->
  closed s c /\ exists b, k_log s = k_log s1 ++ b /\ length (on_conn s c b) <= 1 /\ (0 < length (on_conn s c b) -> forall t, psend s t -> onc s c t = false).
Proof.
  intros cnt n l1 l2. induction l2 as [|a l2 IH] using rev_ind; intros s1 s c NB HO CA R1 CL R.
  - rewrite app_nil_r in R. unfold runs in *. assert (s = s1) by congruence. subst s. split; [exact CL|]. exists []. split; [now rewrite app_nil_r|]. cbn. split; [lia|lia].
  - rewrite app_assoc in *. apply runs_app in R. destruct R as (s2 & R2 & R). cbn [exec_all] in R. destruct (exec s2 a) as [s3|] eqn:E; [|discriminate]. apply some_inj in R. subst s3.
    destruct (IH s1 s2 c NB (handles_pre _ _ HO) (calm_pre _ _ _ _ CA) R1 CL R2) as (CL2 & b & LB & L1 & PS). destruct (act_closed _ _ _ _ E CL2) as [CL3 PC]. split; [exact CL3|].
    destruct (runs_inv cnt n _ s2 NB (handles_pre _ _ HO) (calm_pre _ _ _ _ CA) R2) as ((bl & IV) & _ & _).
    destruct (act_shape _ _ _ E) as (add & LG & AD & _ & CK & LA). exists (b ++ add). split; [now rewrite LG, LB, app_assoc|].
    assert (CE : forall t p, In (t, p) (b ++ add) -> call_of s t = call_of s2 t).
    { intros t p I. assert (X : call_of s2 t <> None). { apply in_app_or in I. destruct I as [I|I]; [apply (log_thr cnt n _ s2 R2 t p); rewrite LB; apply in_or_app; now right|]. destruct (AD t p I) as (k & b0 & pdu & lft & N). unfold call_of. rewrite N. discriminate. }
      destruct (call_of s2 t) as [k|] eqn:Q; [|contradiction]. now apply CK. }
    rewrite (on_conn_ext s2 s c _ CE), on_conn_app, app_length.
    assert (OE : forall t, psend s2 t -> onc s c t = onc s2 c t). { intros t (k & b0 & pdu & lft & N). unfold onc. replace (call_of s t) with (call_of s2 t); [reflexivity|]. symmetry. unfold call_of at 2. rewrite N. cbn. apply CK. unfold call_of. now rewrite N. }
    destruct add as [|[t p] add].
    + cbn [on_conn]. unfold on_conn at 2 4. cbn [filter map length]. rewrite Nat.add_0_r. split; [exact L1|]. intros L0 t P. destruct (onc s c t) eqn:O; [|reflexivity]. destruct (PC t P O) as [P2 _]. rewrite (OE t P2) in O. now rewrite (PS L0 t P2) in O.
    + destruct add; [|cbn in LA; lia]. assert (P2 := AD t p (or_introl eq_refl)). assert (EA := act_add _ _ _ _ t p E LG (or_introl eq_refl)).
      assert (NO : forall t', psend s t' -> onc s c t' = false). { intros t' P. destruct (onc s c t') eqn:O; [|reflexivity]. destruct (PC t' P O) as [P2' NW]. exfalso. apply (NW true). rewrite (psend_one s2 bl t' t IV P2' P2). exact EA. }
      split; [|intros _; exact NO]. destruct (onc s2 c t) eqn:O.
      * assert (length (on_conn s2 c b) = 0) by (destruct (length (on_conn s2 c b)) eqn:Q; [reflexivity|exfalso; rewrite (PS ltac:(lia) t P2) in O; discriminate]).
        unfold on_conn at 2. cbn [filter fst]. unfold onc in O. rewrite O. cbn. lia.
      * unfold on_conn at 2. cbn [filter fst]. unfold onc in O. rewrite O. cbn. lia.
Qed.
Lemma calm_no_crash : forall s bl, Inv s bl -> ~ crashed s.
Proof. intros s bl (IT & _) (t & k & N). destruct (IT t _ N) as (_ & _ & T). exact T. Qed.
