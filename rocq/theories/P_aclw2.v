Require Import Verif.Base Verif.S_l2cap Verif.M_l2cap Verif.P_l2cap Verif.M_aclw Verif.S_aclw Verif.P_aclw.
From Coq Require Import Lia.
Local Open Scope nat_scope.

Lemma bk_t : forall s bl t th, Inv s bl -> nth_error (k_thr s) t = Some th -> forall fs, In (t, fs) bl ->
  fs <> [] /\ body (t_call th) /\ exists more, cut (k_bufsz s) (hnd s (t_call th)) (pdu_of (t_call th)) (fs ++ more).
Proof.
  intros s bl t th (_ & _ & _ & BK & _) N fs I. destruct (BK t fs I) as (NE & th0 & more & N0 & BD & F). assert (th0 = th) by congruence. subst th0. split; [exact NE|split; [exact BD|now exists more]].
Qed.
Lemma conn_same : forall s c x x' (s' : kst), nth_error (k_conns s) c = Some x -> k_conns s' = upd (k_conns s) c x' -> c_handle x' = c_handle x -> c_mtu x' = c_mtu x ->
  forall k, hnd s' k = hnd s k /\ mtu s' k = mtu s k.
Proof.
  intros s c x x' s' N E H M k. unfold hnd, mtu. rewrite E. destruct (Nat.eq_dec c (conn_of k)) as [->|D].
  - rewrite (nth_upd_eq _ _ _ _ N), N. now split.
  - rewrite nth_upd_ne by exact D. now split.
Qed.
(** A step that changes only where the call is, and perhaps the lock *)
Lemma go_inv : forall s bl t k p p' o, Inv s bl -> nth_error (k_thr s) t = Some (mkT k p) ->
  ((hold p' = hold p /\ o = k_lock s) \/ (hold p = false /\ hold p' = true /\ k_lock s = None /\ o = Some t) \/ (hold p = true /\ hold p' = false /\ o = None)) ->
  tinv s bl t (mkT k p') -> Inv (with_lock (with_thr s t (mkT k p')) o) bl.
Proof.
  intros s bl t k p p' o IV N LR T. assert (IV2 := IV). destruct IV2 as (_ & ND & LG & _ & BO).
  apply (upd_inv s bl _ bl t (mkT k p) (mkT k p') IV N).
  - reflexivity.
  - reflexivity.
  - reflexivity.
  - intros; split; reflexivity.
  - reflexivity.
  - exact BO.
  - exact LR.
  - left; split; reflexivity.
  - intros; split; [tauto|]. intros; tauto.
  - exact ND.
  - exact LG.
  - exact (bk_t s bl t _ IV N).
  - exact T.
Qed.
Lemma go_inv' : forall s bl t k p p', Inv s bl -> nth_error (k_thr s) t = Some (mkT k p) -> hold p' = hold p ->
  tinv s bl t (mkT k p') -> Inv (with_thr s t (mkT k p')) bl.
Proof. intros s bl t k p p' IV N H T. exact (go_inv s bl t k p p' (k_lock s) IV N (or_introl (conj H eq_refl)) T). Qed.
Lemma frame_all : forall sdu, frame sdu (length sdu) = b_frame 4 sdu /\ left_of sdu (length sdu) = Some [].
Proof.
  intros sdu. unfold frame, left_of, b_frame. rewrite firstn_all, Nat.sub_diag, Nat.leb_refl, skipn_all. cbn [repeat]. now rewrite app_nil_r.
Qed.
Lemma packet_acl : forall h n pdu (first : bool), (0 <= h < 4096)%Z -> piece n pdu <= length pdu -> packet h n pdu first = 2%Z :: acl h (if first then 0 else 1) (firstn (piece n pdu) pdu).
Proof.
  intros h n pdu first H L. unfold packet, acl. rewrite firstn_length, Nat.min_l by exact L. destruct first.
  - rewrite lor_noflag. reflexivity.
  - rewrite lor_flag by exact H. reflexivity.
Qed.
Lemma cur_nil_or : forall bl t fs, cur bl t fs -> NoDup (map fst bl) -> forall fs', In (t, fs') bl -> fs' = fs.
Proof.
  intros bl t fs [(-> & N)|(NE & bl' & ->)] ND fs' I; [elim N; now apply isin_in in I|]. apply in_app_or in I. destruct I as [I|[I|[]]]; [|congruence].
  exfalso. rewrite map_app in ND. cbn [map fst] in ND. apply NoDup_remove_2 in ND. rewrite app_nil_r in ND. apply ND. apply in_map_iff. now exists (t, fs').
Qed.

Lemma step_inv : forall s bl t s', 1 <= k_bufsz s -> Inv s bl -> step s t = Some s' -> Inv s' bl.
Proof.
  intros s bl t s' NB IV E. assert (IV2 := IV). destruct IV2 as (IT & ND & LG & BK & BO). unfold step in E.
  destruct (nth_error (k_thr s) t) as [[k p]|] eqn:N; [|discriminate]. destruct (nth_error (k_conns s) (conn_of k)) as [x|] eqn:X; [|discriminate].
  destruct (IT t _ N) as (CL & HL & T). cbn [t_call t_ph] in *. unfold tinv in T. cbn [t_call t_ph] in T.
  assert (HX : hnd s k = c_handle x) by (unfold hnd; now rewrite X). assert (MX : mtu s k = c_mtu x) by (unfold mtu; now rewrite X).
  assert (HR : (0 <= c_handle x < 4096)%Z) by (destruct BO as [_ BO]; rewrite Forall_forall in BO; now apply (BO x (nth_error_In _ _ X))).
  destruct p as [| | |pdu lft|pdu lft|pdu first lft|b pdu first lft|b pdu lft|b pdu lft|l|l| | | |ok|]; try discriminate; try contradiction.
  - destruct T as [(c & sdu & ->) NI]. apply some_inj in E. subst s'. destruct (Nat.ltb_spec (c_mtu x) (length sdu)) as [L|L]; apply (go_inv' s bl t _ WCheck); auto.
    + exact I.
    + split; [|exact NI]. exists c, sdu. split; [reflexivity|]. cbn [t_call]. rewrite MX. exact L.
  - destruct T as [(c & sdu & -> & L) NI]. rewrite MX in L. destruct (Nat.ltb_spec (c_mtu x) (length sdu)); [lia|]. apply some_inj in E. subst s'.
    destruct (frame_all sdu) as [-> ->]. apply (go_inv' s bl t _ WLen); auto. split; [exact I|]. split; [reflexivity|split; [reflexivity|exact NI]].
  - destruct (k_lock s) eqn:LK; [discriminate|]. apply some_inj in E. subst s'. apply (go_inv s bl t k (PLock pdu lft) (PDone pdu lft) (Some t) IV N); [right; left; now rewrite LK|exact T].
  - destruct T as (BD & -> & -> & NI). destruct (c_done x).
    + apply some_inj in E. subst s'. apply (go_inv s bl t k (PDone (pdu_of k) (Some []))); auto. exact I.
    + apply some_inj in E. subst s'. apply (go_inv' s bl t k (PDone (pdu_of k) (Some []))); auto. split; [exact BD|]. split; [reflexivity|]. exists []. split; [now left|]. now split.
  - destruct T as (BD & -> & fs & C & G). destruct pdu as [|y pdu].
    + apply some_inj in E. subst s'. apply (go_inv s bl t k (PGet [] first (Some []))); auto. unfold tinv. cbn [t_call t_ph next_of].
      destruct first as [|].
      * destruct G as [-> G]. right. left. split; [now rewrite <- G|]. destruct C as [[_ C]|[C _]]; [exact C|contradiction].
      * destruct G as [NE G]. right. right. exists fs. destruct C as [[C _]|[_ (bl' & ->)]]; [contradiction|]. split; [apply in_or_app; right; now left|]. rewrite <- (app_nil_r fs). apply G. constructor.
    + destruct (k_free s) as [|b f] eqn:FR; [discriminate|]. apply some_inj in E. subst s'.
      destruct BO as [BO1 BO2]. rewrite FR in BO1. apply Forall_cons_iff in BO1. destruct BO1 as [Bb BO1].
      apply (upd_inv s bl _ bl t (mkT k (PGet (y :: pdu) first (Some []))) (mkT k (PFill b (y :: pdu) first (Some []))) IV N).
      * reflexivity.
      * reflexivity.
      * reflexivity.
      * intros k0 _. eapply (conn_same s (conn_of k) x); [exact X|reflexivity|reflexivity|reflexivity].
      * apply upd_length.
      * split; [exact BO1|]. cbn [with_thr with_conn with_free k_conns k_buf]. rewrite Forall_forall in *. intros z Hz. apply In_nth_error in Hz. destruct Hz as (i & Hi). rewrite nth_error_upd in Hi.
        destruct (Nat.eqb (conn_of k) i); [destruct (Nat.ltb (conn_of k) (length (k_conns s))); [|discriminate]|].
        -- injection Hi as <-. cbn [c_handle c_sent]. split; [exact HR|]. apply Forall_app. split; [apply (BO2 x (nth_error_In _ _ X))|now repeat constructor].
        -- apply (BO2 z). now apply nth_error_In in Hi.
      * left; split; reflexivity.
      * left; split; reflexivity.
      * intros; split; [tauto|]; intros; tauto.
      * exact ND.
      * exact LG.
      * exact (bk_t s bl t _ IV N).
      * unfold tinv. cbn [t_call t_ph with_thr with_conn with_free k_bufsz k_buf].
        set (s1 := with_thr (with_conn (with_free s f) (conn_of k) (mkC (c_handle x) (c_mtu x) (c_done x) (c_sent x ++ [b]))) t (mkT k (PFill b (y :: pdu) first (Some [])))).
        assert (HS : hnd s1 k = hnd s k) by (apply (conn_same s (conn_of k) x (mkC (c_handle x) (c_mtu x) (c_done x) (c_sent x ++ [b])) s1 X); reflexivity).
        split; [exact BD|]. split; [discriminate|]. split; [exact Bb|]. split; [reflexivity|]. exists fs. split; [exact C|]. now rewrite HS.
  - destruct T as (BD & NE & Bb & -> & fs & C & G). apply some_inj in E. subst s'. set (n := k_bufsz s) in *. destruct (piece_cut n pdu NB NE) as (P1 & P2 & P3).
    assert (L1 : length (firstn (piece n pdu) pdu) = piece n pdu) by (rewrite firstn_length; lia).
    apply (upd_inv s bl _ bl t (mkT k (PFill b pdu first (Some []))) (mkT k (PChk b (skipn (piece n pdu) pdu) (Some []))) IV N).
    * reflexivity.
    * reflexivity.
    * reflexivity.
    * intros; split; reflexivity.
    * reflexivity.
    * destruct BO as [BO1 BO2]. unfold bufs_ok. cbn [with_thr with_buf k_free k_buf k_conns]. rewrite upd_length. now split.
    * left; split; reflexivity.
    * right; reflexivity.
    * intros; split; [tauto|]; intros; tauto.
    * exact ND.
    * exact LG.
    * exact (bk_t s bl t _ IV N).
    * unfold tinv. cbn [t_call t_ph with_thr with_buf k_bufsz k_buf]. change (hnd (with_thr (with_buf s ?u) t ?v) k) with (hnd s k). split; [exact BD|]. split; [reflexivity|].
      exists fs, (acl (c_handle x) (if first then 0%Z else 1%Z) (firstn (piece n pdu) pdu)). split; [exact C|]. split.
      -- rewrite (packet_acl _ _ _ _ HR P2). apply nth_error_nth. rewrite nth_error_upd, Nat.eqb_refl. destruct (Nat.ltb_spec b (length (k_buf s))); [reflexivity|lia].
      -- fold n. rewrite HX. rewrite HX in G. intros fs' F. destruct first as [|].
         ++ destruct G as [-> ->]. cbn [app]. exists (firstn (piece n (pdu_of k)) (pdu_of k)), (skipn (piece n (pdu_of k)) (pdu_of k)), fs'.
            rewrite L1. split; [lia|]. split; [exact P3|]. split; [now rewrite firstn_skipn|]. split; [reflexivity|exact F].
         ++ destruct G as [NF G]. apply G. rewrite <- (firstn_skipn (piece n pdu) pdu) at 1. constructor; [lia|rewrite L1; exact P3|exact F].
  - destruct T as (BD & -> & R). destruct (c_done x); apply some_inj in E; subst s'.
    + apply (go_inv s bl t k (PChk b pdu (Some []))); auto. exact I.
    + apply (go_inv' s bl t k (PChk b pdu (Some []))); auto. split; [exact BD|]. split; [reflexivity|exact R].
  - destruct T as [(c & ->) NI]. apply some_inj in E. subst s'. cbn [conn_of] in *.
    apply (upd_inv s bl _ bl t (mkT (KClose c) CClose) (mkT (KClose c) CLock) IV N).
    * reflexivity.
    * reflexivity.
    * reflexivity.
    * intros k0 _. eapply (conn_same s c x); [exact X|reflexivity|reflexivity|reflexivity].
    * apply upd_length.
    * destruct BO as [BO1 BO2]. split; [exact BO1|]. cbn [with_thr with_conn k_conns k_buf]. rewrite Forall_forall in *. intros z Hz. apply In_nth_error in Hz. destruct Hz as (i & Hi). rewrite nth_error_upd in Hi.
      destruct (Nat.eqb c i); [destruct (Nat.ltb c (length (k_conns s))); [|discriminate]|].
      -- injection Hi as <-. cbn [c_handle c_sent]. apply (BO2 x (nth_error_In _ _ X)).
      -- apply (BO2 z). now apply nth_error_In in Hi.
    * left; split; reflexivity.
    * left; split; reflexivity.
    * intros; split; [tauto|]; intros; tauto.
    * exact ND.
    * exact LG.
    * exact (bk_t s bl t _ IV N).
    * split; [now exists c|exact NI].
  - destruct T as [(c & ->) NI]. destruct (k_lock s) eqn:LK; [discriminate|]. apply some_inj in E. subst s'. apply (go_inv s bl t (KClose c) CLock CPut (Some t) IV N); [right; left; now rewrite LK|]. split; [now exists c|exact NI].
  - destruct T as [(c & ->) NI]. apply some_inj in E. subst s'. cbn [conn_of] in *.
    apply (upd_inv s bl _ bl t (mkT (KClose c) CPut) (mkT (KClose c) (Ended true)) IV N).
    * reflexivity.
    * reflexivity.
    * reflexivity.
    * intros k0 _. eapply (conn_same s c x); [exact X|reflexivity|reflexivity|reflexivity].
    * apply upd_length.
    * destruct BO as [BO1 BO2]. assert (BX := proj2 (proj1 (Forall_forall _ _) BO2 x (nth_error_In _ _ X))). split; [apply Forall_app; split; [exact BO1|exact BX]|].
      cbn [with_lock with_thr with_conn with_free k_conns k_buf]. rewrite Forall_forall in *. intros z Hz. apply In_nth_error in Hz. destruct Hz as (i & Hi). rewrite nth_error_upd in Hi.
      destruct (Nat.eqb c i); [destruct (Nat.ltb c (length (k_conns s))); [|discriminate]|].
      -- injection Hi as <-. cbn [c_handle c_sent]. split; [exact HR|constructor].
      -- apply (BO2 z). now apply nth_error_In in Hi.
    * right; right. repeat split; reflexivity.
    * right; reflexivity.
    * intros; split; [tauto|]; intros; tauto.
    * exact ND.
    * exact LG.
    * exact (bk_t s bl t _ IV N).
    * left. cbn. tauto.
Qed.
