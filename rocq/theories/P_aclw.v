Require Import Verif.Base Verif.S_l2cap Verif.M_l2cap Verif.P_l2cap Verif.M_aclw Verif.S_aclw.
From Coq Require Import Lia.
Local Open Scope nat_scope.

Definition hold (p : ph) : bool := match p with PDone _ _ | PGet _ _ _ | PFill _ _ _ _ | PChk _ _ _ | PSend _ _ _ | CPut => true | _ => false end.
Notation blocks := (list (nat * list bytes)).
Definition flat (bl : blocks) : list (nat * bytes) := flat_map (fun b => map (fun p => (fst b, 2%Z :: p)) (snd b)) bl.
Definition hnd (s : kst) (k : call) : Z := match nth_error (k_conns s) (conn_of k) with Some x => c_handle x | None => 0%Z end.
Definition mtu (s : kst) (k : call) : nat := match nth_error (k_conns s) (conn_of k) with Some x => c_mtu x | None => 0 end.
Definition isin (t : nat) (bl : blocks) : Prop := In t (map fst bl).
Definition cur (bl : blocks) (t : nat) (fs : list bytes) : Prop := (fs = [] /\ ~ isin t bl) \/ (fs <> [] /\ exists bl', bl = bl' ++ [(t, fs)]).
Definition body (k : call) : Prop := match k with KClose _ => False | _ => True end.
Definition tinv (s : kst) (bl : blocks) (t : nat) (th : thr) : Prop :=
  let k := t_call th in let n := k_bufsz s in let h := hnd s k in
  match t_ph th with
  | WCheck => (exists c sdu, k = KWrite c sdu) /\ ~ isin t bl
  | WLen => (exists c sdu, k = KWrite c sdu /\ length sdu <= mtu s k) /\ ~ isin t bl
  | CClose | CLock | CPut => (exists c, k = KClose c) /\ ~ isin t bl
  | WLen2 | TLen _ | TLen2 _ | Crashed => False
  | PLock pdu lft | PDone pdu lft => body k /\ pdu = pdu_of k /\ lft = Some [] /\ ~ isin t bl
  | PGet rest first lft => body k /\ lft = Some [] /\ exists fs, cur bl t fs /\
      (if first then fs = [] /\ rest = pdu_of k else fs <> [] /\ forall fs', ccut n h rest fs' -> cut n h (pdu_of k) (fs ++ fs'))
  | PFill b rest first lft => body k /\ rest <> [] /\ b < length (k_buf s) /\ lft = Some [] /\ exists fs, cur bl t fs /\
      (if first then fs = [] /\ rest = pdu_of k else fs <> [] /\ forall fs', ccut n h rest fs' -> cut n h (pdu_of k) (fs ++ fs'))
  | PChk b rest lft | PSend b rest lft => body k /\ lft = Some [] /\ exists fs pk, cur bl t fs /\ nth b (k_buf s) [] = 2%Z :: pk /\
      forall fs', ccut n h rest fs' -> cut n h (pdu_of k) (fs ++ pk :: fs')
  | Ended true => ~ body k \/ (pdu_of k = [] /\ ~ isin t bl) \/ exists fs, In (t, fs) bl /\ cut n h (pdu_of k) fs
  | Ended false => True
  end.
Definition blk (s : kst) (t : nat) (fs : list bytes) : Prop := fs <> [] /\ exists th more, nth_error (k_thr s) t = Some th /\ body (t_call th) /\ cut (k_bufsz s) (hnd s (t_call th)) (pdu_of (t_call th)) (fs ++ more).
Definition bufs_ok (s : kst) : Prop := Forall (fun b => b < length (k_buf s)) (k_free s) /\ Forall (fun x => (0 <= c_handle x < 4096)%Z /\ Forall (fun b => b < length (k_buf s)) (c_sent x)) (k_conns s).
Definition Inv (s : kst) (bl : blocks) : Prop :=
  (forall t th, nth_error (k_thr s) t = Some th -> conn_of (t_call th) < length (k_conns s) /\ (hold (t_ph th) = true <-> k_lock s = Some t) /\ tinv s bl t th) /\
  NoDup (map fst bl) /\ k_log s = flat bl /\ (forall t fs, In (t, fs) bl -> blk s t fs) /\ bufs_ok s.

Lemma some_inj : forall {A} (x y : A), Some x = Some y -> x = y.
Proof. congruence. Qed.
Lemma piece_cut : forall n (pdu : bytes), 1 <= n -> pdu <> [] -> 1 <= piece n pdu <= n /\ piece n pdu <= length pdu /\ (skipn (piece n pdu) pdu = [] \/ piece n pdu = n).
Proof.
  intros n pdu N NE. unfold piece. destruct pdu as [|y r] eqn:E; [contradiction|]. rewrite <- E. assert (1 <= length pdu) by (subst pdu; cbn; lia). destruct (Nat.ltb_spec n (length pdu)).
  - split; [lia|]. split; [lia|now right].
  - split; [lia|]. split; [lia|left; apply skipn_all].
Qed.
Lemma conts_exists : forall n h, 1 <= n -> forall m rest, length rest <= m -> exists fs, ccut n h rest fs.
Proof.
  intros n h N. induction m as [|m IH]; intros rest L.
  - destruct rest; [|cbn in L; lia]. exists []. constructor.
  - destruct rest as [|y r]; [exists []; constructor|]. destruct (piece_cut n (y :: r) N ltac:(discriminate)) as (P1 & P2 & P3). set (i := piece n (y :: r)) in *. destruct (IH (skipn i (y :: r))) as (fs & F).
    + rewrite skipn_length. lia.
    + exists (acl h 1 (firstn i (y :: r)) :: fs). rewrite <- (firstn_skipn i (y :: r)) at 1. assert (L1 : length (firstn i (y :: r)) = i) by (rewrite firstn_length; lia). constructor; [lia|rewrite L1; exact P3|exact F].
Qed.
Lemma isin_in : forall t fs bl, In (t, fs) bl -> isin t bl.
Proof. intros t fs bl H. apply in_map_iff. now exists (t, fs). Qed.

Lemma tinv_frame : forall s s' bl bl' t th, tinv s bl t th -> k_bufsz s' = k_bufsz s -> hnd s' (t_call th) = hnd s (t_call th) ->
  (forall c sdu, th = mkT (KWrite c sdu) WLen -> length sdu <= mtu s (t_call th) -> length sdu <= mtu s' (t_call th)) ->
  (hold (t_ph th) = true -> k_buf s' = k_buf s /\ bl' = bl) ->
  (isin t bl' <-> isin t bl) -> (forall fs, In (t, fs) bl -> In (t, fs) bl') -> tinv s' bl' t th.
Proof.
  intros s s' bl bl' t [k p] T B H M HO NI IN. unfold tinv in *. cbn [t_call t_ph] in *. rewrite B, H. destruct p; cbn [hold] in HO; try (destruct (HO eq_refl) as [Q1 Q2]; rewrite ?Q1; rewrite Q2); try tauto.
  - destruct T as [(c & sdu & -> & L) N]. split; [|tauto]. exists c, sdu. split; [reflexivity|]. eapply M; eauto.
  - match goal with |- context[if ?o then _ else _] => destruct o end; [|exact T]. destruct T as [T|[(T & N)|(fs & I & F)]]; [now left|right; left; tauto|right; right; exists fs; split; auto].
Qed.
Lemma nth_upd_eq : forall {A} (l : list A) i x y, nth_error l i = Some y -> nth_error (upd l i x) i = Some x.
Proof. intros A l i x y H. rewrite nth_error_upd, Nat.eqb_refl. assert (i < length l) by (apply nth_error_Some; congruence). destruct (Nat.ltb_spec i (length l)); [reflexivity|lia]. Qed.
Lemma nth_upd_ne : forall {A} (l : list A) i j x, i <> j -> nth_error (upd l i x) j = nth_error l j.
Proof. intros A l i j x N. rewrite nth_error_upd. destruct (Nat.eqb_spec i j); [contradiction|reflexivity]. Qed.

Lemma upd_inv : forall s bl s' bl' t th th', Inv s bl -> nth_error (k_thr s) t = Some th -> t_call th' = t_call th ->
  k_thr s' = upd (k_thr s) t th' -> k_bufsz s' = k_bufsz s ->
  (forall k, conn_of k < length (k_conns s) -> hnd s' k = hnd s k /\ mtu s' k = mtu s k) -> length (k_conns s') = length (k_conns s) -> bufs_ok s' ->
  ((hold (t_ph th') = hold (t_ph th) /\ k_lock s' = k_lock s) \/ (hold (t_ph th) = false /\ hold (t_ph th') = true /\ k_lock s = None /\ k_lock s' = Some t) \/
    (hold (t_ph th) = true /\ hold (t_ph th') = false /\ k_lock s' = None)) ->
  ((k_buf s' = k_buf s /\ bl' = bl) \/ hold (t_ph th) = true) ->
  (forall t', t' <> t -> (isin t' bl' <-> isin t' bl) /\ (forall fs, In (t', fs) bl' <-> In (t', fs) bl)) ->
  NoDup (map fst bl') -> k_log s' = flat bl' ->
  (forall fs, In (t, fs) bl' -> fs <> [] /\ body (t_call th) /\ exists more, cut (k_bufsz s) (hnd s (t_call th)) (pdu_of (t_call th)) (fs ++ more)) ->
  tinv s' bl' t th' -> Inv s' bl'.
Proof.
  intros s bl s' bl' t th th' (IT & ND & LG & BK & BO) N C E1 E2 E3 E4 BO' LR BU OT ND' LG' BT T.
  assert (CL := proj1 (IT t th N)). split; [|split; [exact ND'|split; [exact LG'|split; [|exact BO']]]].
  - intros t' th0 N'. rewrite E1 in N'. rewrite E4. destruct (Nat.eq_dec t' t) as [->|D].
    + rewrite (nth_upd_eq _ _ _ _ N) in N'. injection N' as <-. rewrite C. split; [exact CL|]. split; [|exact T].
      destruct (IT t th N) as (_ & (HL1 & HL2) & _). destruct LR as [(Q1 & Q2)|[(Q1 & Q2 & Q3 & Q4)|(Q1 & Q2 & Q3)]].
      * rewrite Q1, Q2. split; assumption.
      * split; intros; congruence.
      * split; intros; congruence.
    + rewrite nth_upd_ne in N' by congruence. destruct (IT t' th0 N') as (C' & (HL1 & HL2) & T'). split; [exact C'|].
      destruct (IT t th N) as (_ & (KL1 & KL2) & _). assert (X : hold (t_ph th) = true -> hold (t_ph th0) = true -> False) by (intros A B; apply KL1 in A; apply HL1 in B; congruence). split.
      * destruct LR as [(Q1 & Q2)|[(Q1 & Q2 & Q3 & Q4)|(Q1 & Q2 & Q3)]].
        -- rewrite Q2. split; assumption.
        -- split; intros; [|congruence]. rewrite HL1 in Q3 by assumption. discriminate.
        -- split; intros; [exfalso; auto|congruence].
      * eapply tinv_frame; [exact T'|exact E2| | | | |].
        -- now apply E3.
        -- intros c sdu Q L. destruct (E3 (t_call th0) C') as [_ ->]. exact L.
        -- intros Q. destruct BU as [BU|BU]; [exact BU|]. exfalso. auto.
        -- now apply OT.
        -- intros fs. apply OT. exact D.
  - intros t' fs I. unfold blk. destruct (Nat.eq_dec t' t) as [->|D].
    + destruct (BT fs I) as (NE & BD & more & F). split; [exact NE|]. exists th', more. rewrite E1, (nth_upd_eq _ _ _ _ N), C, E2. split; [reflexivity|split; [exact BD|]]. now rewrite (proj1 (E3 (t_call th) CL)).
    + apply (OT t' D) in I. destruct (BK t' fs I) as (NE & th0 & more & N0 & BD & F). split; [exact NE|]. exists th0, more. rewrite E1, nth_upd_ne by congruence. split; [exact N0|split; [exact BD|]]. rewrite E2.
      destruct (IT t' th0 N0) as (C0 & _). now rewrite (proj1 (E3 (t_call th0) C0)).
Qed.
