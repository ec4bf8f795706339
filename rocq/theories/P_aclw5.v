Require Import Verif.Base Verif.S_l2cap Verif.M_l2cap Verif.P_l2cap Verif.M_aclw Verif.S_aclw Verif.P_aclw Verif.P_aclw2 Verif.P_aclw3 Verif.P_aclw4.
From Coq Require Import Lia.
Local Open Scope nat_scope.

Lemma flat_in : forall bl t p, In (t, p) (flat bl) -> isin t bl.
Proof.
  intros bl t p I. apply in_flat_map in I. destruct I as ((t' & fs) & I & J). apply in_map_iff in J. destruct J as (q & Q & _). cbn [fst] in Q. assert (t' = t) by congruence. subst t'. eapply isin_in; exact I.
Qed.
Lemma cut_nil : forall n h fs, ~ cut n h [] fs.
Proof. intros n h fs (a & b & fs' & L & _ & E & _). destruct a; [cbn in L; lia|discriminate]. Qed.
Lemma cut_ex : forall n h p, 1 <= n -> p <> [] -> exists fs, cut n h p fs.
Proof.
  intros n h p N NE. destruct (piece_cut n p N NE) as (P1 & P2 & P3). destruct (conts_exists n h N _ (skipn (piece n p) p) (le_n _)) as (fs & F).
  assert (L1 : length (firstn (piece n p) p) = piece n p) by (rewrite firstn_length; lia).
  exists (acl h 0 (firstn (piece n p) p) :: fs), (firstn (piece n p) p), (skipn (piece n p) p), fs. rewrite L1. split; [exact P1|]. split; [exact P3|]. split; [now rewrite firstn_skipn|]. now split.
Qed.
Lemma hnd_of : forall s k, conn_of k < length (k_conns s) -> handle_of s (conn_of k) = Some (hnd s k).
Proof. intros s k L. unfold handle_of, hnd. destruct (nth_error (k_conns s) (conn_of k)) eqn:E; [reflexivity|]. apply nth_error_None in E. lia. Qed.
Lemma call_thr : forall s t k, call_of s t = Some k -> exists p, nth_error (k_thr s) t = Some (mkT k p).
Proof. intros s t k C. unfold call_of in C. destruct (nth_error (k_thr s) t) as [[k' p]|]; [|discriminate]. cbn in C. exists p. congruence. Qed.
Lemma body_dec : forall k, body k \/ ~ body k.
Proof. destruct k; cbn; auto. Qed.
Lemma nobody : forall k, ~ body k -> pdu_of k = [].
Proof. intros [c sdu|c p|c] H; cbn in *; tauto. Qed.

Lemma whole : forall s bl t k, 1 <= k_bufsz s -> Inv s bl -> call_of s t = Some k ->
  exists before fs more after, k_log s = before ++ map (fun p => (t, 2%Z :: p)) fs ++ after /\ none_of t before /\ none_of t after /\
    handle_of s (conn_of k) = Some (hnd s k) /\ (pdu_of k = [] -> fs = []) /\ (pdu_of k <> [] -> cut (k_bufsz s) (hnd s k) (pdu_of k) (fs ++ more)) /\ (returned s t true -> more = []).
Proof.
  intros s bl t k NB (IT & ND & LG & BK & BO) C. apply call_thr in C. destruct C as (p & N). destruct (IT t _ N) as (CL & _ & T). cbn [t_call] in CL. assert (HO := hnd_of s k CL).
  destruct (in_dec Nat.eq_dec t (map fst bl)) as [I|I].
  - apply in_map_iff in I. destruct I as ((t' & fs) & Q & I). cbn [fst] in Q. subst t'. destruct (BK t fs I) as (NE & th & more & N' & BD & F). assert (th = mkT k p) by congruence. subst th. cbn [t_call] in *.
    assert (I' := I). apply in_split in I'. destruct I' as (b1 & b2 & ->). assert (NI : ~ In t (map fst b1 ++ map fst b2)) by (rewrite map_app in ND; cbn [map fst] in ND; now apply NoDup_remove_2 in ND).
    assert (M : exists more', cut (k_bufsz s) (hnd s k) (pdu_of k) (fs ++ more') /\ (returned s t true -> more' = [])).
    { destruct p as [| | |pdu lft|pdu lft|pdu first lft|b pdu first lft|b pdu lft|b pdu lft|r|r| | | |[|]|];
        try (exists more; split; [exact F|]; intros (k' & R); congruence).
      exists []. split; [|reflexivity]. unfold tinv in T. cbn [t_call t_ph] in T. rewrite app_nil_r. destruct T as [T|[[T _]|(fs' & I' & F')]]; [contradiction| |].
      - rewrite T in F. now apply cut_nil in F.
      - replace fs with fs'; [exact F'|]. apply in_app_or in I'. destruct I' as [J|[J|J]]; [exfalso; apply NI, in_or_app; left; now apply isin_in in J|congruence|exfalso; apply NI, in_or_app; right; now apply isin_in in J]. }
    destruct M as (more' & M1 & M2). exists (flat b1), fs, more', (flat b2). split.
    + rewrite LG, flat_app. reflexivity.
    + split; [intros q J; apply NI, in_or_app; left; now apply flat_in in J|]. split; [intros q J; apply NI, in_or_app; right; now apply flat_in in J|]. split; [exact HO|]. split; [|split; [intros _; exact M1|exact M2]].
      intros E. rewrite E in M1. now apply cut_nil in M1.
  - assert (NN : none_of t (k_log s)) by (intros q J; rewrite LG in J; apply I; now apply flat_in in J).
    destruct (list_eq_dec Z.eq_dec (pdu_of k) []) as [E|E].
    + exists (k_log s), [], [], []. split; [cbn; now rewrite app_nil_r|]. split; [exact NN|]. split; [intros q []|]. split; [exact HO|]. split; [reflexivity|]. split; [contradiction|reflexivity].
    + destruct (cut_ex (k_bufsz s) (hnd s k) (pdu_of k) NB E) as (more & M). exists (k_log s), [], more, []. split; [cbn; now rewrite app_nil_r|]. split; [exact NN|]. split; [intros q []|]. split; [exact HO|]. split; [reflexivity|]. split; [intros _; exact M|].
      intros (k' & R). exfalso. rewrite N in R. injection R as <- ->. unfold tinv in T. cbn [t_call t_ph] in T. destruct T as [T|[[T _]|(fs' & I' & F')]]; [now apply nobody in T|contradiction|]. apply I. now apply isin_in in I'.
Qed.

(** What any action does, whatever the state *)
Definition psend (s : kst) (t : nat) : Prop := exists k b pdu lft, nth_error (k_thr s) t = Some (mkT k (PSend b pdu lft)).
Lemma act_shape : forall s a s', exec s a = Some s' -> exists add, k_log s' = k_log s ++ add /\ (forall t p, In (t, p) add -> psend s t) /\
  (forall t k ok, nth_error (k_thr s) t = Some (mkT k (Ended ok)) -> nth_error (k_thr s') t = Some (mkT k (Ended ok))) /\
  (forall t k, call_of s t = Some k -> call_of s' t = Some k) /\ length add <= 1.
Proof.
  intros s a s' E. assert (UP : forall t k p0 p l, nth_error (k_thr s) t = Some (mkT k p0) -> l = upd (k_thr s) t (mkT k p) -> (forall ok, p0 <> Ended ok) ->
    (forall t' k' ok, nth_error (k_thr s) t' = Some (mkT k' (Ended ok)) -> nth_error l t' = Some (mkT k' (Ended ok))) /\
    (forall t' k', call_of s t' = Some k' -> option_map t_call (nth_error l t') = Some k')).
  { intros t k p0 p l N -> NE. split.
    - intros t' k' ok N'. rewrite nth_upd_ne; [exact N'|]. intros <-. rewrite N in N'. injection N' as _ ->. now elim (NE ok).
    - intros t' k' C. unfold call_of in C. destruct (Nat.eq_dec t t') as [<-|D]; [rewrite (nth_upd_eq _ _ _ _ N); rewrite N in C; exact C|now rewrite nth_upd_ne]. }
  destruct a as [k|t|t ok|c n|c v|h v]; unfold exec in E.
  - destruct (Nat.ltb (conn_of k) (length (k_conns s))); [|discriminate]. apply some_inj in E. subst s'. exists []. rewrite app_nil_r. split; [reflexivity|]. split; [intros t p []|]. unfold call_of. cbn [k_thr]. split; [|split; [|cbn; lia]].
    + intros t k0 ok N. rewrite nth_error_app1; [exact N|apply nth_error_Some; congruence].
    + intros t k0 N. rewrite nth_error_app1; [exact N|]. apply nth_error_Some. intros Q. now rewrite Q in N.
  - unfold step in E. destruct (nth_error (k_thr s) t) as [[k p]|] eqn:N; [|discriminate]. destruct (nth_error (k_conns s) (conn_of k)) as [x|]; [|discriminate].
    exists []. rewrite app_nil_r. assert (G : k_log s' = k_log s /\ (forall ok, p <> Ended ok) /\ exists p', k_thr s' = upd (k_thr s) t (mkT k p')).
    { destruct p; try discriminate; try (destruct k; try discriminate);
        repeat match goal with
        | H : match ?q with _ => _ end = Some _ |- _ => destruct q; try discriminate
        end; apply some_inj in E; subst s'; (split; [reflexivity|split; [discriminate|eexists; reflexivity]]). }
    destruct G as (G1 & G2 & p' & G3). destruct (UP t k p p' _ N G3 G2) as [U1 U2]. split; [exact G1|]. split; [intros t0 p0 []|]. split; [exact U1|]. split; [exact U2|cbn; lia].
  - destruct (nth_error (k_thr s) t) as [[k p]|] eqn:N; [|discriminate]. destruct p as [| | |pdu lft|pdu lft|pdu first lft|b pdu first lft|b pdu lft|b pdu lft|r|r| | | |ok0|]; try discriminate. destruct ok; apply some_inj in E; subst s'.
    + exists [(t, nth b (k_buf s) [])]. split; [reflexivity|]. split; [intros t0 p0 [Q|[]]; injection Q as <- _; now exists k, b, pdu, lft|].
      destruct (UP t k _ (PGet pdu false lft) _ N eq_refl ltac:(discriminate)) as [U1 U2]. split; [exact U1|]. split; [exact U2|cbn; lia].
    + exists []. split; [cbn; now rewrite app_nil_r|]. split; [intros t0 p0 []|]. destruct (UP t k _ (Ended false) _ N eq_refl ltac:(discriminate)) as [U1 U2]. split; [exact U1|]. split; [exact U2|cbn; lia].
  - destruct (nth_error (k_conns s) c) as [x|]; [|discriminate]. apply some_inj in E. subst s'. exists []. split; [cbn; now rewrite app_nil_r|]. split; [intros t p []|]. split; [auto|]. split; [auto|cbn; lia].
  - destruct (nth_error (k_conns s) c) as [x|]; [|discriminate]. apply some_inj in E. subst s'. exists []. split; [cbn; now rewrite app_nil_r|]. split; [intros t p []|]. split; [auto|]. split; [auto|cbn; lia].
  - apply some_inj in E. subst s'. exists []. split; [cbn; now rewrite app_nil_r|]. split; [intros t p []|]. split; [auto|]. split; [auto|cbn; lia].
Qed.
Lemma runs_app : forall cnt n l1 l2 s, runs cnt n (l1 ++ l2) s -> exists s1, runs cnt n l1 s1 /\ exec_all s1 l2 = Some s.
Proof. intros cnt n l1 l2 s R. apply exec_app in R. exact R. Qed.
Lemma log_thr : forall cnt n l s, runs cnt n l s -> forall t p, In (t, p) (k_log s) -> call_of s t <> None.
Proof.
  intros cnt n l. induction l as [|a l IH] using rev_ind; intros s R t p I.
  - apply some_inj in R. subst s. destruct I.
  - apply runs_app in R. destruct R as (s1 & R1 & R2). cbn [exec_all] in R2. destruct (exec s1 a) as [s2|] eqn:E; [|discriminate]. apply some_inj in R2. subst s2.
    destruct (act_shape _ _ _ E) as (add & LG & AD & _ & CK & _). rewrite LG in I. apply in_app_or in I. assert (X : call_of s1 t <> None).
    + destruct I as [I|I]; [now apply (IH s1 R1 t p)|]. destruct (AD t p I) as (k & b & pdu & lft & N). unfold call_of. rewrite N. discriminate.
    + destruct (call_of s1 t) as [k|] eqn:Q; [|contradiction]. rewrite (CK t k Q). discriminate.
Qed.
Lemma after : forall l2 s1 s t ok, exec_all s1 l2 = Some s -> returned s1 t ok -> returned s t ok /\ exists b, k_log s = k_log s1 ++ b /\ none_of t b.
Proof.
  induction l2 as [|a l2 IH]; intros s1 s t ok E R.
  - apply some_inj in E. subst s. split; [exact R|]. exists []. split; [now rewrite app_nil_r|intros p []].
  - cbn [exec_all] in E. destruct (exec s1 a) as [s2|] eqn:E1; [|discriminate]. destruct (act_shape _ _ _ E1) as (add & LG & AD & EN & _). destruct R as (k & N). destruct (IH s2 s t ok E) as (R' & b & LB & NB); [exists k; now apply EN|].
    split; [exact R'|]. exists (add ++ b). rewrite LB, LG, app_assoc. split; [reflexivity|]. intros p I. apply in_app_or in I. destruct I as [I|I]; [|now apply (NB p)]. destruct (AD t p I) as (k' & b' & pdu & lft & N'). congruence.
Qed.
Lemma order : forall cnt n l1 l2 s1 s t1 t2 ok, runs cnt n l1 s1 -> runs cnt n (l1 ++ l2) s -> returned s1 t1 ok -> call_of s1 t2 = None ->
  exists a b, k_log s = a ++ b /\ none_of t2 a /\ none_of t1 b.
Proof.
  intros cnt n l1 l2 s1 s t1 t2 ok R1 R RT C. apply runs_app in R. destruct R as (s1' & R1' & E). unfold runs in *. assert (s1' = s1) by congruence. subst s1'.
  destruct (after l2 s1 s t1 ok E RT) as (_ & b & LB & NB). exists (k_log s1), b. split; [exact LB|]. split; [|exact NB]. intros p I. now apply (log_thr cnt n l1 s1 R1 t2 p I).
Qed.

(** The receiver *)
Lemma ccut_rx : forall n h b fs, ccut n h b fs -> rx_conts h b fs.
Proof. intros n h b fs C. induction C as [|a b fs L _ C IH]; constructor; [destruct a; [cbn in L; lia|discriminate]|exact IH]. Qed.
Lemma cut_rx : forall n h p fs, 4 <= n -> 4 <= length p -> cut n h p fs -> rx_frags h p fs.
Proof.
  intros n h p fs N L (a & b & fs' & La & Lb & -> & -> & C). exists a, b, fs', 0%Z. split.
  - destruct Lb as [->|Lb]; [rewrite app_nil_r in L; exact L|lia].
  - split; [now left|]. split; [reflexivity|]. split; [reflexivity|]. now apply ccut_rx in C.
Qed.
Definition onc (s : kst) (c : nat) (t : nat) : bool := match call_of s t with Some k => Nat.eqb (conn_of k) c | None => false end.
Lemma on_conn_flat : forall s c bl, map (@tl Z) (on_conn s c (flat bl)) = concat (map snd (filter (fun b => onc s c (fst b)) bl)).
Proof.
  intros s c bl. unfold on_conn. induction bl as [|[t fs] bl IH]; [reflexivity|]. change (flat ((t, fs) :: bl)) with (map (fun p => (t, 2%Z :: p)) fs ++ flat bl). rewrite filter_app, !map_app, IH. cbn [filter fst].
  assert (Q : filter (fun p : nat * bytes => match call_of s (fst p) with Some k => Nat.eqb (conn_of k) c | None => false end) (map (fun p => (t, 2%Z :: p)) fs) = if onc s c t then map (fun p => (t, 2%Z :: p)) fs else []).
  { clear. unfold onc. induction fs as [|f fs IH]; cbn [map filter fst]; [destruct (match call_of s t with Some _ => _ | None => _ end); reflexivity|]. destruct (match call_of s t with Some _ => _ | None => _ end); rewrite IH; reflexivity. }
  rewrite Q. destruct (onc s c t); [|reflexivity]. cbn [map concat snd]. f_equal. rewrite !map_map. cbn [snd tl]. apply map_id.
Qed.
