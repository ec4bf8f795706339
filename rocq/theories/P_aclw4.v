Require Import Verif.Base Verif.S_l2cap Verif.M_l2cap Verif.P_l2cap Verif.M_aclw Verif.S_aclw Verif.P_aclw Verif.P_aclw2 Verif.P_aclw3.
From Coq Require Import Lia.
Local Open Scope nat_scope.

Lemma flat_app : forall a b, flat (a ++ b) = flat a ++ flat b.
Proof. intros. unfold flat. apply flat_map_app. Qed.
Lemma grow : forall bl t fs pk, cur bl t fs -> NoDup (map fst bl) -> exists bl1, cur bl1 t (fs ++ [pk]) /\ NoDup (map fst bl1) /\ flat bl1 = flat bl ++ [(t, 2%Z :: pk)] /\
  (forall t', t' <> t -> (isin t' bl1 <-> isin t' bl) /\ (forall fs', In (t', fs') bl1 <-> In (t', fs') bl)).
Proof.
  intros bl t fs pk C ND. destruct C as [(-> & N)|(NE & bl' & ->)].
  - exists (bl ++ [(t, [pk])]). split; [|split; [|split]].
    + right. split; [discriminate|]. now exists bl.
    + rewrite map_app. cbn [map fst]. rewrite <- (rev_involutive (map fst bl ++ [t])). apply NoDup_rev. rewrite rev_app_distr. cbn [rev app]. constructor; [|now apply NoDup_rev]. intros H. apply N. now apply in_rev.
    + rewrite flat_app. reflexivity.
    + intros t' D. split; [|intros fs'].
      * unfold isin. rewrite map_app, in_app_iff. cbn. intuition congruence.
      * rewrite in_app_iff. cbn. intuition congruence.
  - exists (bl' ++ [(t, fs ++ [pk])]). split; [|split; [|split]].
    + right. split; [destruct fs; discriminate|]. now exists bl'.
    + rewrite map_app in *. exact ND.
    + rewrite !flat_app. unfold flat at 2 4. cbn [flat_map fst snd]. rewrite !app_nil_r, map_app, <- app_assoc. reflexivity.
    + intros t' D. split; [|intros fs'].
      * unfold isin. rewrite !map_app, !in_app_iff. cbn. tauto.
      * rewrite !in_app_iff. cbn. intuition congruence.
Qed.
Lemma write_inv : forall s bl t ok s', 1 <= k_bufsz s -> Inv s bl -> exec s (AWrite t ok) = Some s' -> exists bl', Inv s' bl'.
Proof.
  intros s bl t ok s' NB IV E. assert (IV2 := IV). destruct IV2 as (IT & ND & LG & BK & BO). unfold exec in E.
  destruct (nth_error (k_thr s) t) as [[k p]|] eqn:N; [|discriminate]. destruct p as [| | |pdu lft|pdu lft|pdu first lft|b pdu first lft|b pdu lft|b pdu lft|l|l| | | |ok0|]; try discriminate.
  destruct (IT t _ N) as (CL & HL & T). cbn [t_call t_ph] in *. unfold tinv in T. cbn [t_call t_ph] in T. destruct T as (BD & -> & fs & pk & C & NTH & G). destruct ok; apply some_inj in E; subst s'.
  - destruct (grow bl t fs pk C ND) as (bl1 & C1 & ND1 & F1 & O1). exists bl1.
    assert (G1 : forall fs', ccut (k_bufsz s) (hnd s k) pdu fs' -> cut (k_bufsz s) (hnd s k) (pdu_of k) ((fs ++ [pk]) ++ fs')) by (intros fs' H; rewrite <- app_assoc; now apply G).
    apply (upd_inv s bl _ bl1 t (mkT k (PSend b pdu (Some []))) (mkT k (PGet pdu false (Some []))) IV N).
    * reflexivity.
    * reflexivity.
    * reflexivity.
    * intros; split; reflexivity.
    * reflexivity.
    * exact BO.
    * left; split; reflexivity.
    * right; reflexivity.
    * exact O1.
    * exact ND1.
    * cbn [with_log with_thr k_log]. now rewrite F1, LG, NTH.
    * intros fs' I. rewrite (cur_nil_or bl1 t _ C1 ND1 fs' I). split; [destruct fs; discriminate|]. split; [exact BD|]. destruct (conts_exists (k_bufsz s) (hnd s k) NB _ pdu (le_n _)) as (more & M). exists more. cbn [t_call]. now apply G1.
    * unfold tinv. cbn [t_call t_ph]. split; [exact BD|]. split; [reflexivity|]. exists (fs ++ [pk]). split; [exact C1|]. split; [destruct fs; discriminate|]. exact G1.
  - exists bl. apply (go_inv s bl t k (PSend b pdu (Some [])) (Ended false) None IV N); [right; right; now repeat split|exact I].
Qed.
Lemma k0_inv : forall cnt n, Inv (k0 cnt n) [] /\ lkI (k0 cnt n).
Proof.
  intros cnt n. split; [|discriminate]. split; [intros t th N; destruct t; discriminate|]. split; [constructor|]. split; [reflexivity|]. split; [intros t fs []|].
  split; [|constructor]. unfold k0. cbn [k_free k_buf]. rewrite repeat_length. apply Forall_forall. intros b I. apply in_seq in I. lia.
Qed.
Lemma exec_app : forall l1 l2 s s', exec_all s (l1 ++ l2) = Some s' -> exists s1, exec_all s l1 = Some s1 /\ exec_all s1 l2 = Some s'.
Proof.
  induction l1 as [|a l1 IH]; intros l2 s s' E; cbn [app exec_all] in *; [now exists s|]. destruct (exec s a) as [s1|]; [|discriminate]. now apply IH.
Qed.
Theorem runs_inv : forall cnt n l s, 1 <= n -> handles_ok l -> calm cnt n l -> runs cnt n l s -> (exists bl, Inv s bl) /\ lkI s /\ k_bufsz s = n.
Proof.
  intros cnt n l. induction l as [|a l IH] using rev_ind; intros s NB HO CA R.
  - apply some_inj in R. subst s. destruct (k0_inv cnt n) as [A B]. split; [now exists []|]. now split.
  - apply exec_app in R. destruct R as (s1 & R1 & R2). cbn [exec_all] in R2. destruct (exec s1 a) as [s2|] eqn:E; [|discriminate]. apply some_inj in R2. subst s2.
    destruct (IH s1 NB) as ((bl & IV) & LK & BS).
    + intros h v I. apply (HO h v). apply in_or_app. now left.
    + intros l1 c v l2 s0 t sdu -> R0. apply (CA l1 c v (l2 ++ [a]) s0 t sdu); [now rewrite <- app_assoc|exact R0].
    + exact R1.
    + destruct (exec_lk _ _ _ E LK) as [LK' BS']. split; [|split; [exact LK'|congruence]]. destruct a as [k|t|t ok|c m|c v|h v].
      * exists bl. exact (call_inv s1 bl k s LK IV E).
      * exists bl. apply (step_inv s1 bl t s); [now rewrite BS|exact IV|exact E].
      * apply (write_inv s1 bl t ok s); [now rewrite BS|exact IV|exact E].
      * exists bl. exact (completed_inv s1 bl c m s IV E).
      * exists bl. eapply mtu_inv; [exact IV| |exact E]. intros t sdu. apply (CA l c v []); [reflexivity|exact R1].
      * exists bl. eapply connect_inv; [exact IV| |exact E]. apply (HO h v). apply in_or_app. right. now left.
Qed.
