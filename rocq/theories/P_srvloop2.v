(** Buffers: who owns which, and what is in them. *)
Require Import Permutation Verif.Base Verif.M_attdb Verif.M_attsrv Verif.M_srvloop Verif.S_srvloop Verif.P_srvloop.

Definition own_rd (r : rphase) : list nat := match r with RRead k | RConf k | RSend k => [k] | _ => [] end.
Definition own_hd (h : hphase) : list nat :=
  match h with HGot k | HMtuN k _ _ | HMtuI k _ _ | HWrite k _ | HPut k => [k] | _ => [] end.
Definition reading (r : rphase) : bool := match r with RTake | RRead _ | RConf _ | RSend _ => true | _ => false end.
Record oinv (s : ls) : Prop := mkO {
  o_bufs : length (bufs s) = 2%nat;
  o_data : Forall (fun b => length (b_data b) = max_mtu) (bufs s);
  o_nodup : NoDup (own_rd (rd s) ++ own_hd (hd s) ++ pool s);
  o_range : Forall (fun k => k < 2)%nat (own_rd (rd s) ++ own_hd (hd s) ++ pool s);
  o_all : hd s <> HPanic -> reading (rd s) = true -> length (own_rd (rd s) ++ own_hd (hd s) ++ pool s) = 2%nat }.

Lemma oinv_init : forall s, oinv (linit s).
Proof.
  intro s. constructor; cbn [linit bufs rd hd pool own_rd own_hd app reading].
  - reflexivity.
  - constructor; [apply repeat_length|constructor; [apply repeat_length|constructor]].
  - constructor; [cbn; intuition discriminate|constructor; [intros []|constructor]].
  - constructor; [lia|constructor; [lia|constructor]].
  - reflexivity.
Qed.
Lemma blit_length : forall old new, (length new <= length old)%nat -> length (blit old new) = length old.
Proof. intros old new H. unfold blit. rewrite app_length, skipn_length. lia. Qed.
Lemma blit_first : forall old new, firstn (length new) (blit old new) = new.
Proof. intros old new. unfold blit. rewrite firstn_app, Nat.sub_diag. cbn [firstn]. now rewrite app_nil_r, firstn_all. Qed.
Lemma Forall_upd : forall {A} (P : A -> Prop) l k x, Forall P l -> P x -> Forall P (upd l k x).
Proof. intros A P l. induction l as [|y l IH]; intros k x F X; [destruct k; constructor|]. inversion F; subst. destruct k; cbn [upd]; constructor; auto. Qed.
Lemma Forall_nth : forall {A} (P : A -> Prop) l k x, Forall P l -> nth_error l k = Some x -> P x.
Proof. intros A P l k x F N. rewrite Forall_forall in F. apply F. eapply nth_error_In; eauto. Qed.
Lemma NoDup_swap : forall {A} (a b c : list A), NoDup (a ++ b ++ c) -> NoDup (b ++ a ++ c).
Proof.
  intros A a b c H. rewrite app_assoc in H. rewrite app_assoc.
  assert (P : Permutation ((a ++ b) ++ c) ((b ++ a) ++ c)) by (apply Permutation_app_tail, Permutation_app_comm).
  eapply Permutation_NoDup; eauto.
Qed.
Lemma own_panic_nodup : forall (a b c : list nat), NoDup (a ++ b ++ c) -> NoDup (a ++ c).
Proof. intros a b c H. apply NoDup_swap in H. induction b as [|x b IH]; [exact H|]. cbn in H. inversion H. auto. Qed.
Lemma own_panic_range : forall (P : nat -> Prop) (a b c : list nat), Forall P (a ++ b ++ c) -> Forall P (a ++ c).
Proof. intros P a b c H. rewrite !Forall_app in *. tauto. Qed.
Lemma own_after : forall k old new o, own_hd (after_handle k old new o) = [k] /\ after_handle k old new o <> HPanic.
Proof. intros. unfold after_handle. destruct (Nat.eqb (txlen old) (txlen new)); [|split; [reflexivity|discriminate]]. destruct o as [[|]|]; split; first [reflexivity|discriminate]. Qed.

(** a step that leaves buffers alone and keeps the owned indices, up to the set *)
Lemma oinv_core : forall s s', oinv s -> length (bufs s') = 2%nat -> Forall (fun b => length (b_data b) = max_mtu) (bufs s') ->
  NoDup (own_rd (rd s') ++ own_hd (hd s') ++ pool s') -> Forall (fun k => k < 2)%nat (own_rd (rd s') ++ own_hd (hd s') ++ pool s') ->
  (hd s' <> HPanic -> reading (rd s') = true -> length (own_rd (rd s') ++ own_hd (hd s') ++ pool s') = 2%nat) -> oinv s'.
Proof. intros. now constructor. Qed.
Lemma oinv_step : forall s a s' v, oinv s -> lstep s a = Some (s', v) -> oinv s'.
Proof.
  intros s a s' v [L D N R A] H. apply lstep_cases in H. destruct H as [NP [H|H]].
  - specialize (A NP). destruct H; (constructor; cbn [set_in set_down set_bufs set_pool set_rd set_hd set_sv set_nbuf set_ibuf bufs rd hd pool]; try exact L; try exact D).
    (* rewrite the known phases everywhere *)
    all: repeat match goal with
         | G : rd ?x = _ |- _ => rewrite G in *; clear G
         | G : hd ?x = _ |- _ => rewrite G in *; clear G
         | G : pool ?x = _ |- _ => rewrite G in *; clear G
         end; cbn [own_rd own_hd app reading] in *; try rewrite (proj1 (own_after _ _ _ _)); cbn [app]; try assumption; try (intros; discriminate); try (intros; now apply A); auto.
    all: try (now inversion N); try (now inversion R).
    all: try (rewrite upd_length; exact L).
    all: try (apply Forall_upd; [exact D|]; cbn [b_data]; rewrite blit_length; [exact (Forall_nth _ _ _ _ D ltac:(eassumption))|rewrite (Forall_nth _ _ _ _ D ltac:(eassumption)); assumption]).
    all: try (apply (own_panic_nodup _ [k] _ N)). all: try (apply (own_panic_range _ _ [k] _ R)).
    (* remaining: mtui, put *)
    all: try (destruct rsp; cbn [own_hd app]; assumption).
    all: try (destruct rsp; cbn [own_hd app]; intros _ Q; apply A; assumption).
    + eapply Permutation_NoDup; [|exact N]. symmetry. apply Permutation_middle.
    + rewrite Forall_app in R. destruct R as (R1 & R2). apply Forall_cons_iff in R2. destruct R2. constructor; [assumption|]. rewrite Forall_app. split; assumption.
    + intros _ _. rewrite <- (A eq_refl). cbn [length]. rewrite !app_length. cbn [length]. lia.
    + eapply Permutation_NoDup; [|exact N]. apply Permutation_app_head. apply Permutation_cons_append.
    + rewrite !Forall_app in *. destruct R as (R1 & R2). apply Forall_cons_iff in R2. destruct R2. repeat split; auto.
    + intros _ Q. rewrite <- (A Q). rewrite !app_length. cbn [length]. rewrite ?app_length. cbn [length]. lia.
  - apply call_core in H. destruct H as (HD & _ & _ & HB & HP & _ & HR & _). constructor; rewrite ?HB, ?HP; auto.
    + assert (E : own_rd (rd s') = own_rd (rd s)) by (destruct HR as [-> | (k & E1 & E2)]; [reflexivity|now rewrite E1, E2]). rewrite E.
      destruct HD as [-> | ->]; [|exact N]. cbn [own_hd app]. exact (own_panic_nodup _ _ _ N).
    + assert (E : own_rd (rd s') = own_rd (rd s)) by (destruct HR as [-> | (k & E1 & E2)]; [reflexivity|now rewrite E1, E2]). rewrite E.
      destruct HD as [-> | ->]; [|exact R]. cbn [own_hd app]. exact (own_panic_range _ _ _ _ R).
    + intros NP' RD. assert (E : own_rd (rd s') = own_rd (rd s)) by (destruct HR as [-> | (k & E1 & E2)]; [reflexivity|now rewrite E1, E2]). rewrite E.
      destruct HD as [HD | HD]; [contradiction|]. rewrite HD. apply A; [exact NP|]. destruct HR as [<- | (k & E1 & E2)]; [exact RD|now rewrite E1].
Qed.
Lemma oinv_run : forall s0 l s t, lrun (linit s0) l s t -> oinv s.
Proof. intros s0 l s t H. remember (linit s0) as i eqn:E. induction H; subst; [apply oinv_init|]. eapply oinv_step; eauto. Qed.
