(** When Pair reports success; when Handle panics or blocks. *)
Require Import Verif.Base Verif.M_smp Verif.S_smp Verif.P_smp Verif.P_smp2 Verif.P_smp3 Verif.P_smp4 Verif.P_smp5 Verif.P_smp6.

(** Total-correctness rules. *)
Definition tw {A} (m : M A) (p : pctx) (Q : pctx -> list out -> option A -> Prop) : Prop :=
  match m p with Panic => False | Ret (p', o, r) => Q p' o r end.
Lemma tw_ret {A} (a : A) p (Q : pctx -> list out -> option A -> Prop) : Q p [] (Some a) -> tw (ret a) p Q.
Proof. exact (fun H => H). Qed.
Lemma tw_fail {A} p (Q : pctx -> list out -> option A -> Prop) : Q p [] None -> tw fail p Q.
Proof. exact (fun H => H). Qed.
Lemma tw_get p (Q : pctx -> list out -> option pctx -> Prop) : Q p [] (Some p) -> tw get p Q.
Proof. exact (fun H => H). Qed.
Lemma tw_modify f p (Q : pctx -> list out -> option unit -> Prop) : Q (f p) [] (Some tt) -> tw (modify f) p Q.
Proof. exact (fun H => H). Qed.
Lemma tw_emit x p (Q : pctx -> list out -> option unit -> Prop) : Q p [x] (Some tt) -> tw (emit x) p Q.
Proof. exact (fun H => H). Qed.
Lemma tw_bind {A D} (m : M A) (k : A -> M D) p (Q : pctx -> list out -> option D -> Prop) :
  tw m p (fun p1 o1 r1 => match r1 with
                          | None => Q p1 o1 None
                          | Some a => tw (k a) p1 (fun p2 o2 r2 => Q p2 (o1 ++ o2) r2)
                          end) -> tw (bind m k) p Q.
Proof.
  unfold tw, bind. destruct (m p) as [[[p1 o1] [a|]]|]; auto.
  destruct (k a p1) as [[[p2 o2] r2]|]; auto.
Qed.
Lemma tw_lift {A} (x : go A) p (Q : pctx -> list out -> option A -> Prop) :
  x <> Panic -> (forall a, x = Ret a -> Q p [] (Some a)) -> tw (lift x) p Q.
Proof. intros H1 H2. unfold tw, lift. destruct x; [now apply H2|congruence]. Qed.
Lemma tw_ofopt {A} (x : option A) p (Q : pctx -> list out -> option A -> Prop) :
  (forall a, x = Some a -> Q p [] (Some a)) -> (x = None -> Q p [] None) -> tw (ofopt x) p Q.
Proof. intros H1 H2. unfold ofopt. destruct x as [a|]; [apply tw_ret; now apply H1|apply tw_fail; now apply H2]. Qed.
Lemma tw_liftE {A} (x : go (option A)) p (Q : pctx -> list out -> option A -> Prop) :
  x <> Panic -> (forall a, x = Ret (Some a) -> Q p [] (Some a)) -> (x = Ret None -> Q p [] None) -> tw (liftE x) p Q.
Proof.
  intros H0 H1 H2. unfold liftE. apply tw_bind, tw_lift; [assumption|]. intros [a|] E; cbn [app]; apply tw_ofopt; intros; subst; cbn;
  try discriminate; [injection H as <-; now apply H1|now apply H2].
Qed.
Lemma tw_must b p (Q : pctx -> list out -> option unit -> Prop) :
  (b = true -> Q p [] (Some tt)) -> (b = false -> Q p [] None) -> tw (must b) p Q.
Proof. intros H1 H2. unfold must. destruct b; [apply tw_ret|apply tw_fail]; auto. Qed.
Lemma tw_ignore m p (Q : pctx -> list out -> option unit -> Prop) :
  tw m p (fun p' o _ => Q p' o (Some tt)) -> tw (ignore_err m) p Q.
Proof. unfold tw, ignore_err. destruct (m p) as [[[p1 o1] r1]|]; auto. Qed.
Ltac twstep :=
  lazymatch goal with
  | |- tw (ret _) _ _ => apply tw_ret
  | |- tw fail _ _ => apply tw_fail
  | |- tw get _ _ => apply tw_get
  | |- tw (modify _) _ _ => apply tw_modify
  | |- tw (emit _) _ _ => apply tw_emit
  | |- tw (bind _ _) _ _ => apply tw_bind
  | |- tw (lift _) _ _ => apply tw_lift; [|let a := fresh "a" in let E := fresh "E" in intros a E]
  | |- tw (liftE _) _ _ => apply tw_liftE; [|let a := fresh "a" in let E := fresh "E" in intros a E|let E := fresh "E" in intros E]
  | |- tw (ofopt _) _ _ => apply tw_ofopt; [let a := fresh "a" in let E := fresh "E" in intros a E|let E := fresh "E" in intros E]
  | |- tw (must _) _ _ => apply tw_must; let E := fresh "E" in intros E
  | |- tw (ignore_err _) _ _ => apply tw_ignore
  | |- tw (match ?x with _ => _ end) _ _ => let E := fresh "E" in destruct x eqn:E
  | |- tw ?m _ _ => let h := hd m in unfold h
  | |- match ?x with _ => _ end => let E := fresh "E" in destruct x eqn:E
  end
with hd m := lazymatch m with ?f _ => hd f | _ => m end.
Ltac tws := repeat (twstep; cbv beta iota).

Section R.
Variable C : prims.
Variable HC : prims_ok C.
Variables (la ra : bytes) (lat rat : Z).
Notation s0 := (smp_new la ra lat rat).
Notation Bv := (B C la ra lat rat).

(** ** Success of Pair *)
Lemma finish_effect : forall e c d p h, dispatch C e c d = Some h -> wp h p (fun p' o r =>
  r <> None -> p_st p' = Finished ->
  p_st p = Finished \/ c = 7 \/
  (c = 13 /\ smpF6 C (p_mac p) (p_rrand p) (lrand p) (check_r p) (io_bytes (p_rsp p)) (p_raddr p ++ [p_rat p]) (p_laddr p ++ [p_lat p])
       = Some d) \/
  (c = 4 /\ p_legacy p = true /\ Z.land (auth_req (p_req p)) 3 = 0 /\ p_stk p' <> p_stk p \/ c = 4 /\ p_legacy p = true /\ Z.land (auth_req (p_req p)) 3 = 0)).
Proof.
  intros e c d p h Hd. unfold dispatch in Hd.
  repeat match type of Hd with
  | (if ?x then _ else _) = _ => destruct x eqn:?
  end; try discriminate Hd; apply Some_inj in Hd; subst h;
  repeat match goal with E : (_ =? _) = true |- _ => apply Z.eqb_eq in E; subst c end.
  all: wps; sp; intros Hr Hf; try congruence; try (left; assumption); try (right; left; reflexivity).
  all: try (right; right; left; split; [reflexivity|];
    match goal with E : beq_bytes _ _ = true |- _ => apply beq_bytes_eq in E; subst; assumption end).
  all: right; right; right; right; (split; [reflexivity|]); (split; [assumption|]);
    match goal with E : (Z.land _ 3 =? 0) = true |- _ => apply Z.eqb_eq in E; exact E end.
Qed.

Definition FI (s : smp) : Prop :=
  (p_st (ctx s) = Finished -> rclosed s = true) /\ (rclosed s = true -> waiting s = false /\ p_st (ctx s) <> Init).

Lemma after_FI : forall s p err s' evs, FI s -> (p_st (ctx s) <> Init -> p_st p <> Init) -> after_handler s p err = Ret (s', evs) ->
  FI s' /\ (In (EPairRet true) evs -> err = false /\ p_st p = Finished /\ rclosed s = false /\ waiting s = true).
Proof.
  intros s p err s' evs [F1 F2] Hi H. unfold after_handler in H. destruct err.
  - destruct (rclosed s) eqn:Er; [discriminate|]. destruct (waiting s); injection H as <- <-;
      (split; [split; cbn; discriminate|]); cbn; intro X; intuition discriminate.
  - destruct (p_st p) eqn:Es;
    try (injection H as <- <-; split; [split; cbn; rewrite ?Es; [discriminate|]; intro X; destruct (F2 X) as [Y Z]; split; [assumption|now apply Hi]|cbn; contradiction]).
    destruct (rclosed s) eqn:Er.
    + injection H as <- <-. split; [split; cbn; rewrite ?Es; [reflexivity|]; intros _; destruct (F2 eq_refl); split; [assumption|discriminate]|cbn; contradiction].
    + injection H as <- <-. split; [split; cbn; rewrite ?Es; [reflexivity|]; intros _; split; [reflexivity|discriminate]|].
      intro X. destruct (waiting s); [repeat split|contradiction].
Qed.

Lemma FI_step : forall s a s' evs, FI s -> sstep C s a = Some (Ret (s', evs)) -> FI s' /\
  (In (EPairRet true) evs -> exists e pdu c d h p o r, a = AMsg e pdu /\ msg_of pdu = Some (c, d) /\ dispatch C e c d = Some h /\
     h (ctx s) = Ret (p, o, r) /\ r <> None /\ p_st p = Finished /\ p_st (ctx s) <> Finished /\ waiting s = true).
Proof.
  intros s a s' evs HF H. destruct a as [e pdu|e k oob| |e]; cbn [sstep] in H.
  - destruct (stuck s); [discriminate|]. apply Some_inj in H. destruct (Handle_inv _ _ _ _ _ _ H) as (c & d & Hm & Hh).
    destruct Hh as [(Hd & Hc & evs' & -> & Hf & Hw & Hr)|(h & p & o & r & s1 & evs1 & Hd & Hh & Ha & -> & ->)].
    + split; [unfold FI in *; rewrite Hc, Hw, Hr; exact HF|]. intros [X|X]; [discriminate|].
      rewrite Forall_forall in Hf. specialize (Hf _ X). discriminate.
    + destruct (dispatch_st C _ _ _ (ctx s) _ Hd _ _ _ Hh) as (Hi & _).
      destruct (after_FI _ _ _ _ _ HF Hi Ha) as [HF' Hp]. split; [exact HF'|]. intro X.
      apply in_app_or in X. destruct X as [X|X]; [apply in_map_iff in X; destruct X as (y & Y & _); discriminate|].
      destruct (Hp X) as (He & Hst & Hrc & Hw). exists e, pdu, c, d, h, p, o, r. repeat split; try assumption.
      * intro Y. rewrite Y in He. discriminate.
      * intro Y. destruct HF as [F1 _]. specialize (F1 Y). congruence.
  - apply Some_inj in H. unfold Pair in H.
    assert (Hn : Ret (s, [EPairRet false]) = Ret (s', evs) -> FI s' /\ (In (EPairRet true) evs -> False)).
    { intro X. injection X as <- <-. split; [exact HF|]. intros [Y|[]]; discriminate. }
    assert (G : FI s' /\ (In (EPairRet true) evs -> False)).
    { destruct (p_st (ctx s)) eqn:Es; try (exact (Hn H)). clear Hn. destruct HF as [F1 F2].
      assert (Hc : rclosed s = false).
      { destruct (rclosed s); [|reflexivity]. destruct (F2 eq_refl) as [_ X]. congruence. }
      unfold StartPairing, sendPairingRequest, send, bind, modify, get, emit, must in H.
      destruct (0 <? length oob)%nat, (e_write e); cbn in H; injection H as <- <-;
        (split; [split; cbn; rewrite ?Hc; discriminate|]); cbn; intros X; intuition discriminate. }
    split; [apply G|]. intro X. now destruct (proj2 G).
  - destruct (waiting s) eqn:Ew; [|discriminate]. injection H as <- <-. split.
    + destruct HF as [F1 F2]. split; cbn; [assumption|]. intro X. destruct (F2 X). split; [reflexivity|assumption].
    + intros [X|[]]; discriminate.
  - apply Some_inj in H. destruct (StartEncryption e (ctx s)) as [[[p o] r]|] eqn:E; [|discriminate]. cbn [gbind] in H.
    injection H as <- <-.
    assert (Hw : wp (StartEncryption e) (ctx s) (fun p o _ => p_st p = p_st (ctx s))) by (wps; sp; reflexivity).
    specialize (Hw _ _ _ E). cbv beta in Hw. split; [unfold FI in *; cbn; rewrite Hw; exact HF|].
    intro X. apply in_map_iff in X. destruct X as (y & Y & _). discriminate.
Qed.

Lemma run_FI : forall l s, srun C s0 l s -> FI s.
Proof.
  intros l s H. remember s0 as z eqn:Hz. induction H as [s|s l s1 a s2 evs H IH Hs]; subst.
  - split; cbn; discriminate.
  - eapply FI_step; [|exact Hs]. now apply IH.
Qed.

(** Pair reports success only for one of three messages. *)
Theorem pair_success : forall l s a s' evs, srun C s0 l s -> trace_ok l -> sstep C s a = Some (Ret (s', evs)) ->
  In (EPairRet true) evs ->
  exists e pdu c d, a = AMsg e pdu /\ msg_of pdu = Some (c, d) /\ waiting s = true /\
  (c = 7 \/
   (c = 4 /\ p_legacy (ctx s) = true /\ Z.land (auth_req (p_req (ctx s))) 3 = 0) \/
   (c = 13 /\ exists k b na nb nb' na', key_agreed C la ra lat rat l k b na nb /\ p_lrand (ctx s) = Some na' /\ p_rrand (ctx s) = nb' /\
      d = rev (f6 C (rev (mackey_of C la ra lat rat k b na nb)) (rev nb') (rev na')
                  (r_op (p_type (ctx s)) (v_passkey (view_of C l)) (p_oobdata (ctx s)))
                  (io_op (p_rsp (ctx s))) (addr_op rat ra) (addr_op lat la)))).
Proof.
  intros l s a s' evs Hrun Hl H Hin. destruct (FI_step _ _ _ _ (run_FI _ _ Hrun) H) as [_ Hp].
  destruct (Hp Hin) as (e & pdu & c & d & h & p & o & r & -> & Hm & Hd & Hh & Hr & Hf & Hnf & Hw).
  exists e, pdu, c, d. split; [reflexivity|]. split; [assumption|]. split; [assumption|].
  destruct (finish_effect _ _ _ _ _ Hd _ _ _ Hh Hr Hf) as [X|[X|[[-> H6]|[(X1 & X2 & X3 & _)|(X1 & X2 & X3)]]]]; try congruence.
  - left. exact X.
  - right. right. split; [reflexivity|].
    pose proof (run_B C HC _ _ _ _ _ _ Hrun Hl) as HB. pose proof (run_K C HC la ra lat rat _ _ Hrun Hl) as HK.
    destruct (F6_inv _ _ _ _ _ _ _ _ _ H6) as (M1 & M2 & M3 & M4 & M5 & M6 & M7).
    destruct HK as [[HK _]|(k & b & na & nb & Hag & Hmac & Hbond)]; [rewrite HK in M1; discriminate|].
    exists k, b, na, nb, (p_rrand (ctx s)), (lrand (ctx s)). split; [assumption|]. split; [now apply lrand_some|]. split; [reflexivity|].
    rewrite F6_spec in H6 by assumption. apply Some_inj in H6. rewrite <- H6.
    rewrite check_r_op, io_rev, (B_laddr _ _ _ _ _ _ _ HB), (B_raddr _ _ _ _ _ _ _ HB), (B_lat _ _ _ _ _ _ _ HB), (B_rat _ _ _ _ _ _ _ HB), !rev_addr, (B_key _ _ _ _ _ _ _ HB), Hmac.
    reflexivity.
  - right. left. repeat split; assumption.
  - right. left. repeat split; assumption.
Qed.

(** ** Panics *)
Definition bond_small (p : pctx) : Prop :=
  (forall b, p_bond p = Some b -> blegacy b = true \/ (length (ltk b) <= 16)%nat) /\ (length (p_stk p) <= 16)%nat.

Lemma key_array_ok : forall k, (length k <= 16)%nat -> key_array k <> Panic.
Proof. intros k H. unfold key_array. rewrite (proj2 (Nat.leb_le _ _) H). discriminate. Qed.

Lemma conn_encrypt_tw : forall e b p, (match b with Some b => blegacy b = true \/ (length (ltk b) <= 16)%nat | None => True end) ->
  (length (p_stk p) <= 16)%nat -> tw (conn_encrypt e b) p (fun p' _ _ => p' = p).
Proof.
  intros e b p Hb Hs. tws; sp; try reflexivity.
  - now apply key_array_ok.
  - apply key_array_ok. destruct Hb as [Hb|Hb]; [|assumption]. rewrite Hb in *. cbn [andb] in *.
    match goal with E : negb (len_is 16 _) = false |- _ => apply negb_false_iff, len_is_eq in E; lia end.
Qed.

Lemma Encrypt_tw : forall e p, bond_small p -> tw (Encrypt e) p (fun p' _ _ => p' = p).
Proof.
  intros e p [H1 H2]. unfold Encrypt. apply tw_bind, tw_get. cbv beta iota. cbn [app]. apply conn_encrypt_tw; [|assumption].
  destruct (p_bond p) as [b|]; [now apply H1|exact I].
Qed.

Lemma tw_mono : forall {A} (m : M A) p (Q1 Q2 : pctx -> list out -> option A -> Prop),
  (forall p' o r, Q1 p' o r -> Q2 p' o r) -> tw m p Q1 -> tw m p Q2.
Proof. intros A m p Q1 Q2 H. unfold tw. destruct (m p) as [[[p' o] r]|]; auto. Qed.

Lemma smpC1_np : forall k r preq pres iat rat' la' ra', length k = 16%nat -> length r = 16%nat -> length preq = 7%nat ->
  length pres = 7%nat -> length la' = 6%nat -> length ra' = 6%nat -> smpC1 C k r preq pres iat rat' la' ra' <> Panic.
Proof. intros. rewrite C1_spec by assumption. discriminate. Qed.

Lemma smpS1_np : forall k r1 r2, smpS1 C k r1 r2 <> Panic.
Proof.
  intros k r1 r2. unfold smpS1. destruct (_ && _) eqn:E; [|discriminate].
  rewrite !andb_true_iff, !len_is_eq in E. destruct E as [[E1 E2] E3].
  rewrite E_spec; [discriminate|assumption|]. rewrite app_length, !firstn_length. lia.
Qed.

Lemma smpS1_len : forall k r1 r2 x, smpS1 C k r1 r2 = Ret (Some x) -> length x = 16%nat.
Proof.
  intros k r1 r2 x H. unfold smpS1 in H. destruct (_ && _) eqn:E in H; [|discriminate].
  rewrite !andb_true_iff, !len_is_eq in E. destruct E as [[E1 E2] E3].
  rewrite E_spec in H; [|assumption|rewrite app_length, !firstn_length; lia].
  apply Ret_inj, Some_inj in H. rewrite <- H, rev_length. apply aes_len, HC.
Qed.

Lemma table_np : forall t i j, 0 <= i < 5 -> 0 <= j < 5 -> length t = 5%nat -> Forall (fun r => length r = 5%nat) t -> table_at t i j <> Panic.
Proof.
  intros t i j Hi Hj Ht Hr. unfold table_at, gidx.
  destruct (nth_error t (Z.to_nat i)) as [row|] eqn:E.
  - cbn [gbind]. rewrite Forall_forall in Hr. specialize (Hr _ (nth_error_In _ _ E)).
    destruct (nth_error row (Z.to_nat j)) eqn:E2; [discriminate|]. apply nth_error_None in E2. lia.
  - apply nth_error_None in E. lia.
Qed.
Lemma determine_np : forall req rsp l, 0 <= io_cap req -> 0 <= io_cap rsp -> determinePairingType req rsp l <> Panic.
Proof.
  intros req rsp l H1 H2. unfold determinePairingType.
  repeat match goal with |- (if ?x then _ else _) <> _ => destruct x eqn:? end; try discriminate.
  apply table_np; try lia; destruct l; try reflexivity; repeat constructor.
Qed.

Definition G (p : pctx) : Prop := bond_small p /\ 0 <= io_cap (p_req p).
Lemma G_same : forall p p', p_bond p' = p_bond p -> p_stk p' = p_stk p -> io_cap (p_req p') = io_cap (p_req p) -> G p -> G p'.
Proof. intros p p' H1 H2 H3 [[A1 A2] A3]. unfold G, bond_small. rewrite H1, H2, H3. repeat split; assumption. Qed.

Lemma F5_out_len : forall w n1 n2 a1 a2 mk lt, smpF5 C w n1 n2 a1 a2 = Some (mk, lt) -> length lt = 16%nat.
Proof.
  intros w n1 n2 a1 a2 mk lt H. destruct (F5_inv _ _ _ _ _ _ _ H) as (L1 & L2 & L3 & L4 & L5).
  rewrite F5_spec in H by assumption. injection H as _ <-. rewrite rev_length. apply cmac_len, HC.
Qed.

Lemma G_dispatch : forall e c d p h, find_ok e -> dispatch C e c d = Some h -> G p -> wp h p (fun p' _ _ => G p').
Proof.
  intros e c d p h Hfo Hd HG. unfold dispatch in Hd.
  repeat match type of Hd with
  | (if ?x then _ else _) = _ => destruct x eqn:?
  end; try discriminate Hd; apply Some_inj in Hd; subst h.
  all: wps; try (apply (G_same p); [reflexivity|reflexivity|reflexivity|exact HG]).
  all: destruct HG as [[A1 A2] A3].
  all: try match goal with E : smpS1 _ _ _ _ = Ret (Some _) |- _ => apply smpS1_len in E end.
  all: try match goal with E : smpF5 _ _ _ _ _ _ = Some ?x |- _ => destruct x as [mk lt]; apply F5_out_len in E end.
  all: unfold find_ok in Hfo; try match goal with E : e_find _ = _ |- _ => rewrite E in Hfo end.
  all: split; [split|]; sp; try assumption; try lia.
  all: intros b' Hb'; try (apply Some_inj in Hb'; subst b'; cbn [ltk blegacy]; first [left; reflexivity|right; lia|right; assumption]).
Qed.

Lemma G_step : forall s a s' evs, act_ok a -> G (ctx s) -> sstep C s a = Some (Ret (s', evs)) -> G (ctx s').
Proof.
  intros s a s' evs [Ha _] HG H. destruct a as [e pdu|e k oob| |e]; cbn [sstep act_env] in *.
  - destruct (stuck s); [discriminate|]. apply Some_inj in H. destruct (Handle_inv _ _ _ _ _ _ H) as (c & d & Hm & Hh).
    destruct Hh as [(Hd & Hc & _)|(h & p & o & r & s1 & evs1 & Hd & Hh & Haf & -> & ->)]; [now rewrite Hc|].
    pose proof (G_dispatch _ _ _ _ _ (proj2 Ha) Hd HG _ _ _ Hh) as HG'. cbv beta in HG'.
    destruct (after_ctx _ _ _ _ _ Haf) as [[-> | ->] _]; [exact HG'|]. apply (G_same p); try reflexivity. exact HG'.
  - apply Some_inj in H. unfold Pair in H.
    assert (Hn : Ret (s, [EPairRet false]) = Ret (s', evs) -> G (ctx s')) by (intro X; injection X as <- <-; exact HG).
    destruct (p_st (ctx s)) eqn:Es; try (exact (Hn H)). clear Hn.
    unfold StartPairing, sendPairingRequest, send, bind, modify, get, emit, must in H.
    destruct (0 <? length oob)%nat, (e_write e); cbn in H; injection H as <- <-; cbn [ctx]; apply (G_same (ctx s)); try reflexivity; exact HG.
  - destruct (waiting s); [|discriminate]. injection H as <- <-. exact HG.
  - apply Some_inj in H. destruct (StartEncryption e (ctx s)) as [[[p o] r]|] eqn:E; [|discriminate]. cbn [gbind] in H.
    injection H as <- <-. cbn [ctx].
    assert (Hw : wp (StartEncryption e) (ctx s) (fun p o _ => p = ctx s)) by (wps; reflexivity).
    rewrite (Hw _ _ _ E). exact HG.
Qed.

Lemma run_G : forall l s, srun C s0 l s -> Forall (fun x => act_ok (fst x)) l -> G (ctx s).
Proof.
  intros l s H. remember s0 as z eqn:Hz. induction H as [s|s l s1 a s2 evs H IH Hs]; intro Hl; subst.
  - split; [split; cbn; [discriminate|lia]|cbn; lia].
  - apply Forall_app in Hl. destruct Hl as [Hl He]. apply Forall_cons_iff in He. eapply G_step; [apply He| |exact Hs]. now apply IH.
Qed.

Lemma tw_np : forall {A} (m : M A) p Q, tw m p Q -> m p <> Panic.
Proof. intros A m p Q H X. unfold tw in H. now rewrite X in H. Qed.

Lemma saveBond_tw : forall e p, tw (saveBondInfo e) p (fun p' _ _ => p' = p).
Proof. intros e p. tws; reflexivity. Qed.

Lemma msg_bytes : forall pdu c d, all_bytes pdu -> msg_of pdu = Some (c, d) -> all_bytes d.
Proof.
  intros pdu c d H Hm. do 5 (destruct pdu as [|? pdu]; [discriminate|]). cbn in Hm. injection Hm as -> ->.
  unfold all_bytes in *. rewrite !Forall_cons_iff in H. tauto.
Qed.

Lemma smpF4_any : forall u v x z, exists r, smpF4 C u v x z = r.
Proof. eauto. Qed.

Lemma dispatch_np : forall v e c d p h, Bv v p -> G p -> env_ok e -> find_ok e -> all_bytes d -> length la = 6%nat -> length ra = 6%nat ->
  dispatch C e c d = Some h ->
  ~ (c = 7 /\ ((length d < 10)%nat \/ p_bond p = None)) ->
  ~ (c = 12 /\ length d = 64%nat /\ v_own v = None) ->
  ~ (c = 4 /\ length d = 16%nat /\ p_legacy p = false /\ (v_own v = None \/ v_peer v = None)) ->
  ~ (c = 2 /\ v_own v = None /\ e_key e = None) ->
  h p <> Panic.
Proof.
  intros v e c d p h HB HG He Hfo Hbd Hla Hra Hd N7 N12 N4 N2.
  assert (Lla : length (p_laddr p) = 6%nat) by (rewrite (B_laddr _ _ _ _ _ _ _ HB), rev_length; assumption).
  assert (Lra : length (p_raddr p) = 6%nat) by (rewrite (B_raddr _ _ _ _ _ _ _ HB), rev_length; assumption).
  pose proof (B_own _ _ _ _ _ _ _ HB) as Hown. pose proof (B_peer _ _ _ _ _ _ _ HB) as Hpeer.
  unfold dispatch in Hd.
  repeat match type of Hd with
  | (if ?x then _ else _) = _ => destruct x eqn:?
  end; try discriminate Hd; apply Some_inj in Hd; subst h;
  repeat match goal with E : (_ =? _) = true |- _ => apply Z.eqb_eq in E; subst c end;
  apply (tw_np _ _ (fun _ _ _ => True)).
  - (* response *)
    assert (Hk : forall k, match p_keys p with None => k = e_key e | Some _ => k = p_keys p end -> k <> None).
    { intros k Hk X. subst k. unfold own_public in Hown. destruct (p_keys p); [discriminate|]. apply N2. split; [reflexivity|]. split; [exact Hown|congruence]. }
    tws; sp; try exact I.
    + apply determine_np; sp; [apply HG|]. unfold all_bytes, is_byte in Hbd. apply Forall_cons_iff in Hbd. lia.
    + apply smpC1_np; try assumption; try reflexivity. apply legacy_tk_len.
    + unfold own_public. sp. unfold MarshalPublicKeyXY. rewrite E8. discriminate.
    + unfold own_public. sp. unfold MarshalPublicKeyXY. destruct (e_key e) eqn:Ek; [discriminate|]. exfalso. apply (Hk None); [|reflexivity]. rewrite E8. congruence.
  - tws; exact I.
  - (* random *)
    destruct (Nat.eq_dec (length d) 16) as [Hlen|Hne].
    2: { unfold smpOnPairingRandom, len_is. apply Nat.eqb_neq in Hne. rewrite Hne. exact I. }
    unfold smpOnPairingRandom. rewrite (proj2 (len_is_eq _ _) Hlen). tws; sp; try exact I.
    all: try (apply smpC1_np; first [assumption|reflexivity|apply legacy_tk_len]).
    all: try apply smpS1_np.
    all: unfold own_public; sp; unfold MarshalPublicKeyX, own_public in *; sp.
    all: try (apply key_array_ok; sp).
    all: try match goal with |- match p_rpub ?q with _ => _ end <> _ => destruct (p_rpub q) eqn:Ep; [discriminate|];
       exfalso; apply N4; repeat split; try assumption; right; destruct (v_peer v); [discriminate|reflexivity] end.
    all: try match goal with |- context [match p_keys ?q with _ => _ end] => destruct (p_keys q) eqn:Ek; [discriminate|];
       exfalso; apply N4; repeat split; try assumption; left; exact Hown end.
    all: try match goal with E : smpS1 _ _ _ _ = Ret (Some _) |- _ => apply smpS1_len in E; lia end.
    all: match goal with E : p_bond _ = Some ?b |- _ => destruct (proj1 (proj1 HG) _ E) as [X|X]; [|assumption];
       rewrite X in *; cbn [andb] in *; 
       match goal with E1 : negb (len_is 16 _) = false |- _ => apply negb_false_iff, len_is_eq in E1; lia end end.
  - exact I.
  - exact I.
  - (* master identification *)
    destruct (le_lt_dec 10 (length d)) as [Hlen|Hlt]; [|exfalso; apply N7; auto].
    destruct (p_bond p) as [b|] eqn:Eb; [|exfalso; apply N7; auto].
    unfold smpOnMasterIdentification. tws; sp; try exact I; try congruence.
    + rewrite gslice_ok by lia. discriminate.
    + rewrite gslice_ok in E by lia. apply Ret_inj in E. subst a. do 2 (destruct d as [|? d]; [cbn in Hlen; lia|]). discriminate.
    + rewrite gfrom_ok by lia. discriminate.
    + rewrite gfrom_ok in E1 by lia. apply Ret_inj in E1. subst a1. rewrite gslice_ok; [discriminate|lia|]. rewrite skipn_length. lia.
  - (* security request *)
    destruct HG as [[A1 A2] A3]. unfold smpOnSecurityRequest. tws; sp; try exact I.
    + now apply key_array_ok.
    + apply key_array_ok. unfold find_ok in Hfo. 
      match goal with E : e_find _ = Some ?b, E' : Some ?b = Some _ |- _ => rewrite E in Hfo; apply Some_inj in E'; subst; assumption end.
  - (* public key *)
    destruct (Nat.eq_dec (length d) 64) as [Hlen|Hne].
    2: { unfold smpOnPairingPublicKey, len_is. apply Nat.eqb_neq in Hne. rewrite Hne. exact I. }
    unfold smpOnPairingPublicKey. rewrite (proj2 (len_is_eq _ _) Hlen).
    assert (Hk : exists k, p_keys p = Some k).
    { unfold own_public in Hown. destruct (p_keys p) as [k|]; [eauto|]. exfalso. apply N12. auto. }
    destruct Hk as [k Hk].
    tws; sp; try exact I; unfold own_public; sp; try rewrite Hk; discriminate.
  - (* DHKey check *)
    unfold smpOnDHKeyCheck. apply tw_bind. unfold checkDHKeyCheck. tws; sp; try exact I.
    all: try (apply key_array_ok; sp; try apply HG).
    all: match goal with E : p_bond _ = Some ?b |- _ => destruct (proj1 (proj1 HG) _ E) as [X|X]; [|assumption];
       rewrite X in *; cbn [andb] in *; 
       match goal with E1 : negb (len_is 16 _) = false |- _ => apply negb_false_iff, len_is_eq in E1; lia end end.
Qed.
End R.
