(** What was seen: requests in order, unmodified, one at a time. *)
Require Import Verif.Base Verif.M_attdb Verif.M_attsrv Verif.M_srvloop Verif.S_srvloop Verif.P_srvloop Verif.P_srvloop2 Verif.P_srvloop3.

Definition oreq (s : ls) (k : nat) : list bytes := match req_of s k with Some r => [r] | None => [] end.
Definition got (s : ls) : list bytes := match hd s with HGot k => oreq s k | _ => [] end.
Definition sent (s : ls) : list bytes := match rd s with RSend k => oreq s k | _ => [] end.
Definition in_hand (h : hphase) : option nat := match h with HMtuN k _ _ | HMtuI k _ _ | HWrite k _ | HPut k => Some k | _ => None end.
Definition tail_ok (h : hphase) (tl : list vis) : Prop :=
  match h with
  | HMtuN _ _ rsp | HMtuI _ _ rsp | HWrite _ rsp => (rsp = [] /\ tl = []) \/ (rsp <> [] /\ exists e p cs, tl = [VHandle e p (Some rsp) cs])
  | _ => tl = []
  end.
Record tinv (s0 : srv) (l : list act) (s : ls) (t : list vis) : Prop := mkT {
  t_arr : arrived l = reads t ++ inq s;
  t_req : exists rest, requests (reads t) = map pdu_of (servings t) ++ rest /\ (length rest <= 2)%nat /\ (hd s <> HPanic -> rest = got s ++ sent s);
  t_hand : forall k, in_hand (hd s) = Some k -> exists l' x, servings t = l' ++ [x] /\ req_of s k = Some (pdu_of x);
  t_served : exists sv', served s0 (servings t) sv' /\ (hd s <> HDone -> sv s = sv') /\
    (hd s = HDone -> exists nl, cleanup sv' (cccs sv') = Ret nl /\ sv s = set_nn sv' (nn sv') nl);
  t_view : exists ts tl, request_view t = turns ts ++ tl /\ tail_ok (hd s) tl;
  t_write : forall k rsp, hd s = HWrite k rsp -> rsp <> [] }.

Lemma oreq_len : forall s k, (length (oreq s k) <= 1)%nat.
Proof. intros. unfold oreq. destruct (req_of s k); cbn; lia. Qed.
Lemma got_len : forall s, (length (got s) <= 1)%nat.
Proof. intros. unfold got. destruct (hd s); cbn; try lia. apply oreq_len. Qed.
Lemma sent_len : forall s, (length (sent s) <= 1)%nat.
Proof. intros. unfold sent. destruct (rd s); cbn; try lia. apply oreq_len. Qed.
Lemma tinv_init : forall s0, tinv s0 [] (linit s0) [].
Proof.
  intro s0. constructor.
  - reflexivity.
  - exists []. split; [reflexivity|]. split; [cbn; lia|reflexivity].
  - discriminate.
  - exists s0. split; [constructor|]. split; [reflexivity|discriminate].
  - exists [], []. split; reflexivity.
  - discriminate.
Qed.
Lemma req_of_bufs : forall s s' k, bufs s' = bufs s -> req_of s' k = req_of s k.
Proof. intros s s' k E. unfold req_of. now rewrite E. Qed.
Lemma req_of_upd_same : forall s s' k b p, nth_error (bufs s) k = Some b -> bufs s' = upd (bufs s) k (mkB (blit (b_data b) p) (length p)) -> req_of s' k = Some p.
Proof.
  intros s s' k b p N E. unfold req_of. rewrite E, nth_error_upd, Nat.eqb_refl.
  assert (H : (k < length (bufs s))%nat) by (apply nth_error_Some; congruence). apply Nat.ltb_lt in H. rewrite H. cbn [b_len b_data]. now rewrite blit_first.
Qed.
Lemma req_of_upd_other : forall s s' k j x, bufs s' = upd (bufs s) k x -> j <> k -> req_of s' j = req_of s j.
Proof. intros s s' k j x E N. unfold req_of. rewrite E, nth_error_upd. assert (Q : Nat.eqb k j = false) by (apply Nat.eqb_neq; auto). now rewrite Q. Qed.
Lemma in_hand_own : forall h k, in_hand h = Some k -> own_hd h = [k].
Proof. intros h k H. destruct h; cbn in *; try discriminate; now injection H as ->. Qed.

Lemma nil_view : forall v, (forall e p o cs, ~ In (VHandle e p o cs) v) -> (forall p ok, ~ In (VWrite SRsp p ok) v) -> request_view v = [].
Proof.
  induction v as [|x v IH]; intros A B; [reflexivity|]. unfold request_view. cbn [filter].
  assert (T : request_view v = []) by (apply IH; [intros e p o cs Q; apply (A e p o cs); now right|intros p ok Q; apply (B p ok); now right]). unfold request_view in T. rewrite T.
  destruct x as [p|e p o cs|o p ok|k r|k| |]; try reflexivity; [elim (A e p o cs); now left|]. destruct o; [elim (B p ok); now left|reflexivity].
Qed.
Lemma nil_servings : forall v, (forall e p o cs, ~ In (VHandle e p o cs) v) -> servings v = [].
Proof.
  induction v as [|x v IH]; intro A; [reflexivity|]. unfold servings. cbn [flat_map]. fold (servings v). rewrite IH by (intros e p o cs Q; apply (A e p o cs); now right).
  destruct x; try reflexivity. elim (A e p o cs). now left.
Qed.
Lemma nil_reads : forall v, (forall p, ~ In (VRead p) v) -> reads v = [].
Proof.
  induction v as [|x v IH]; intro A; [reflexivity|]. unfold reads. cbn [flat_map]. fold (reads v). rewrite IH by (intros p Q; apply (A p); now right).
  destruct x; try reflexivity. elim (A p). now left.
Qed.
(** a step that neither reads nor handles: everything kept but the queue of unread PDUs and the phases *)
Lemma tinv_same : forall s0 l s t a s' v, tinv s0 l s t -> hd s <> HPanic -> inq s' = inq s ++ arrived [a] -> sv s' = sv s -> bufs s' = bufs s -> hd s' = hd s ->
  reads v = [] -> servings v = [] -> request_view v = [] -> sent s' = sent s -> tinv s0 (l ++ [a]) s' (t ++ v).
Proof.
  intros s0 l s t a s' v [TA (rest & R1 & R2 & R3) TH (sv' & S1 & S2 & S3) (ts & tl & V1 & V2) TW] NP E1 E2 E3 HD RV SV VV SS.
  constructor; rewrite ?arrived_app, ?reads_app, ?servings_app, ?view_app, ?RV, ?SV, ?VV, ?app_nil_r, ?HD, ?E2.
  - rewrite TA, E1. now rewrite app_assoc.
  - exists rest. split; [exact R1|]. split; [exact R2|]. intro NP'. rewrite (R3 NP'). rewrite SS. f_equal. unfold got. rewrite HD. destruct (hd s); try reflexivity. unfold oreq. now rewrite (req_of_bufs s s' k E3).
  - intros k K. rewrite (req_of_bufs s s' k E3). now apply TH.
  - exists sv'. auto.
  - exists ts, tl. auto.
  - exact TW.
Qed.
(** a step of the handling goroutine between requests and answers *)
Lemma tinv_hd : forall s0 l s t a s' tl0, tinv s0 l s t -> hd s <> HPanic -> (match a with AArrive _ => False | _ => True end) -> inq s' = inq s -> sv s' = sv s -> bufs s' = bufs s -> rd s' = rd s ->
  hd s <> HDone -> hd s' <> HDone -> hd s' <> HPanic -> (forall k, hd s <> HGot k) -> (forall k, hd s' <> HGot k) -> (in_hand (hd s') = in_hand (hd s) \/ in_hand (hd s') = None) ->
  (forall tl, tail_ok (hd s) tl -> exists ts', tl ++ tl0 = turns ts' /\ tail_ok (hd s') [] \/ tl0 = [] /\ tail_ok (hd s') tl) -> (forall k rsp, hd s' = HWrite k rsp -> rsp <> []) ->
  forall v, reads v = [] -> servings v = [] -> request_view v = tl0 -> tinv s0 (l ++ [a]) s' (t ++ v).
Proof.
  intros s0 l s t a s' tl0 [TA (rest & R1 & R2 & R3) TH (sv' & S1 & S2 & S3) (ts & tl & V1 & V2) TW] NP NA E1 E2 E3 ER ND ND' NP' NG NG' IH TT TW' v RV SV VV.
  constructor; rewrite ?arrived_app, ?reads_app, ?servings_app, ?view_app, ?RV, ?SV, ?VV, ?app_nil_r, ?E2.
  - assert (Q : arrived [a] = []) by (destruct a; try reflexivity; contradiction). rewrite Q, app_nil_r, E1. exact TA.
  - exists rest. split; [exact R1|]. split; [exact R2|]. intros _. rewrite (R3 NP).
    assert (G1 : got s = []) by (unfold got; destruct (hd s); try reflexivity; now elim (NG k)). assert (G2 : got s' = []) by (unfold got; destruct (hd s'); try reflexivity; now elim (NG' k)).
    rewrite G1, G2. unfold sent. rewrite ER. destruct (rd s); try reflexivity. unfold oreq. now rewrite (req_of_bufs s s' k E3).
  - intros k K. rewrite (req_of_bufs s s' k E3). destruct IH as [IH|IH]; [apply TH; congruence|congruence].
  - exists sv'. split; [exact S1|]. split; [intros _; now apply S2|contradiction].
  - rewrite V1. destruct (TT tl V2) as (ts' & [[A B]|[A B]]).
    + exists (ts ++ ts'), []. rewrite turns_app, app_nil_r, <- app_assoc, A. split; [reflexivity|exact B].
    + exists ts, tl. rewrite A, app_nil_r. split; [reflexivity|exact B].
  - exact TW'.
Qed.
Lemma tinv_step : forall s0 l s t a s' v, oinv s -> kinv s -> tinv s0 l s t -> lstep s a = Some (s', v) -> tinv s0 (l ++ [a]) s' (t ++ v).
Proof.
  intros s0 l s t a s' v O K T ST. pose proof (kinv_step _ _ _ _ K ST) as [_ PAN]. apply lstep_cases in ST. destruct ST as [NP [H|H]].
  2:{ pose proof (call_core _ _ _ _ H) as (HD & E1 & E2 & E3 & E4 & E5 & E6 & E7 & E8 & E9 & E10). destruct HD as [HD|HD]; [exfalso; destruct H; exact (PAN HD)|].
      apply (tinv_same s0 l s); auto; [destruct a; try contradiction; cbn; now rewrite app_nil_r|now apply nil_reads|now apply nil_servings|now apply nil_view|].
      unfold sent. destruct E6 as [-> | (k' & Q1 & Q2)]; [|now rewrite Q1, Q2]. destruct (rd s); try reflexivity. unfold oreq. now rewrite (req_of_bufs s s' k E3). }
  clear PAN. assert (SEQ : forall r x, sent s = [] -> rd x = r -> (forall k, r <> RSend k) -> sent x = sent s).
  { intros r x A B C. rewrite A. unfold sent. rewrite B. destruct r; try reflexivity. now elim (C k). }
  destruct H.
  - apply (tinv_same s0 l s); auto.
  - apply (tinv_same s0 l s); auto. cbn. now rewrite app_nil_r.
  - apply (tinv_same s0 l s); auto; [cbn; now rewrite app_nil_r|]. unfold sent. cbn [set_rd set_pool rd]. now rewrite H.
  - apply (tinv_same s0 l s); auto; [cbn; now rewrite app_nil_r|]. unfold sent. cbn [set_rd rd]. now rewrite H.
  - (* an unacceptable PDU *)
    destruct T as [TA (rest & R1 & R2 & R3) TH TS TV TW]. rewrite H0 in TA.
    assert (NR : is_request p = false). { destruct H1 as [-> |G]; [reflexivity|]. destruct p as [|c u]; [reflexivity|]. cbn [is_request]. unfold max_mtu in G. apply andb_false_iff. right. apply Nat.leb_gt. exact G. }
    constructor; rewrite ?arrived_app, ?reads_app, ?servings_app, ?view_app; cbn [arrived flat_map app reads servings request_view filter set_rd set_in inq hd sv]; rewrite ?app_nil_r; auto.
    + rewrite TA, <- app_assoc. reflexivity.
    + exists rest. rewrite requests_app. unfold requests at 2. cbn [filter]. rewrite NR, app_nil_r. split; [exact R1|]. split; [exact R2|]. intro N. rewrite (R3 N). unfold got, sent. cbn [set_rd set_in hd rd]. rewrite H, !app_nil_r. reflexivity.
  - (* a confirmation *)
    destruct T as [TA (rest & R1 & R2 & R3) TH TS TV TW]. rewrite H0 in TA. pose proof (o_nodup s O) as ND. rewrite H in ND. cbn [own_rd app] in ND. inversion ND as [|? ? ND1 ND2]; subst x l0.
    set (s' := set_rd _ _). assert (EB : bufs s' = upd (bufs s) k (mkB (blit (b_data b) p) (b_len b))) by reflexivity.
    assert (OT : forall j, own_hd (hd s) = [j] -> req_of s' j = req_of s j). { intros j J. apply (req_of_upd_other s s' k j _ EB). intros ->. apply ND1. rewrite J. now left. }
    constructor; rewrite ?arrived_app, ?reads_app, ?servings_app, ?view_app; cbn [arrived flat_map app reads servings request_view filter]; rewrite ?app_nil_r; auto.
    + rewrite TA, <- app_assoc. reflexivity.
    + exists rest. rewrite requests_app. unfold requests at 2. cbn [filter]. rewrite H2 at 1. cbn [is_request]. cbn [Z.eqb Pos.eqb negb andb]. rewrite app_nil_r.
      split; [exact R1|]. split; [exact R2|]. intro N. rewrite (R3 N). unfold got, sent, s'. cbn [set_rd set_in set_bufs hd rd]. rewrite H, !app_nil_r. fold s'. destruct (hd s) eqn:HS; try reflexivity. unfold oreq. rewrite (OT k0); reflexivity.
    + intros j J. change (hd s') with (hd s) in J. rewrite (OT j (in_hand_own _ _ J)). now apply TH.
  - (* a request *)
    destruct T as [TA (rest & R1 & R2 & R3) TH TS TV TW]. rewrite H0 in TA. pose proof (o_nodup s O) as ND. rewrite H in ND. cbn [own_rd app] in ND. inversion ND as [|? ? ND1 ND2]; subst x l0.
    set (s' := set_rd _ _). assert (EB : bufs s' = upd (bufs s) k (mkB (blit (b_data b) p) (length p))) by reflexivity.
    assert (OT : forall j, own_hd (hd s) = [j] -> req_of s' j = req_of s j). { intros j J. apply (req_of_upd_other s s' k j _ EB). intros ->. apply ND1. rewrite J. now left. }
    assert (RQ : is_request p = true). { rewrite H2. cbn [is_request]. rewrite <- H2. apply andb_true_iff. split; [apply negb_true_iff; now apply Z.eqb_neq|apply Nat.leb_le; exact H1]. }
    assert (NEW : sent s' = [p]). { unfold sent. change (rd s') with (RSend k). unfold oreq. now rewrite (req_of_upd_same s s' k b p H4 EB). }
    assert (GOT : got s' = got s). { unfold got. change (hd s') with (hd s). destruct (hd s) eqn:HS; try reflexivity. unfold oreq. rewrite (OT k0); reflexivity. }
    assert (OLD : sent s = []) by (unfold sent; now rewrite H).
    constructor; rewrite ?arrived_app, ?reads_app, ?servings_app, ?view_app; cbn [arrived flat_map app reads servings request_view filter]; rewrite ?app_nil_r; auto.
    + rewrite TA, <- app_assoc. reflexivity.
    + exists (got s' ++ sent s'). rewrite requests_app. unfold requests at 2. cbn [filter]. rewrite RQ, R1, (R3 NP), OLD, GOT, NEW, app_nil_r, <- app_assoc.
      split; [reflexivity|]. split; [|reflexivity]. rewrite app_length. pose proof (got_len s). cbn. lia.
    + intros j J. change (hd s') with (hd s) in J. rewrite (OT j (in_hand_own _ _ J)). now apply TH.
  - (* hand-over *)
    destruct T as [TA (rest & R1 & R2 & R3) TH (sv' & S1 & S2 & S3) (ts & tl & V1 & V2) TW]. rewrite H0 in *.
    constructor; rewrite ?arrived_app, ?reads_app, ?servings_app, ?view_app; cbn [arrived flat_map app reads servings request_view filter set_rd set_hd inq hd sv]; rewrite ?app_nil_r; auto; try discriminate.
    + exists rest. split; [exact R1|]. split; [exact R2|]. intros _. rewrite (R3 NP). unfold got, sent. cbn [set_rd set_hd hd rd]. rewrite H, H0. cbn [app]. rewrite ?app_nil_r. reflexivity.
    + exists sv'. split; [exact S1|]. split; [intros _; now apply S2|discriminate].
    + exists ts, tl. split; [exact V1|exact V2].
  - apply (tinv_same s0 l s); auto; [cbn; now rewrite app_nil_r|]. unfold sent. cbn [set_rd rd]. now rewrite H.
  - apply (tinv_same s0 l s); auto; [cbn; now rewrite app_nil_r|]. unfold sent. cbn [set_rd rd]. now rewrite H.
  - apply (tinv_same s0 l s); auto; [cbn; now rewrite app_nil_r|]. unfold sent. cbn [set_down set_rd rd]. now rewrite H.
  - (* handled *)
    destruct T as [TA (rest & R1 & R2 & R3) TH (sv' & S1 & S2 & S3) (ts & tl & V1 & V2) TW].
    assert (GOT : got s = [r]) by (unfold got, oreq; now rewrite H, H0).
    pose proof (own_after k (sv s) s' o) as [OA NPA].
    assert (PH : after_handle k (sv s) s' o = HPut k /\ (o = None \/ o = Some []) \/
                 (exists rsp, rsp <> [] /\ o = Some rsp /\ (after_handle k (sv s) s' o = HWrite k rsp \/ exists m, after_handle k (sv s) s' o = HMtuN k m rsp)) \/
                 (exists m, after_handle k (sv s) s' o = HMtuN k m [] /\ (o = None \/ o = Some []))).
    { unfold after_handle. destruct (Nat.eqb (txlen (sv s)) (txlen s')); destruct o as [[|x rr]|]; auto.
      - right. left. exists (x :: rr). split; [discriminate|]. split; [reflexivity|]. now left.
      - right. right. exists (txlen s'). auto.
      - right. left. exists (x :: rr). split; [discriminate|]. split; [reflexivity|]. right. eauto.
      - right. right. exists (txlen s'). auto. }
    constructor; rewrite ?arrived_app, ?reads_app, ?servings_app, ?view_app; cbn [arrived flat_map app reads servings request_view filter set_hd set_sv inq hd sv]; rewrite ?app_nil_r; auto.
    + exists (sent s). rewrite map_app, <- app_assoc. cbn [map pdu_of fst snd]. rewrite R1, (R3 NP), GOT. split; [reflexivity|]. split; [pose proof (sent_len s); lia|].
      intros _. assert (G : got (set_hd (after_handle k (sv s) s' o) (set_sv s' s)) = []).
      { unfold got. cbn [set_hd hd]. destruct PH as [[-> _]|[(rsp & _ & _ & [-> |(m & ->)])|(m & -> & _)]]; reflexivity. }
      rewrite G. reflexivity.
    + intros j J. exists (servings t), (e, r, o, cs). split; [reflexivity|]. apply in_hand_own in J. rewrite OA in J. injection J as ->.
      assert (Q : req_of (set_hd (after_handle j (sv s) s' o) (set_sv s' s)) j = req_of s j) by reflexivity. rewrite Q. exact H0.
    + exists s'. split; [|split; [reflexivity|]].
      * apply sv_snoc with sv'; [exact S1|]. rewrite <- S2 by congruence. exact H1.
      * intro Q. exfalso. destruct PH as [[E _]|[(rsp & _ & _ & [E|(m & E)])|(m & E & _)]]; rewrite E in Q; discriminate.
    + rewrite H in V2. cbn [tail_ok] in V2. subst tl. rewrite app_nil_r in V1.
      change (servings [VHandle e r o cs]) with [(e, r, o, cs)].
      destruct PH as [[-> A]|[(rsp & B & A & C)|(m & -> & A)]].
      * exists (ts ++ [((e, r, o, cs), true)]), []. rewrite turns_app, V1. split; [|reflexivity]. cbn [turns flat_map fst snd turn]. destruct A as [-> | ->]; rewrite !app_nil_r; reflexivity.
      * exists ts, [VHandle e r o cs]. rewrite V1. split; [reflexivity|]. subst o. destruct C as [-> |(m & ->)]; right; (split; [exact B|]); eauto.
      * exists (ts ++ [((e, r, o, cs), true)]), []. rewrite turns_app, V1. split; [|left; split; reflexivity]. cbn [turns flat_map fst snd turn]. destruct A as [-> | ->]; rewrite !app_nil_r; reflexivity.
    + intros j rsp J. destruct PH as [[E _]|[(rsp' & B & _ & [E|(m & E)])|(m & E & _)]]; rewrite E in J; try discriminate. injection J as _ <-. exact B.
  - (* panic *)
    destruct T as [TA (rest & R1 & R2 & R3) TH (sv' & S1 & S2 & S3) (ts & tl & V1 & V2) TW]. rewrite H in *.
    constructor; rewrite ?arrived_app, ?reads_app, ?servings_app, ?view_app; cbn [arrived flat_map app reads servings request_view filter set_hd inq hd sv]; rewrite ?app_nil_r; auto; try discriminate.
    + exists rest. split; [exact R1|]. split; [exact R2|]. intro Q. now elim Q.
    + exists sv'. split; [exact S1|]. split; [intros _; now apply S2|discriminate].
    + exists ts, tl. auto.
  - apply (tinv_hd s0 l s t _ _ []) with (v := []); auto; rewrite ?H; try (cbn; discriminate); try exact Logic.I; try (intros; cbn; discriminate); [now left|].
    intros tl TL. exists []. right. split; [reflexivity|exact TL].
  - assert (TAIL := t_view _ _ _ _ T). apply (tinv_hd s0 l s t _ _ []) with (v := []); auto; rewrite ?H; try (cbn; discriminate); try exact Logic.I; try (intros; cbn; discriminate); cbn [set_hd set_ibuf hd].
    1-2: destruct rsp; discriminate. 1: intro j; destruct rsp; discriminate. 1: left; destruct rsp; reflexivity.
    + intros tl TL. exists []. cbn [tail_ok] in TL. destruct TL as [[-> ->]|[B (e & p & cs & ->)]]; [left; split; reflexivity|]. right. split; [reflexivity|]. destruct rsp; [now elim B|]. right. eauto.
    + intros j rs J. destruct rsp; [discriminate|]. injection J as _ <-. discriminate.
  - assert (TW := t_write _ _ _ _ T _ _ H). apply (tinv_hd s0 l s t _ _ [VWrite SRsp rsp ok]) with (v := [VWrite SRsp rsp ok]); auto; rewrite ?H; try (cbn; discriminate); try exact Logic.I; try (intros; cbn; discriminate); [now left|].
    intros tl TL. cbn [tail_ok] in TL. destruct TL as [[-> _]|[B (e & p & cs & ->)]]; [now elim TW|]. exists [((e, p, Some rsp, cs), ok)]. left. split; [|reflexivity]. cbn. destruct rsp; [now elim B|reflexivity].
  - apply (tinv_hd s0 l s t _ _ []) with (v := []); auto; rewrite ?H; try (cbn; discriminate); try exact Logic.I; try (intros; cbn; discriminate).
    intros tl TL. exists []. right. split; [reflexivity|exact TL].
  - apply (tinv_hd s0 l s t _ _ []) with (v := []); auto; rewrite ?H; try (cbn; discriminate); try exact Logic.I; try (intros; cbn; discriminate).
    intros tl TL. exists []. right. split; [reflexivity|exact TL].
  - (* cleaned up *)
    destruct T as [TA (rest & R1 & R2 & R3) TH (sv' & S1 & S2 & S3) (ts & tl & V1 & V2) TW]. rewrite H in *.
    constructor; rewrite ?arrived_app, ?reads_app, ?servings_app, ?view_app; cbn [arrived flat_map app reads servings request_view filter set_hd set_sv inq hd sv]; rewrite ?app_nil_r; auto; try discriminate.
    + exists rest. split; [exact R1|]. split; [exact R2|]. intro Q. rewrite (R3 NP). unfold got. rewrite H. reflexivity.
    + exists sv'. split; [exact S1|]. split; [intro Q; now elim Q|]. intros _. assert (E : sv s = sv') by (apply S2; discriminate). rewrite E in *. exists l0. split; [exact H0|reflexivity].
    + exists ts, tl. auto.
  - destruct T as [TA (rest & R1 & R2 & R3) TH (sv' & S1 & S2 & S3) (ts & tl & V1 & V2) TW]. rewrite H in *.
    constructor; rewrite ?arrived_app, ?reads_app, ?servings_app, ?view_app; cbn [arrived flat_map app reads servings request_view filter set_hd inq hd sv]; rewrite ?app_nil_r; auto; try discriminate.
    + exists rest. split; [exact R1|]. split; [exact R2|]. intro Q. now elim Q.
    + exists sv'. split; [exact S1|]. split; [intros _; now apply S2|discriminate].
    + exists ts, tl. auto.
Qed.
Lemma tinv_run : forall d rx tx s0 l s t, new_server d rx tx = Some s0 -> lrun (linit s0) l s t -> tinv s0 l s t.
Proof.
  intros d rx tx s0 l s t N H. remember (linit s0) as i eqn:E. induction H as [|s l s1 t a s2 v R IH ST]; subst; [apply tinv_init|].
  apply (tinv_step s0 l s1); auto; [eapply oinv_run; exact R|eapply kinv_run; eauto].
Qed.
