(** Proofs about M_gap: the calls against a conforming controller, over histories. *)
Require Import Verif.Base Verif.M_uuid Verif.M_adv Verif.S_adv Verif.M_cmd Verif.P_cmd Verif.P_adv3 Verif.M_gap Verif.S_gap Verif.P_gap.

Definition hinv (h : host) : Prop := length (snd (h_ad h)) = 31%nat /\ length (snd (h_sr h)) = 31%nat /\ struct_value adv_fields (h_advp h) /\ struct_value scan_fields (h_scanp h) /\
  struct_value conn_fields (h_connp h) /\ (h_enable h = 0 \/ h_enable h = 1).
Definition with_data (k : ctl) (a s : bytes) : ctl := mkC (c_id k) (c_advp k) a s (c_adv k) (c_scanp k) (c_scan k) (c_dup k) (c_mask k) (c_lemask k) (c_create k) (c_conns k).
Definition with_run (k : ctl) (p : bytes) (e : bool) : ctl := mkC (c_id k) p (c_ad k) (c_sr k) e (c_scanp k) (c_scan k) (c_dup k) (c_mask k) (c_lemask k) (c_create k) (c_conns k).
Definition with_scanning (k : ctl) (s d : bool) : ctl := mkC (c_id k) (c_advp k) (c_ad k) (c_sr k) (c_adv k) (c_scanp k) s d (c_mask k) (c_lemask k) (c_create k) (c_conns k).
Definition with_create (k : ctl) (a : option bytes) : ctl := mkC (c_id k) (c_advp k) (c_ad k) (c_sr k) (c_adv k) (c_scanp k) (c_scan k) (c_dup k) (c_mask k) (c_lemask k) a (c_conns k).
Lemma eta_data : forall k, k = with_data k (c_ad k) (c_sr k). Proof. now intros []. Qed.
Lemma eta_run : forall k, k = with_run k (c_advp k) (c_adv k). Proof. now intros []. Qed.
Lemma eta_scan : forall k, k = with_scanning k (c_scan k) (c_dup k). Proof. now intros []. Qed.
Lemma eta_create : forall k, k = with_create k (c_create k). Proof. now intros []. Qed.
Lemma gcopy_full : forall arr d, length arr = 31%nat -> (length d <= 31)%nat -> length (gcopy arr d) = 31%nat /\ firstn (length d) (gcopy arr d) = d.
Proof.
  intros arr d L D. unfold gcopy. rewrite L, (firstn_all2 d D). split; [rewrite app_length, skipn_length; lia|]. rewrite firstn_app, firstn_all, Nat.sub_diag. cbn [firstn]. apply app_nil_r.
Qed.
Lemma eff_ad : forall k arr d, length arr = 31%nat -> (length d <= 31)%nat -> effect k ([1; 8; 32; 32; u8 (u8 (Z.of_nat (length d)))] ++ gcopy arr d) = with_data k d (c_sr k).
Proof.
  intros k arr d L D. assert (U : u8 (u8 (Z.of_nat (length d))) = Z.of_nat (length d)) by (unfold u8; rewrite !Z.mod_small by lia; reflexivity). rewrite U.
  change (effect k ([1; 8; 32; 32; Z.of_nat (length d)] ++ gcopy arr d)) with (with_data k (firstn (Z.to_nat (Z.of_nat (length d))) (gcopy arr d)) (c_sr k)). rewrite Nat2Z.id.
  now rewrite (proj2 (gcopy_full arr d L D)).
Qed.
Lemma eff_sr : forall k arr d, length arr = 31%nat -> (length d <= 31)%nat -> effect k ([1; 9; 32; 32; u8 (u8 (Z.of_nat (length d)))] ++ gcopy arr d) = with_data k (c_ad k) d.
Proof.
  intros k arr d L D. assert (U : u8 (u8 (Z.of_nat (length d))) = Z.of_nat (length d)) by (unfold u8; rewrite !Z.mod_small by lia; reflexivity). rewrite U.
  change (effect k ([1; 9; 32; 32; Z.of_nat (length d)] ++ gcopy arr d)) with (with_data k (c_ad k) (firstn (Z.to_nat (Z.of_nat (length d))) (gcopy arr d))). rewrite Nat2Z.id.
  now rewrite (proj2 (gcopy_full arr d L D)).
Qed.
Lemma eff_advp : forall k b, effect k ([1; 6; 32; 15] ++ b) = with_run k b (c_adv k). Proof. reflexivity. Qed.
Lemma eff_enable : forall k e, e = 0 \/ e = 1 -> effect k [1; 10; 32; 1; u8 e] = with_run k (c_advp k) (e =? 1). Proof. intros k e [-> | ->]; reflexivity. Qed.
Lemma eff_scan : forall k e d, e = 0 \/ e = 1 -> d = 0 \/ d = 1 -> effect k [1; 12; 32; 2; u8 e; u8 d] = with_scanning k (e =? 1) (d =? 1). Proof. intros k e d [-> | ->] [-> | ->]; reflexivity. Qed.
Lemma eff_create : forall k b, effect k ([1; 13; 32; 25] ++ b) = with_create k (Some b). Proof. reflexivity. Qed.

(** SetAdvertisement *)
Definition set_host (h : host) (ad sr : bytes) : host := with_sr (with_ad h (u8 (Z.of_nat (length ad)), gcopy (snd (h_ad h)) ad)) (u8 (Z.of_nat (length sr)), gcopy (snd (h_sr h)) sr).
Lemma set_conf : forall step h k ad sr, conforming step -> hinv h -> (length ad <= 31)%nat -> (length sr <= 31)%nat ->
  exists h' k' ok, M_gap.set_advertisement step h k ad sr = Ret (h', k', ok) /\ hinv h' /\ h_advp h' = h_advp h /\ h_enable h' = h_enable h /\ h_dup h' = h_dup h /\
    (exists a s, k' = with_data k a s /\ (a = c_ad k \/ a = ad) /\ (s = c_sr k \/ s = sr) /\ (ok = true -> a = ad /\ s = sr)).
Proof.
  intros step h k ad sr C (L1 & L2 & I3 & I4 & I5 & I6) LA LS. unfold M_gap.set_advertisement, MaxEIR. rewrite (proj2 (Nat.ltb_ge _ _) LA), (proj2 (Nat.ltb_ge _ _) LS). cbn [orb].
  destruct (gcopy_full (snd (h_ad h)) ad L1 LA) as [G1 _]. destruct (gcopy_full (snd (h_sr h)) sr L2 LS) as [G2 _]. cbn [h_ad with_ad].
  destruct (send_conf step k _ _ _ C (pk_ad (u8 (Z.of_nat (length ad))) (gcopy (snd (h_ad h)) ad) G1)) as (k1 & e1 & S1 & O1). rewrite S1. cbn [gbind]. rewrite (eff_ad k _ _ L1 LA) in O1.
  assert (K1 : exists a, k1 = with_data k a (c_sr k) /\ (a = c_ad k \/ a = ad) /\ (e1 = None -> a = ad)).
  { destruct O1 as [(E & -> & _)|(E & [-> | ->])]; [exists ad|exists (c_ad k)|exists ad]; (split; [try reflexivity; apply eta_data|split; [tauto|tauto]]). }
  destruct K1 as (a & -> & A1 & A2). destruct e1 as [e1|].
  - eexists. eexists. exists false. split; [reflexivity|]. split; [repeat split; assumption|]. repeat (split; [reflexivity|]). exists a, (c_sr k). split; [reflexivity|]. split; [exact A1|]. split; [now left|discriminate].
  - cbn [h_sr with_sr with_ad]. destruct (send_conf step (with_data k a (c_sr k)) _ _ _ C (pk_sr (u8 (Z.of_nat (length sr))) (gcopy (snd (h_sr h)) sr) G2)) as (k2 & e2 & S2 & O2). rewrite S2. cbn [gbind].
    rewrite (eff_sr _ _ _ L2 LS) in O2. cbn [with_data c_ad] in O2. eexists. eexists. eexists. split; [reflexivity|]. split; [repeat split; assumption|]. repeat (split; [reflexivity|]).
    destruct O2 as [(E & -> & _)|(E & [-> | ->])].
    + exists a, sr. split; [reflexivity|]. split; [exact A1|]. split; [now right|]. intros _. split; [now apply A2|reflexivity].
    + exists a, (c_sr k). split; [reflexivity|]. split; [exact A1|]. split; [now left|]. destruct e2; [discriminate|congruence].
    + exists a, sr. split; [reflexivity|]. split; [exact A1|]. split; [now right|]. intros _. split; [now apply A2|reflexivity].
Qed.
Lemma set_will : forall step h k ad sr, willing step -> hinv h -> (length ad <= 31)%nat -> (length sr <= 31)%nat ->
  M_gap.set_advertisement step h k ad sr = Ret (set_host h ad sr, with_data k ad sr, true).
Proof.
  intros step h k ad sr C (L1 & L2 & I3 & I4 & I5 & I6) LA LS. unfold M_gap.set_advertisement, MaxEIR. rewrite (proj2 (Nat.ltb_ge _ _) LA), (proj2 (Nat.ltb_ge _ _) LS). cbn [orb].
  destruct (gcopy_full (snd (h_ad h)) ad L1 LA) as [G1 _]. destruct (gcopy_full (snd (h_sr h)) sr L2 LS) as [G2 _]. cbn [h_ad with_ad].
  rewrite (send_will step k _ _ _ C (pk_ad (u8 (Z.of_nat (length ad))) (gcopy (snd (h_ad h)) ad) G1)) by reflexivity. cbn [gbind]. rewrite (eff_ad k _ _ L1 LA). cbn [h_sr with_sr with_ad].
  rewrite (send_will step (with_data k ad (c_sr k)) _ _ _ C (pk_sr (u8 (Z.of_nat (length sr))) (gcopy (snd (h_sr h)) sr) G2)) by reflexivity. cbn [gbind]. rewrite (eff_sr _ _ _ L2 LS). reflexivity.
Qed.
Lemma set_host_inv : forall h ad sr, hinv h -> (length ad <= 31)%nat -> (length sr <= 31)%nat -> hinv (set_host h ad sr).
Proof. intros h ad sr (L1 & L2 & I) A S. split; [apply gcopy_full; assumption|]. split; [apply gcopy_full; assumption|exact I]. Qed.
(** Advertise *)
Lemma adv_conf : forall step h k, conforming step -> hinv h -> exists h' k' ok, M_gap.advertise step h k = Ret (h', k', ok) /\ hinv h' /\ h_advp h' = h_advp h /\ (h_enable h' = h_enable h \/ h_enable h' = 1) /\ h_dup h' = h_dup h /\
  (exists p e, k' = with_run k p e /\ (p = c_advp k \/ p = body adv_fields (h_advp h)) /\ (e = c_adv k \/ e = true) /\ (ok = true -> p = body adv_fields (h_advp h) /\ e = true /\ h_enable h' = 1)).
Proof.
  intros step h k C (L1 & L2 & I3 & I4 & I5 & I6). unfold M_gap.advertise. destruct (send_conf step k _ _ _ C (pk_advp _ I3)) as (k1 & e1 & S1 & O1). rewrite S1. cbn [gbind]. rewrite eff_advp in O1.
  assert (K1 : exists p, k1 = with_run k p (c_adv k) /\ (p = c_advp k \/ p = body adv_fields (h_advp h)) /\ (e1 = None -> p = body adv_fields (h_advp h))).
  { destruct O1 as [(E & -> & _)|(E & [-> | ->])]; [exists (body adv_fields (h_advp h))|exists (c_advp k)|exists (body adv_fields (h_advp h))]; (split; [try reflexivity; apply eta_run|split; [tauto|tauto]]). }
  destruct K1 as (p & -> & A1 & A2). destruct e1 as [e1|].
  - eexists. eexists. exists false. split; [reflexivity|]. split; [repeat split; assumption|]. split; [reflexivity|]. split; [now left|]. split; [reflexivity|]. exists p, (c_adv k). split; [reflexivity|]. split; [exact A1|]. split; [now left|discriminate].
  - cbn [h_enable with_enable]. destruct (send_conf step (with_run k p (c_adv k)) _ _ _ C (pk_enable 1)) as (k2 & e2 & S2 & O2). rewrite S2. cbn [gbind]. rewrite eff_enable in O2 by now right. cbn [with_run c_advp Z.eqb Pos.eqb] in O2.
    eexists. eexists. eexists. split; [reflexivity|]. split; [repeat split; try assumption; now right|]. split; [reflexivity|]. split; [now right|]. split; [reflexivity|].
    destruct O2 as [(E & -> & _)|(E & [-> | ->])].
    + exists p, true. split; [reflexivity|]. split; [exact A1|]. split; [now right|]. intros _. split; [now apply A2|now split].
    + exists p, (c_adv k). split; [reflexivity|]. split; [exact A1|]. split; [now left|]. destruct e2; [discriminate|congruence].
    + exists p, true. split; [reflexivity|]. split; [exact A1|]. split; [now right|]. intros _. split; [now apply A2|now split].
Qed.
Lemma adv_will : forall step h k, willing step -> hinv h -> c_adv k = false -> M_gap.advertise step h k = Ret (with_enable h 1, with_run k (body adv_fields (h_advp h)) true, true).
Proof.
  intros step h k C (L1 & L2 & I3 & I4 & I5 & I6) Q. unfold M_gap.advertise. rewrite (send_will step k _ _ _ C (pk_advp _ I3)) by (unfold disallowed; rewrite Q; reflexivity). cbn [gbind]. rewrite eff_advp.
  rewrite (send_will step _ _ _ _ C (pk_enable 1)) by reflexivity. cbn [gbind]. rewrite eff_enable by now right. reflexivity.
Qed.
Lemma adv_busy : forall step h k, conforming step -> hinv h -> c_adv k = true -> exists h' k', M_gap.advertise step h k = Ret (h', k', false).
Proof.
  intros step h k C (L1 & L2 & I3 & I4 & I5 & I6) Q. unfold M_gap.advertise. destruct (send_conf step k _ _ _ C (pk_advp _ I3)) as (k1 & e1 & S1 & O1). rewrite S1. cbn [gbind].
  destruct O1 as [(_ & _ & D)|(E & _)]; [unfold disallowed in D; rewrite Q in D; cbn in D; discriminate|]. destruct e1; [eexists; eexists; reflexivity|congruence].
Qed.
(** an advertising call *)
Definition base_host (h : host) (c : acall) : host := match c with ARaw _ _ p => with_advp h p | _ => h end.
Lemma base_inv : forall h c, hinv h -> call_ok c -> hinv (base_host h c) /\ h_advp (base_host h c) = params_for c (h_advp h).
Proof. intros h [ | | | | | |ad sr p] I O; (split; [|reflexivity]); try exact I. destruct I as (L1 & L2 & I3 & I4 & I5 & I6). repeat split; assumption. Qed.
Lemma call_conf : forall step h k c, conforming step -> hinv h -> call_ok c -> exists h' k' ok, run_acall step h k c = Ret (h', k', ok) /\ hinv h' /\ (h_enable h' = h_enable h \/ h_enable h' = 1) /\ h_advp h' = params_for c (h_advp h) /\ h_dup h' = h_dup h /\
  (exists a s p e, k' = with_run (with_data k a s) p e /\ (a = c_ad k \/ exists sr, asked c a sr) /\ (s = c_sr k \/ exists ad, asked c ad s) /\ (p = c_advp k \/ p = body adv_fields (params_for c (h_advp h))) /\ (e = c_adv k \/ e = true) /\
    (refused c -> ok = false /\ k' = k) /\
    (ok = true -> (asked c a s /\ p = body adv_fields (params_for c (h_advp h)) /\ e = true /\ h_enable h' = 1) \/ (p = c_advp k /\ e = c_adv k /\ h_enable h' = h_enable h /\ forall p sr ad, c <> ARaw ad sr p))).
Proof.
  intros step h k c C I O. rewrite run_plan. pose proof (plan_asked c) as PA. destruct (base_inv h c I O) as [BI BP]. destruct (plan c) as [[ad sr]|].
  - destruct PA as [A NR]. assert (LL : (length ad <= 31)%nat /\ (length sr <= 31)%nat) by (destruct A as (A1 & A2 & _); now split). destruct LL as [LA LS].
    destruct (set_conf step (base_host h c) k ad sr C BI LA LS) as (h1 & k1 & ok1 & S1 & I1 & P1 & E1 & D1 & a & s & K1 & A1 & A2 & A3).
    assert (BE : h_enable (base_host h c) = h_enable h) by (destruct c; reflexivity). assert (BD : h_dup (base_host h c) = h_dup h) by (destruct c; reflexivity).
    destruct ok1.
    + destruct (A3 eq_refl) as [-> ->]. destruct (adv_conf step h1 k1 C I1) as (h2 & k2 & ok2 & S2 & I2 & P2 & E2 & D2 & p & e & K2 & B1 & B2 & B3).
      assert (R : match c with ARaw _ _ p => let! (h, k, ok) := M_gap.set_advertisement step (with_advp h p) k ad sr in if ok then M_gap.advertise step h k else Ret (h, k, false)
                             | _ => M_gap.advertise_with step h k ad sr end = Ret (h2, k2, ok2)).
      { unfold M_gap.advertise_with. destruct c; cbn [base_host] in S1; rewrite S1; cbn [gbind]; exact S2. }
      exists h2, k2, ok2. split; [exact R|]. split; [exact I2|]. split; [destruct E2 as [-> | ->]; [left; congruence|now right]|]. split; [rewrite P2, P1; exact BP|]. split; [rewrite D2, D1; exact BD|].
      exists ad, sr, p, e. rewrite P1, BP in B1, B3. split; [rewrite K2, K1; reflexivity|]. split; [right; now exists sr|]. split; [right; now exists ad|].
      split; [destruct B1 as [-> | ->]; [left; rewrite K1; reflexivity|now right]|]. split; [destruct B2 as [-> | ->]; [left; rewrite K1; reflexivity|now right]|].
      split; [intro X; now elim NR|]. intro Q. left. split; [exact A|]. exact (B3 Q).
    + assert (R : exists okf, match c with ARaw _ _ p => let! (h, k, ok) := M_gap.set_advertisement step (with_advp h p) k ad sr in if ok then M_gap.advertise step h k else Ret (h, k, false)
                             | _ => M_gap.advertise_with step h k ad sr end = Ret (h1, k1, okf) /\ (okf = true -> forall p sr ad, c <> ARaw ad sr p)).
      { unfold M_gap.advertise_with. destruct c; cbn [base_host] in S1; rewrite S1; cbn [gbind]; eexists; (split; [reflexivity|]); discriminate || (intros; discriminate). }
      destruct R as (okf & R & RN). exists h1, k1, okf. split; [exact R|]. split; [exact I1|]. split; [left; congruence|]. split; [rewrite P1; exact BP|]. split; [rewrite D1; exact BD|].
      exists a, s, (c_advp k), (c_adv k). split; [rewrite K1; destruct k; reflexivity|].
      split; [destruct A1 as [A1|A1]; [now left|right; exists sr; rewrite A1; exact A]|]. split; [destruct A2 as [A2|A2]; [now left|right; exists ad; rewrite A2; exact A]|].
      split; [now left|]. split; [now left|]. split; [intro X; now elim NR|]. intro Q. right. split; [reflexivity|]. split; [reflexivity|]. split; [congruence|exact (RN Q)].
  - exists (base_host h c), k, false. split; [reflexivity|]. split; [exact BI|]. split; [left; destruct c; reflexivity|]. split; [exact BP|]. split; [destruct c; reflexivity|].
    exists (c_ad k), (c_sr k), (c_advp k), (c_adv k). split; [destruct k; reflexivity|]. split; [now left|]. split; [now left|]. split; [now left|]. split; [now left|]. split; [now split|discriminate].
Qed.
Lemma call_will : forall step h k c, willing step -> hinv h -> call_ok c -> ~ refused c -> c_adv k = false ->
  exists h' ad sr, asked c ad sr /\ run_acall step h k c = Ret (h', with_run (with_data k ad sr) (body adv_fields (params_for c (h_advp h))) true, true) /\ h_enable h' = 1.
Proof.
  intros step h k c W I O NR Q. pose proof (plan_asked c) as PA. destruct (base_inv h c I O) as [BI BP]. destruct (plan c) as [[ad sr]|] eqn:PL; [|now elim NR]. destruct PA as [A _].
  assert (LL : (length ad <= 31)%nat /\ (length sr <= 31)%nat) by (destruct A as (A1 & A2 & _); now split). destruct LL as [LA LS].
  exists (with_enable (set_host (base_host h c) ad sr) 1), ad, sr. split; [exact A|]. split; [|reflexivity]. rewrite run_plan, PL.
  pose proof (set_will step (base_host h c) k ad sr W BI LA LS) as S1. pose proof (adv_will step (set_host (base_host h c) ad sr) (with_data k ad sr) W (set_host_inv _ _ _ BI LA LS) Q) as S2.
  assert (P2 : h_advp (set_host (base_host h c) ad sr) = params_for c (h_advp h)) by (rewrite <- BP; reflexivity). rewrite P2 in S2.
  unfold M_gap.advertise_with. destruct c; cbn [base_host] in *; rewrite S1; cbn [gbind]; exact S2.
Qed.
Lemma call_busy : forall step h k c, conforming step -> willing step -> hinv h -> call_ok c -> ~ refused c -> c_adv k = true ->
  exists h' k' ad sr, asked c ad sr /\ run_acall step h k c = Ret (h', k', false) /\ c_ad k' = ad /\ c_sr k' = sr /\ c_adv k' = true.
Proof.
  intros step h k c C W I O NR Q. pose proof (plan_asked c) as PA. destruct (base_inv h c I O) as [BI BP]. destruct (plan c) as [[ad sr]|] eqn:PL; [|now elim NR]. destruct PA as [A _].
  assert (LL : (length ad <= 31)%nat /\ (length sr <= 31)%nat) by (destruct A as (A1 & A2 & _); now split). destruct LL as [LA LS].
  pose proof (set_will step (base_host h c) k ad sr W BI LA LS) as S1. pose proof (set_host_inv _ ad sr BI LA LS) as SI.
  destruct (adv_busy step _ (with_data k ad sr) C SI Q) as (h2 & k2 & S2).
  destruct (adv_conf step _ (with_data k ad sr) C SI) as (h3 & k3 & ok3 & S3 & _ & _ & _ & _ & p & e & K3 & _ & E3 & _). rewrite S2 in S3. injection S3 as <- <- <-.
  exists h2, k2, ad, sr. split; [exact A|]. split.
  - rewrite run_plan, PL. unfold M_gap.advertise_with. destruct c; cbn [base_host] in *; rewrite S1; cbn [gbind]; exact S2.
  - rewrite K3. cbn. repeat split. destruct E3 as [-> | ->]; [exact Q|reflexivity].
Qed.
