(** Proofs about M_gap: parameters over a life; a call's payload is determined. *)
Require Import Verif.Base Verif.M_uuid Verif.M_adv Verif.S_adv Verif.M_cmd Verif.P_cmd Verif.P_adv3 Verif.M_gap Verif.S_gap Verif.P_gap Verif.P_gap2 Verif.P_gap3 Verif.P_gap4.

Lemma options_advp : forall l h ok h' ok', options h ok l = (h', ok') -> h_advp h' = fold_left (fun p o => match o with OAdvParams q => q | _ => p end) l (h_advp h).
Proof.
  induction l as [|o l IH]; intros h ok h' ok' H; cbn [options] in H; [now injection H as <- _|]. destruct (apply_opt h o) as [h1 ok1] eqn:A. rewrite (IH _ _ _ _ H). cbn [fold_left]. f_equal.
  destruct o; cbn in A; injection A as <- _; reflexivity.
Qed.
Lemma hop_advp : forall step h k o h' k' ok, conforming step -> good h -> hop_ok o -> run_hop step h k o = Ret (h', k', ok) -> h_advp h' = match o with HAdv (ARaw _ _ q) => q | _ => h_advp h end.
Proof.
  intros step h k o h' k' ok C [I D] O R. destruct o as [c| |dup| |a rnd| |b]; cbn [run_hop hop_ok] in *.
  - destruct (call_conf step h k c C I O) as (h2 & k2 & ok2 & R2 & _ & _ & P & _). rewrite R in R2. injection R2 as <- <- <-. rewrite P. destruct c; reflexivity.
  - destruct (stop_conf step h k C I) as (h2 & k2 & ok2 & e & R2 & _ & H' & _). rewrite R in R2. injection R2 as <- <- <-. rewrite H'. reflexivity.
  - destruct (scan_conf step h k dup C I) as (h2 & k2 & ok2 & s & d & R2 & _ & _ & P & _). rewrite R in R2. injection R2 as <- <- <-. exact P.
  - destruct (stopscan_conf step h k C I D) as (h2 & k2 & ok2 & s & d & R2 & _ & _ & P & _). rewrite R in R2. injection R2 as <- <- <-. exact P.
  - destruct (dial_conf step h k a rnd C I O) as (h2 & k2 & ok2 & c & R2 & _ & _ & P & _). rewrite R in R2. injection R2 as <- <- <-. exact P.
  - destruct (conn_conf step h (connected k) C I) as (k2 & e & R2 & _). rewrite R2 in R. cbn [gbind] in R. now injection R as <- _ _.
  - destruct (disc_conf step b h (disconnected k) C I) as (k2 & e & R2 & _). rewrite R2 in R. cbn [gbind] in R. now injection R as <- _ _.
Qed.
Lemma lived_advp : forall step h0 k0 l h k, conforming step -> good h0 -> lived step h0 k0 l h k -> h_advp h = fold_left (fun p o => match o with HAdv (ARaw _ _ q) => q | _ => p end) l (h_advp h0).
Proof.
  intros step h0 k0 l h k C G H. induction H as [h0 k0|h0 k0 l h k o h' k' ok L IH O R]; [reflexivity|]. destruct (lived_good _ _ _ _ _ _ C G L) as (G1 & _).
  rewrite (hop_advp step h k o h' k' ok C G1 O R), fold_left_app. cbn [fold_left]. rewrite (IH G). reflexivity.
Qed.
Lemma after_good : forall step i opts l h k, conforming step -> ident_ok i -> after step i opts l h k -> good h /\ h_advp h = adv_params opts l /\
  (c_ad k = [] \/ exists c sr, In (HAdv c) l /\ asked c (c_ad k) sr) /\ (c_sr k = [] \/ exists c ad, In (HAdv c) l /\ asked c ad (c_sr k)).
Proof.
  intros step i opts l h k C IO (h0 & k0 & SU & L). destruct (set_up_good _ _ _ _ _ C IO SU) as (G & E & Q). destruct (lived_good _ _ _ _ _ _ C G L) as (G1 & A & S).
  split; [exact G1|]. split; [|destruct Q as (_ & QA & QS & _); rewrite QA in A; rewrite QS in S; now split].
  rewrite (lived_advp _ _ _ _ _ _ C G L). unfold adv_params. f_equal. destruct SU as (O & h1 & ok & OP & IN). rewrite <- (options_advp _ _ _ _ _ OP).
  destruct (options_inv opts new_host true h1 ok O new_host_ok OP) as (I & _). destruct (init_conf step i h1 (fresh i) C IO (fresh_quiet i)) as (h2 & k2 & ok2 & R & _ & _ & HE & _); [apply I|apply I|].
  rewrite IN in R. injection R as <- _ _. rewrite HE. reflexivity.
Qed.
(** the payload asked for is determined by the call *)
Lemma enc_app : forall a b, enc (a ++ b) = enc a ++ enc b.
Proof. intros a b. unfold enc. apply flat_map_app. Qed.
Lemma lsum_cons : forall a l, list_sum (a :: l) = (a + list_sum l)%nat. Proof. reflexivity. Qed.
Lemma names_len : forall (t : bytes -> Z) us, length (enc ((1, [6]) :: map (fun u => (t u, u)) us)) = (3 + list_sum (map (fun u => length u + 2) us))%nat.
Proof.
  intros t us. change ((1, [6]) :: map (fun u => (t u, u)) us) with ([(1, [6])] ++ map (fun u => (t u, u)) us). rewrite enc_app, app_length, enc_one_len. cbn [length]. f_equal.
  induction us as [|u us IH]; [reflexivity|]. change (map (fun u => (t u, u)) (u :: us)) with ([(t u, u)] ++ map (fun u => (t u, u)) us). rewrite enc_app, app_length, enc_one_len, IH. cbn [map]. rewrite lsum_cons. lia.
Qed.
Lemma prefix_one : forall (us1 us2 vs1 vs2 : list bytes), us1 ++ us2 = vs1 ++ vs2 -> (3 + list_sum (map (fun u => length u + 2) us1) <= 31)%nat -> (3 + list_sum (map (fun u => length u + 2) vs1) <= 31)%nat ->
  (forall u r, us2 = u :: r -> (31 < 3 + list_sum (map (fun u => length u + 2) us1) + length u + 2)%nat) -> (forall u r, vs2 = u :: r -> (31 < 3 + list_sum (map (fun u => length u + 2) vs1) + length u + 2)%nat) -> us1 = vs1.
Proof.
  assert (X : forall (us1 us2 vs1 vs2 : list bytes), us1 ++ us2 = vs1 ++ vs2 -> (length us1 < length vs1)%nat -> exists u r w, us2 = u :: r /\ vs1 = us1 ++ u :: w).
  { induction us1 as [|a us1 IH]; intros us2 vs1 vs2 E L; destruct vs1 as [|b vs1]; cbn [length] in L; try lia.
    - cbn [app] in E. exists b, (vs1 ++ vs2), vs1. now split.
    - injection E as -> E. destruct (IH us2 vs1 vs2 E) as (u & r & w & -> & ->); [lia|]. now exists u, r, w. }
  intros us1 us2 vs1 vs2 E L1 L2 M1 M2. destruct (Nat.lt_trichotomy (length us1) (length vs1)) as [L|[L|L]].
  - destruct (X _ _ _ _ E L) as (u & r & w & U & V). pose proof (M1 u r U) as Q. rewrite V, map_app, list_sum_app in L2. cbn [map] in L2. rewrite lsum_cons in L2. lia.
  - apply (f_equal (firstn (length us1))) in E. rewrite firstn_app, Nat.sub_diag, firstn_all in E. rewrite L, firstn_app, Nat.sub_diag, firstn_all in E. cbn [firstn] in E. now rewrite !app_nil_r in E.
  - destruct (X _ _ _ _ (eq_sym E) L) as (u & r & w & U & V). pose proof (M2 u r U) as Q. rewrite V, map_app, list_sum_app in L1. cbn [map] in L1. rewrite lsum_cons in L1. lia.
Qed.
Lemma names_one : forall name us ad sr ad' sr', names_payload name us ad sr -> names_payload name us ad' sr' -> ad = ad' /\ sr = sr'.
Proof.
  intros name us ad sr ad' sr' (u1 & u2 & b & U & B & L & M & E) (v1 & v2 & b' & V & B' & L' & M' & E').
  assert (u1 = v1) as <-.
  { apply (prefix_one u1 u2 v1 v2); [congruence|rewrite B, names_len in L; exact L|rewrite B', names_len in L'; exact L'|intros u r Q; pose proof (M u r Q) as W; rewrite B, names_len in W; exact W|intros u r Q; pose proof (M' u r Q) as W; rewrite B', names_len in W; exact W]. }
  assert (b = b') as <- by congruence. destruct (Nat.leb (length b + length name + 2) 31); destruct E as [-> ->]; destruct E' as [-> ->]; now split.
Qed.
Lemma asked_one : forall c ad sr ad' sr', asked c ad sr -> asked c ad' sr' -> ad = ad' /\ sr = sr'.
Proof.
  intros c ad sr ad' sr' (_ & _ & A) (_ & _ & A'). destruct c as [name us|name us [md|]|id md|id b|md|u major minor pwr|a s p].
  - exact (names_one _ _ _ _ _ _ A A').
  - destruct A as (a0 & s0 & N & W). destruct A' as (a1 & s1 & N' & W'). destruct (names_one _ _ _ _ _ _ N N') as [<- <-]. unfold with_mfg in *. destruct (Nat.leb (length a0 + _) 31); destruct W as [-> ->]; destruct W' as [-> ->]; now split.
  - exact (names_one _ _ _ _ _ _ A A').
  - destruct A as [-> ->]; destruct A' as [-> ->]; now split.
  - destruct A as [-> ->]; destruct A' as [-> ->]; now split.
  - destruct A as [-> ->]; destruct A' as [-> ->]; now split.
  - destruct A as (_ & -> & ->); destruct A' as (_ & -> & ->); now split.
  - destruct A as [-> ->]; destruct A' as [-> ->]; now split.
Qed.

(** scan and connection parameters *)
Lemma options_scanp : forall l h ok h' ok', options h ok l = (h', ok') -> h_scanp h' = fold_left (fun p o => match o with OScanParams q => q | _ => p end) l (h_scanp h) /\
  h_connp h' = fold_left (fun p o => match o with OConnParams q => q | _ => p end) l (h_connp h).
Proof.
  induction l as [|o l IH]; intros h ok h' ok' H; cbn [options] in H; [now injection H as <- _|]. destruct (apply_opt h o) as [h1 ok1] eqn:A. destruct (IH _ _ _ _ H) as [-> ->]. cbn [fold_left].
  destruct o; cbn in A; injection A as <- _; now split.
Qed.
Definition same_conn (p q : sval) : Prop := forall f, f <> "PeerAddress"%string -> f <> "PeerAddressType"%string -> p f = q f.
Lemma set_connp : forall K (step : controller K) h k ad sr h' k' ok, M_gap.set_advertisement step h k ad sr = Ret (h', k', ok) -> h_connp h' = h_connp h.
Proof.
  intros K step h k ad sr h' k' ok H. unfold M_gap.set_advertisement in H. destruct (_ || _); [injection H as <- _ _; reflexivity|]. unfold gbind in H at 1.
  destruct (send _ _ _ _) as [[k1 [e1|]]|] in H; try discriminate; [injection H as <- _ _; reflexivity|]. unfold gbind in H. destruct (send _ _ _ _) as [[k2 e2]|] in H; try discriminate. injection H as <- _ _. reflexivity.
Qed.
Lemma adv_connp : forall K (step : controller K) h k h' k' ok, M_gap.advertise step h k = Ret (h', k', ok) -> h_connp h' = h_connp h.
Proof.
  intros K step h k h' k' ok H. unfold M_gap.advertise in H. unfold gbind in H at 1.
  destruct (send _ _ _ _) as [[k1 [e1|]]|] in H; try discriminate; [injection H as <- _ _; reflexivity|]. unfold gbind in H. destruct (send _ _ _ _) as [[k2 e2]|] in H; try discriminate. injection H as <- _ _. reflexivity.
Qed.
Lemma hop_connp : forall step h k o h' k' ok, run_hop step h k o = Ret (h', k', ok) -> same_conn (h_connp h') (h_connp h).
Proof.
  intros step h k o h' k' ok R. assert (RF : h_connp h' = h_connp h -> same_conn (h_connp h') (h_connp h)) by (intros -> f _ _; reflexivity).
  destruct o as [c| |dup| |a rnd| |b]; cbn [run_hop] in R.
  - apply RF. rewrite run_plan in R. assert (X : forall hh kk b ad sr, (let! (h1, k1, ok1) := M_gap.set_advertisement step hh kk ad sr in if ok1 then M_gap.advertise step h1 k1 else Ret (h1, k1, b)) = Ret (h', k', ok) -> h_connp h' = h_connp hh).
    { intros hh kk b ad sr X. destruct (M_gap.set_advertisement step hh kk ad sr) as [[[h1 k1] ok1]|] eqn:S; cbn [gbind] in X; [|discriminate]. rewrite <- (set_connp _ _ _ _ _ _ _ _ _ S). destruct ok1; [exact (adv_connp _ _ _ _ _ _ _ X)|injection X as <- _ _; reflexivity]. }
    destruct (plan c) as [[ad sr]|]; [|destruct c; injection R as <- _ _; reflexivity]. destruct c; exact (X _ _ _ _ _ R).
  - apply RF. unfold stop_advertising, gbind in R. destruct (send _ _ _ _) as [[k2 e2]|] in R; try discriminate. injection R as <- _ _. reflexivity.
  - apply RF. unfold scan, gbind in R. destruct (send _ _ _ _) as [[k2 e2]|] in R; try discriminate. injection R as <- _ _. reflexivity.
  - apply RF. unfold stop_scanning, gbind in R. destruct (send _ _ _ _) as [[k2 e2]|] in R; try discriminate. injection R as <- _ _. reflexivity.
  - unfold dial in R. destruct (negb _) in R; [injection R as <- _ _; now apply RF|]. unfold gbind in R. destruct (send _ _ _ _) as [[k2 e2]|] in R; try discriminate. injection R as <- _ _.
    intros f N1 N2. cbn [h_connp with_connp]. unfold M_gap.field. rewrite (proj2 (String.eqb_neq _ _) N2), (proj2 (String.eqb_neq _ _) N1). reflexivity.
  - apply RF. unfold peripheral_connected, gbind in R. destruct (h_enable h =? 1); [destruct (send _ _ _ _) as [[k2 e2]|] in R; try discriminate|]; injection R as <- _ _; reflexivity.
  - apply RF. unfold peripheral_disconnected, gbind in R. destruct (negb b); [destruct (h_enable h =? 1); [destruct (send _ _ _ _) as [[k2 e2]|] in R; try discriminate|]|]; injection R as <- _ _; reflexivity.
Qed.
Lemma after_connp : forall step i opts l h k, conforming step -> ident_ok i -> after step i opts l h k -> same_conn (h_connp h) (conn_params opts) /\ struct_value conn_fields (conn_params opts).
Proof.
  intros step i opts l h k C IO (h0 & k0 & SU & L).
  assert (BV : same_conn (h_connp h0) (conn_params opts) /\ struct_value conn_fields (conn_params opts)).
  { destruct SU as (O & h1 & ok & OP & IN). destruct (options_scanp _ _ _ _ _ OP) as [_ Q]. destruct (options_inv opts new_host true h1 ok O new_host_ok OP) as (I & _).
    destruct (init_conf step i h1 (fresh i) C IO (fresh_quiet i)) as (h2 & k2 & ok2 & R & _ & _ & HE & _); [apply I|apply I|]. rewrite IN in R. injection R as <- _ _. rewrite HE. unfold conn_params. rewrite <- Q. split; [intros f _ _; reflexivity|apply I]. }
  destruct BV as [B V]. split; [|exact V]. clear SU V. induction L as [h0 k0|h0 k0 l h k o h' k' ok L IH O R]; [exact B|]. intros f N1 N2. rewrite (hop_connp step h k o h' k' ok R f N1 N2). exact (IH B f N1 N2).
Qed.

Definition cf1 : list (string * ftype) := [("LEScanInterval", FUint 2); ("LEScanWindow", FUint 2); ("InitiatorFilterPolicy", FUint 1)]%string.
Definition cf2 : list (string * ftype) := [("OwnAddressType", FUint 1); ("ConnIntervalMin", FUint 2); ("ConnIntervalMax", FUint 2); ("ConnLatency", FUint 2); ("SupervisionTimeout", FUint 2);
  ("MinimumCELength", FUint 2); ("MaximumCELength", FUint 2)]%string.
Lemma conn_split : forall q, struct_value conn_fields q -> exists t ad, body conn_fields q = body cf1 q ++ [t] ++ ad ++ body cf2 q /\ length (body cf1 q) = 5%nat /\ length ad = 6%nat /\ [t] = int_of q "PeerAddressType" 1 /\ ad = int_of q "PeerAddress" 6.
Proof.
  intros q V. assert (F : conn_fields = cf1 ++ [("PeerAddressType", FUint 1); ("PeerAddress", FArr 6)]%string ++ cf2) by reflexivity.
  assert (BA : forall a b, body (a ++ b) q = body a q ++ body b q) by (intros a b; unfold body; apply flat_map_app). unfold struct_value in V. rewrite F in V. apply Forall_app in V. destruct V as [V1 V]. apply Forall_app in V. destruct V as [V2 V3].
  apply Forall_cons_iff in V2. destruct V2 as [T V2]. apply Forall_cons_iff in V2. destruct V2 as [A _]. cbn [fst snd has_type] in T, A. destruct (enc_body cf1 q ltac:(noslices) V1) as [_ L1].
  destruct (q "PeerAddressType"%string) as [t|] eqn:QT; [|contradiction]. destruct (q "PeerAddress"%string) as [|ad] eqn:QA; [contradiction|]. exists (u8 t), ad. rewrite F, !BA. split; [|split; [exact L1|split; [apply A|split; [unfold int_of; rewrite QT; reflexivity|unfold int_of; now rewrite QA]]]].
  f_equal. unfold body at 1. cbn [flat_map fst snd fsize]. unfold int_of. rewrite QT, QA. cbn [le_bytes app]. now rewrite app_nil_r.
Qed.
Lemma body_same : forall fs p q, (forall f, In f (map fst fs) -> p f = q f) -> body fs p = body fs q.
Proof. induction fs as [|[n t] fs IH]; intros p q H; [reflexivity|]. unfold body in *. cbn [flat_map fst snd]. rewrite (IH p q) by (intros f IN; apply H; now right). unfold int_of. rewrite (H n) by now left. reflexivity. Qed.
