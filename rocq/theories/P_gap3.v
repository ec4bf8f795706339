(** Proofs about M_gap: the remaining calls, histories, set-up. *)
Require Import Verif.Base Verif.M_uuid Verif.M_adv Verif.S_adv Verif.M_cmd Verif.P_cmd Verif.P_adv3 Verif.M_gap Verif.S_gap Verif.P_gap Verif.P_gap2.

Lemma stop_conf : forall step h k, conforming step -> hinv h -> exists h' k' ok e, stop_advertising step h k = Ret (h', k', ok) /\ hinv h' /\ h' = with_enable h 0 /\ k' = with_run k (c_advp k) e /\ (e = c_adv k \/ e = false) /\ (ok = true -> e = false).
Proof.
  intros step h k C (L1 & L2 & I3 & I4 & I5 & I6). unfold stop_advertising. cbn [h_enable with_enable]. destruct (send_conf step k _ _ _ C (pk_enable 0)) as (k2 & e2 & S2 & O2). rewrite S2. cbn [gbind]. rewrite eff_enable in O2 by now left. cbn [Z.eqb] in O2.
  assert (X : exists e, k2 = with_run k (c_advp k) e /\ (e = c_adv k \/ e = false) /\ (e2 = None -> e = false)).
  { destruct O2 as [(E & -> & _)|(E & [-> | ->])]; [exists false|exists (c_adv k)|exists false]; (split; [try reflexivity; apply eta_run|split; tauto]). }
  destruct X as (e & X1 & X2 & X3). eexists. eexists. eexists. exists e. split; [reflexivity|]. split; [repeat split; try assumption; now left|]. split; [reflexivity|]. split; [exact X1|]. split; [exact X2|]. destruct e2; [discriminate|intros _; now apply X3].
Qed.
Lemma stop_will : forall step h k, willing step -> stop_advertising step h k = Ret (with_enable h 0, with_run k (c_advp k) false, true).
Proof. intros step h k W. unfold stop_advertising. cbn [h_enable with_enable]. rewrite (send_will step k _ _ _ W (pk_enable 0)) by reflexivity. cbn [gbind]. rewrite eff_enable by now left. reflexivity. Qed.
Lemma scan_conf : forall step h k dup, conforming step -> hinv h -> exists h' k' ok s d, scan step h k dup = Ret (h', k', ok) /\ hinv h' /\ h_enable h' = h_enable h /\ h_advp h' = h_advp h /\ h_dup h' = (if dup then 0 else 1) /\
  k' = with_scanning k s d /\ (ok = true -> s = true /\ d = negb dup).
Proof.
  intros step h k dup C I. unfold scan. destruct (send_conf step k _ _ _ C (pk_scan (with_scan h 1 (if dup then 0 else 1)))) as (k2 & e2 & S2 & O2). cbn [h_scan h_dup with_scan] in S2, O2. cbn [scan_struct] in *. rewrite S2. cbn [gbind].
  rewrite eff_scan in O2 by (try (destruct dup; tauto); now right).
  assert (X : exists s d, k2 = with_scanning k s d /\ (e2 = None -> s = true /\ d = negb dup)).
  { destruct O2 as [(E & -> & _)|(E & [-> | ->])]; [exists true, (negb dup)|exists (c_scan k), (c_dup k)|exists true, (negb dup)]; (split; [try apply eta_scan; destruct dup; reflexivity|tauto]). }
  destruct X as (s & d & X1 & X2). eexists. eexists. eexists. exists s, d. split; [reflexivity|]. split; [exact I|]. repeat (split; [reflexivity|]). split; [exact X1|]. destruct e2; [discriminate|intros _; now apply X2].
Qed.
Lemma scan_will : forall step h k dup, willing step -> scan step h k dup = Ret (with_scan h 1 (if dup then 0 else 1), with_scanning k true (negb dup), true).
Proof. intros step h k dup W. unfold scan. rewrite (send_will step k _ _ _ W (pk_scan (with_scan h 1 (if dup then 0 else 1)))) by reflexivity. cbn [gbind h_scan h_dup with_scan]. rewrite eff_scan by (try (destruct dup; tauto); now right). destruct dup; reflexivity. Qed.
Lemma stopscan_conf : forall step h k, conforming step -> hinv h -> h_dup h = 0 \/ h_dup h = 1 -> exists h' k' ok s d, stop_scanning step h k = Ret (h', k', ok) /\ hinv h' /\ h_enable h' = h_enable h /\ h_advp h' = h_advp h /\ h_dup h' = h_dup h /\
  k' = with_scanning k s d /\ (ok = true -> s = false).
Proof.
  intros step h k C I D. unfold stop_scanning. destruct (send_conf step k _ _ _ C (pk_scan (with_scan h 0 (h_dup h)))) as (k2 & e2 & S2 & O2). cbn [h_scan h_dup with_scan] in S2, O2. rewrite S2. cbn [gbind].
  rewrite eff_scan in O2 by (assumption || now left).
  assert (X : exists s d, k2 = with_scanning k s d /\ (e2 = None -> s = false)).
  { destruct O2 as [(E & -> & _)|(E & [-> | ->])]; [eexists; eexists|exists (c_scan k), (c_dup k)|eexists; eexists]; (split; [try apply eta_scan; reflexivity|]); intro Q; reflexivity || congruence. }
  destruct X as (s & d & X1 & X2). eexists. eexists. eexists. exists s, d. split; [reflexivity|]. split; [exact I|]. repeat (split; [reflexivity|]). split; [exact X1|]. destruct e2; [discriminate|intros _; now apply X2].
Qed.
Lemma stopscan_will : forall step h k, willing step -> h_dup h = 0 \/ h_dup h = 1 -> exists d, stop_scanning step h k = Ret (with_scan h 0 (h_dup h), with_scanning k false d, true).
Proof. intros step h k W D. unfold stop_scanning. rewrite (send_will step k _ _ _ W (pk_scan (with_scan h 0 (h_dup h)))) by reflexivity. cbn [gbind h_scan h_dup with_scan]. rewrite eff_scan by (assumption || now left). eexists. reflexivity. Qed.
(** Dial *)
Definition dial_params (p : sval) (a : bytes) (rnd : bool) : sval := field "PeerAddressType" (GInt (if rnd then 1 else 0)) (field "PeerAddress" (GBytes (rev a)) p).
Lemma dial_params_ok : forall p a rnd, struct_value conn_fields p -> all_bytes a -> length a = 6%nat -> struct_value conn_fields (dial_params p a rnd).
Proof.
  intros p a rnd V B L. unfold struct_value, conn_fields in *. repeat (apply Forall_cons_iff in V; let V1 := fresh "V" in destruct V as [V1 V]). cbn [fst snd] in *.
  repeat (apply Forall_cons; [cbn [fst snd]; first [assumption|idtac]|]); try apply Forall_nil.
  - cbn. destruct rnd; lia.
  - cbn [dial_params field String.eqb Ascii.eqb Bool.eqb has_type]. split; [rewrite rev_length; exact L|]. apply Forall_rev. exact B.
Qed.
Lemma dial_conf : forall step h k a rnd, conforming step -> hinv h -> all_bytes a -> exists h' k' ok c, dial step h k a rnd = Ret (h', k', ok) /\ hinv h' /\ h_enable h' = h_enable h /\ h_advp h' = h_advp h /\ h_dup h' = h_dup h /\
  k' = with_create k c /\ (length a <> 6%nat -> ok = false /\ k' = k) /\ (ok = true -> c = Some (body conn_fields (dial_params (h_connp h) a rnd))).
Proof.
  intros step h k a rnd C I B. unfold dial. destruct (Nat.eqb_spec (length a) 6) as [L|L]; cbn [negb].
  - pose proof I as (L1 & L2 & I3 & I4 & I5 & I6). pose proof (dial_params_ok _ _ rnd I5 B L) as DP. cbn [h_connp with_connp]. change (field "PeerAddressType" (GInt (if rnd then 1 else 0)) (field "PeerAddress" (GBytes (rev a)) (h_connp h))) with (dial_params (h_connp h) a rnd).
    destruct (send_conf step k _ _ _ C (pk_create _ DP)) as (k2 & e2 & S2 & O2). rewrite S2. cbn [gbind]. rewrite eff_create in O2.
    assert (X : exists c, k2 = with_create k c /\ (e2 = None -> c = Some (body conn_fields (dial_params (h_connp h) a rnd)))).
    { destruct O2 as [(E & -> & _)|(E & [-> | ->])]; [eexists|exists (c_create k)|eexists]; (split; [try apply eta_create; reflexivity|]); intro Q; reflexivity || congruence. }
    destruct X as (c & X1 & X2). eexists. eexists. eexists. exists c. split; [reflexivity|]. split; [repeat split; assumption|]. repeat (split; [reflexivity|]). split; [exact X1|]. split; [lia|]. destruct e2; [discriminate|intros _; now apply X2].
  - exists h, k, false, (c_create k). split; [reflexivity|]. split; [exact I|]. repeat (split; [reflexivity|]). split; [apply eta_create|]. split; [now split|discriminate].
Qed.
(** connections as peripheral *)
Lemma conn_conf : forall step h k, conforming step -> hinv h -> exists k' e, peripheral_connected step h k = Ret (h, k') /\ k' = with_run k (c_advp k) e /\ (e = c_adv k \/ (e = true /\ h_enable h = 1)).
Proof.
  intros step h k C (L1 & L2 & I3 & I4 & I5 & I6). unfold peripheral_connected. destruct (h_enable h =? 1) eqn:E; [|exists k, (c_adv k); split; [reflexivity|]; split; [apply eta_run|now left]].
  apply Z.eqb_eq in E. destruct (send_conf step k _ _ _ C (pk_enable (h_enable h))) as (k2 & e2 & S2 & O2). rewrite S2. cbn [gbind]. rewrite eff_enable in O2 by assumption. rewrite E in O2. cbn [Z.eqb Pos.eqb] in O2.
  destruct O2 as [(_ & -> & _)|(_ & [-> | ->])]; eexists; [exists true|exists (c_adv k)|exists true]; (split; [reflexivity|]); (split; [try reflexivity; apply eta_run|]); tauto.
Qed.
Lemma conn_will : forall step h k, willing step -> h_enable h = 1 -> peripheral_connected step h k = Ret (h, with_run k (c_advp k) true).
Proof. intros step h k W E. unfold peripheral_connected. rewrite E. cbn [Z.eqb Pos.eqb]. rewrite (send_will step k _ _ _ W (pk_enable 1)) by reflexivity. cbn [gbind]. rewrite eff_enable by now right. reflexivity. Qed.
Lemma disc_conf : forall step b h k, conforming step -> hinv h -> exists k' e, peripheral_disconnected step b h k = Ret (h, k') /\ k' = with_run k (c_advp k) e /\ (e = c_adv k \/ (e = true /\ h_enable h = 1)).
Proof.
  intros step b h k C I. unfold peripheral_disconnected. destruct b; cbn [negb]; [exists k, (c_adv k); split; [reflexivity|]; split; [apply eta_run|now left]|]. exact (conn_conf step h k C I).
Qed.

(** every step of a history *)
Definition shown_ad (l : list hop) (a : bytes) : Prop := a = [] \/ exists c sr, In (HAdv c) l /\ asked c a sr.
Definition shown_sr (l : list hop) (s : bytes) : Prop := s = [] \/ exists c ad, In (HAdv c) l /\ asked c ad s.
Definition good (h : host) : Prop := hinv h /\ (h_dup h = 0 \/ h_dup h = 1).
Lemma hop_conf : forall step h k o, conforming step -> good h -> hop_ok o -> exists h' k' ok, run_hop step h k o = Ret (h', k', ok) /\ good h' /\
  (c_ad k' = c_ad k \/ exists c sr, o = HAdv c /\ asked c (c_ad k') sr) /\ (c_sr k' = c_sr k \/ exists c ad, o = HAdv c /\ asked c ad (c_sr k')) /\
  (c_adv k' = true -> c_adv k = true \/ h_enable h = 1 \/ exists c, o = HAdv c) /\ (h_enable h' = 1 -> h_enable h = 1 \/ exists c, o = HAdv c).
Proof.
  intros step h k o C [I D] O. destruct o as [c| |dup| |a rnd| |b]; cbn [run_hop hop_ok] in *.
  - destruct (call_conf step h k c C I O) as (h' & k' & ok & R & I' & E' & _ & D' & a & s & p & e & K & A & S & _). exists h', k', ok. split; [exact R|]. split; [split; [exact I'|rewrite D'; exact D]|].
    rewrite K. cbn. split; [destruct A as [A|[sr A]]; [now left|right; now exists c, sr]|]. split; [destruct S as [S|[ad S]]; [now left|right; now exists c, ad]|]. split; intros _; right; try right; now exists c.
  - destruct (stop_conf step h k C I) as (h' & k' & ok & e & R & I' & H' & K & E & _). exists h', k', ok. split; [exact R|]. split; [split; [exact I'|rewrite H'; exact D]|]. rewrite K, H'. cbn. split; [now left|]. split; [now left|].
    split; [intro Q; left; destruct E as [E|E]; congruence|discriminate].
  - destruct (scan_conf step h k dup C I) as (h' & k' & ok & s & d & R & I' & E' & _ & D' & K & _). exists h', k', ok. split; [exact R|]. split; [split; [exact I'|rewrite D'; destruct dup; tauto]|]. rewrite K, E'. cbn. tauto.
  - destruct (stopscan_conf step h k C I D) as (h' & k' & ok & s & d & R & I' & E' & _ & D' & K & _). exists h', k', ok. split; [exact R|]. split; [split; [exact I'|rewrite D'; exact D]|]. rewrite K, E'. cbn. tauto.
  - destruct (dial_conf step h k a rnd C I O) as (h' & k' & ok & c & R & I' & E' & _ & D' & K & _). exists h', k', ok. split; [exact R|]. split; [split; [exact I'|rewrite D'; exact D]|]. rewrite K, E'. cbn. tauto.
  - destruct (conn_conf step h (connected k) C I) as (k' & e & R & K & E). rewrite R. exists h, k', true. split; [reflexivity|]. split; [now split|]. rewrite K. cbn in *. split; [now left|]. split; [now left|]. split; [intro Q; right; left; destruct E as [E|E]; [congruence|tauto]|tauto].
  - destruct (disc_conf step b h (disconnected k) C I) as (k' & e & R & K & E). rewrite R. exists h, k', true. split; [reflexivity|]. split; [now split|]. rewrite K. cbn in *. split; [now left|]. split; [now left|]. split; [intro Q; destruct E as [E|E]; [left; congruence|tauto]|tauto].
Qed.
Lemma lived_good : forall step h0 k0 l h k, conforming step -> good h0 -> lived step h0 k0 l h k -> good h /\ (c_ad k = c_ad k0 \/ exists c sr, In (HAdv c) l /\ asked c (c_ad k) sr) /\ (c_sr k = c_sr k0 \/ exists c ad, In (HAdv c) l /\ asked c ad (c_sr k)).
Proof.
  intros step h0 k0 l h k C G H. induction H as [h0 k0|h0 k0 l h k o h' k' ok L IH O R]; [split; [exact G|split; now left]|]. destruct (IH G) as (G1 & A1 & S1).
  destruct (hop_conf step h k o C G1 O) as (h2 & k2 & ok2 & R2 & G2 & A2 & S2 & _). rewrite R in R2. injection R2 as <- <- <-. split; [exact G2|]. split.
  - destruct A2 as [A2|(c & sr & -> & A2)]; [rewrite A2; destruct A1 as [A1|(c & sr & IN & A1)]; [now left|right; exists c, sr; split; [apply in_or_app; now left|exact A1]]|]. right. exists c, sr. split; [apply in_or_app; right; now left|exact A2].
  - destruct S2 as [S2|(c & ad & -> & S2)]; [rewrite S2; destruct S1 as [S1|(c & ad & IN & S1)]; [now left|right; exists c, ad; split; [apply in_or_app; now left|exact S1]]|]. right. exists c, ad. split; [apply in_or_app; right; now left|exact S2].
Qed.
Lemma lived_off : forall step h0 k0 l h k, conforming step -> good h0 -> lived step h0 k0 l h k -> h_enable h0 = 0 -> c_adv k0 = false -> (forall c, ~ In (HAdv c) l) -> h_enable h = 0 /\ c_adv k = false.
Proof.
  intros step h0 k0 l h k C G H. induction H as [h0 k0|h0 k0 l h k o h' k' ok L IH O R]; intros E0 A0 N; [now split|]. destruct (lived_good _ _ _ _ _ _ C G L) as (G1 & _).
  destruct (IH G E0 A0) as [E A]; [intros c IN; apply (N c); apply in_or_app; now left|]. destruct (hop_conf step h k o C G1 O) as (h2 & k2 & ok2 & R2 & G2 & _ & _ & V1 & V2). rewrite R in R2. injection R2 as <- <- <-.
  assert (NO : ~ exists c, o = HAdv c) by (intros [c ->]; apply (N c); apply in_or_app; right; now left). split.
  - destruct G2 as [(_ & _ & _ & _ & _ & [Q|Q]) _]; [exact Q|]. destruct (V2 Q) as [X|X]; [congruence|now elim NO].
  - destruct (c_adv k') eqn:Q; [|reflexivity]. destruct (V1 eq_refl) as [X|[X|X]]; [congruence|congruence|now elim NO].
Qed.
Lemma lived_on : forall step h0 k0 l h k, conforming step -> willing step -> good h0 -> lived step h0 k0 l h k -> h_enable h0 = 1 -> c_adv k0 = true -> (forall c, ~ In (HAdv c) l) -> ~ In HStop l -> h_enable h = 1 /\ c_adv k = true.
Proof.
  intros step h0 k0 l h k C W G H. induction H as [h0 k0|h0 k0 l h k o h' k' ok L IH O R]; intros E0 A0 N NS; [now split|]. destruct (lived_good _ _ _ _ _ _ C G L) as ([I D] & _).
  destruct (IH G E0 A0) as [E A]; [intros c IN; apply (N c); apply in_or_app; now left|intro IN; apply NS; apply in_or_app; now left|].
  destruct o as [c| |dup| |a rnd| |b]; cbn [run_hop hop_ok] in *.
  - exfalso. apply (N c). apply in_or_app. right. now left.
  - exfalso. apply NS. apply in_or_app. right. now left.
  - destruct (scan_conf step h k dup C I) as (h2 & k2 & ok2 & s & d & R2 & _ & E' & _ & _ & K & _). rewrite R in R2. injection R2 as <- <- <-. rewrite K, E'. now split.
  - destruct (stopscan_conf step h k C I D) as (h2 & k2 & ok2 & s & d & R2 & _ & E' & _ & _ & K & _). rewrite R in R2. injection R2 as <- <- <-. rewrite K, E'. now split.
  - destruct (dial_conf step h k a rnd C I O) as (h2 & k2 & ok2 & c & R2 & _ & E' & _ & _ & K & _). rewrite R in R2. injection R2 as <- <- <-. rewrite K, E'. now split.
  - rewrite (conn_will step h (connected k) W E) in R. cbn [gbind] in R. injection R as <- <- <-. now split.
  - destruct (disc_conf step b h (disconnected k) C I) as (k2 & e & R2 & K & X). rewrite R2 in R. cbn [gbind] in R. injection R as <- <- <-. split; [exact E|]. rewrite K. cbn in *. destruct X as [-> |[-> _]]; [exact A|reflexivity].
Qed.
