(** C110-C115: setting a device up, advertising, scanning and dialling, against controllers that follow the specification. *)
Require Import Verif.Base Verif.M_uuid Verif.M_adv Verif.S_adv Verif.M_cmd Verif.P_cmd Verif.P_adv3 Verif.M_gap Verif.S_gap Verif.P_gap Verif.P_gap2 Verif.P_gap3 Verif.P_gap4 Verif.P_gap5.

(** C110.  Not advertising, controller accepts: the call succeeds, exactly what it asks for is advertised with the parameters in force; a call whose
    payload does not fit fails and changes nothing. *)
Theorem C110_advertises : forall step i opts l h k c, conforming step -> willing step -> ident_ok i -> after step i opts l h k -> call_ok c -> c_adv k = false ->
  exists h' k' ok, run_acall step h k c = Ret (h', k', ok) /\ (refused c -> ok = false /\ k' = k) /\
    (~ refused c -> ok = true /\ asked c (c_ad k') (c_sr k') /\ c_advp k' = body adv_fields (params_for c (adv_params opts l)) /\ c_adv k' = true /\ c_scan k' = c_scan k).
Proof.
  intros step i opts l h k c C W IO A O Q. destruct (after_good _ _ _ _ _ _ C IO A) as ([I D] & P & _). destruct (call_conf step h k c C I O) as (h' & k' & ok & R & _ & _ & _ & _ & a & s & p & e & _ & _ & _ & _ & _ & RF & _).
  exists h', k', ok. split; [exact R|]. split; [exact RF|]. intro NR. destruct (call_will step h k c W I O NR Q) as (h2 & ad & sr & AS & R2 & _). rewrite R in R2. injection R2 as -> -> ->.
  split; [reflexivity|]. cbn. rewrite <- P. now repeat (split; [first [exact AS|reflexivity]|]).
Qed.
(** every call is either refused or has exactly one payload *)
Theorem C110_payload_determined : forall c, (refused c -> forall ad sr, ~ asked c ad sr \/ exists a s p, c = ARaw a s p) /\ (~ refused c -> exists ad sr, asked c ad sr /\ forall ad' sr', asked c ad' sr' -> ad' = ad /\ sr' = sr).
Proof.
  intro c. split.
  - intros R ad sr. destruct c as [name us|name us mfg|id md|id b|md|u major minor pwr|a s p]; cbn [refused] in R; try contradiction; try (right; now exists a, s, p); left; intros (L1 & L2 & X); cbn in X.
    + destruct X as [-> _]. now apply R.
    + destruct X as [-> _]. now apply R.
    + destruct X as [-> _]. now apply R.
    + destruct X as [X _]. contradiction.
  - intro NR. pose proof (plan_asked c) as PA. destruct (plan c) as [[ad sr]|]; [|contradiction]. exists ad, sr. split; [apply PA|]. intros ad' sr' A. exact (asked_one c ad' sr' ad sr A (proj1 PA)).
Qed.
(** Already advertising (a second call without Stop): the data are replaced, the call reports the controller's refusal of the parameters *)
Theorem C110_while_advertising : forall step i opts l h k c, conforming step -> willing step -> ident_ok i -> after step i opts l h k -> call_ok c -> ~ refused c -> c_adv k = true ->
  exists h' k', run_acall step h k c = Ret (h', k', false) /\ asked c (c_ad k') (c_sr k') /\ c_adv k' = true.
Proof.
  intros step i opts l h k c C W IO A O NR Q. destruct (after_good _ _ _ _ _ _ C IO A) as ([I D] & _). destruct (call_busy step h k c C W I O NR Q) as (h' & k' & ad & sr & AS & R & <- & <- & E). now exists h', k'.
Qed.
(** Any controller, any moment: success means advertised exactly as asked, or, except for raw calls, that the controller did not take the data and advertising is as before *)
Theorem C110_success : forall step i opts l h k c, conforming step -> ident_ok i -> after step i opts l h k -> call_ok c -> exists h' k' ok, run_acall step h k c = Ret (h', k', ok) /\
  (refused c -> ok = false /\ k' = k) /\
  (ok = true -> (asked c (c_ad k') (c_sr k') /\ c_advp k' = body adv_fields (params_for c (adv_params opts l)) /\ c_adv k' = true) \/ (c_advp k' = c_advp k /\ c_adv k' = c_adv k /\ forall p sr ad, c <> ARaw ad sr p)).
Proof.
  intros step i opts l h k c C IO A O. destruct (after_good _ _ _ _ _ _ C IO A) as ([I D] & P & _). destruct (call_conf step h k c C I O) as (h' & k' & ok & R & _ & _ & _ & _ & a & s & p & e & K & _ & _ & _ & _ & RF & OK).
  exists h', k', ok. split; [exact R|]. split; [exact RF|]. intro Q. rewrite K, <- P. cbn. destruct (OK Q) as [(X1 & X2 & X3 & _)|(X1 & X2 & _ & X3)]; [left; now split|right; now split].
Qed.
(** Nothing is ever advertised that no call asked for *)
Theorem C110_only_requested : forall step i opts l h k, conforming step -> ident_ok i -> after step i opts l h k ->
  (c_ad k = [] \/ exists c sr, In (HAdv c) l /\ asked c (c_ad k) sr) /\ (c_sr k = [] \/ exists c ad, In (HAdv c) l /\ asked c ad (c_sr k)).
Proof. intros step i opts l h k C IO A. exact (proj2 (proj2 (after_good _ _ _ _ _ _ C IO A))). Qed.
(** Before the first call and after a successful Stop, the device does not advertise until the next call, whatever connects or disconnects *)
Theorem C110_silent_at_first : forall step i opts l h k, conforming step -> ident_ok i -> after step i opts l h k -> (forall c, ~ In (HAdv c) l) -> c_adv k = false.
Proof.
  intros step i opts l h k C IO (h0 & k0 & SU & L) N. destruct (set_up_good _ _ _ _ _ C IO SU) as (G & E & Q). exact (proj2 (lived_off _ _ _ _ _ _ C G L E (proj1 (proj2 (proj2 (proj2 Q)))) N)).
Qed.
Theorem C110_stop : forall step i opts l h k l' h1 k1 h2 k2, conforming step -> ident_ok i -> after step i opts l h k -> stop_advertising step h k = Ret (h1, k1, true) -> lived step h1 k1 l' h2 k2 -> (forall c, ~ In (HAdv c) l') ->
  c_adv k1 = false /\ c_adv k2 = false.
Proof.
  intros step i opts l h k l' h1 k1 h2 k2 C IO A S L N. destruct (after_good _ _ _ _ _ _ C IO A) as ([I D] & _). destruct (stop_conf step h k C I) as (h' & k' & ok & e & R & I' & H' & K & _ & OK). rewrite S in R. injection R as <- <- <-.
  assert (E : c_adv k1 = false) by (rewrite K; exact (OK eq_refl)). split; [exact E|]. refine (proj2 (lived_off _ _ _ _ _ _ C _ L _ E N)); [split; [exact I'|rewrite H'; exact D]|rewrite H'; reflexivity].
Qed.
Theorem C110_stop_works : forall step i opts l h k, conforming step -> willing step -> ident_ok i -> after step i opts l h k -> exists h' k', stop_advertising step h k = Ret (h', k', true) /\ c_adv k' = false.
Proof. intros step i opts l h k C W IO A. rewrite (stop_will step h k W). eexists. eexists. now split. Qed.
(** Advertising goes on through scanning, dialling, connections and disconnections until Stop, with a controller that accepts the commands *)
Theorem C110_continues : forall step i opts l h k c h1 k1 l' h2 k2, conforming step -> willing step -> ident_ok i -> after step i opts l h k -> call_ok c -> c_adv k = false ->
  run_acall step h k c = Ret (h1, k1, true) -> lived step h1 k1 l' h2 k2 -> (forall c, ~ In (HAdv c) l') -> ~ In HStop l' -> c_adv k2 = true /\ c_ad k2 = c_ad k1 /\ c_sr k2 = c_sr k1.
Proof.
  intros step i opts l h k c h1 k1 l' h2 k2 C W IO A O Q R L N NS. destruct (after_good _ _ _ _ _ _ C IO A) as ([I D] & _).
  destruct (call_conf step h k c C I O) as (h3 & k3 & ok3 & R3 & I3 & _ & _ & D3 & a & s & p & e & _ & _ & _ & _ & _ & RF & _). rewrite R in R3. injection R3 as <- <- <-.
  assert (NR : ~ refused c) by (intro X; destruct (RF X); discriminate). destruct (call_will step h k c W I O NR Q) as (h4 & ad & sr & _ & R4 & E4). rewrite R in R4. injection R4 as <- ->.
  assert (G1 : good h1) by (split; [exact I3|rewrite D3; exact D]). split; [refine (proj2 (lived_on _ _ _ _ _ _ C W G1 L E4 eq_refl N NS))|].
  destruct (lived_good _ _ _ _ _ _ C G1 L) as (_ & A1 & S1). split; [destruct A1 as [A1|(c' & x & IN & _)]|destruct S1 as [S1|(c' & x & IN & _)]]; try assumption; now elim (N c').
Qed.

(** C111.  Set-up with a controller that accepts the commands, whatever it was doing before: it is reset; Init succeeds exactly if it has more than one buffer for
    LE data; address, buffer pool and masks are as they should be and nothing is on the air. *)
Theorem C111_set_up : forall step k opts, willing step -> ident_ok (c_id k) -> Forall opt_ok opts ->
  exists h k' ok, init_host step (fst (options new_host true opts)) k = Ret (h, k', ok) /\
    let i := c_id k in let num := if i_le_num i =? 0 then i_acl_num i else i_le_num i in let len := if i_le_num i =? 0 then i_acl_len i else i_le_len i in
    (ok = true <-> 1 < num) /\ h_addr h = rev (i_addr i) /\ (ok = true -> h_pool h = Some (1 + 4 + len, num - 1)) /\
    (forall ev b, In (ev, b) event_bits -> Z.testbit (c_mask k') b = true) /\ (forall ev b, In (ev, b) le_event_bits -> Z.testbit (c_lemask k') b = true) /\
    (ok = true -> c_advp k' = body adv_fields (adv_params opts []) /\ c_scanp k' = body scan_fields (scan_params opts)) /\ c_adv k' = false /\ c_scan k' = false /\ c_ad k' = [] /\ c_sr k' = [].
Proof.
  intros step k opts W IO O. destruct (options new_host true opts) as [h0 ok0] eqn:OP. destruct (options_inv opts new_host true h0 ok0 O new_host_ok OP) as ((_ & _ & V1 & V2 & _) & _). cbn [fst].
  pose proof (init_will step h0 k W IO V1 V2) as R. cbv zeta in *. set (num := if i_le_num (c_id k) =? 0 then i_acl_num (c_id k) else i_le_num (c_id k)) in *.
  assert (M : forall p s, (forall ev b, In (ev, b) event_bits -> Z.testbit (c_mask (ready (c_id k) p s)) b = true) /\ (forall ev b, In (ev, b) le_event_bits -> Z.testbit (c_lemask (ready (c_id k) p s)) b = true)).
  { intros p s. split; intros ev b IN; cbn in IN; decompose [or] IN; try contradiction; match goal with H : (_, _) = (ev, b) |- _ => injection H as <- <- end; reflexivity. }
  destruct (Z.ltb_spec 1 num) as [X|X]; rewrite R; eexists; eexists; eexists; (split; [reflexivity|]).
  - split; [split; [intros _; exact X|reflexivity]|]. split; [reflexivity|]. split; [reflexivity|]. split; [apply M|]. split; [apply M|]. split; [|repeat split].
    intros _. unfold adv_params, scan_params. cbn [fold_left]. rewrite <- (options_advp _ _ _ _ _ OP), <- (proj1 (options_scanp _ _ _ _ _ OP)). now split.
  - split; [split; [discriminate|lia]|]. split; [reflexivity|]. split; [discriminate|]. split; [apply M|]. split; [apply M|]. split; [discriminate|repeat split].
Qed.
(** Any controller: Init does not crash, and when it succeeds, the pool has at least one buffer, fewer than the controller has, of the size of the controller's *)
Theorem C111_any_controller : forall step i opts, conforming step -> ident_ok i -> Forall opt_ok opts -> exists h k ok, init_host step (fst (options new_host true opts)) (fresh i) = Ret (h, k, ok) /\
  (ok = true <-> h_pool h <> None) /\ (forall s n, h_pool h = Some (s, n) -> 1 <= n /\ ((s = 1 + 4 + i_le_len i /\ n = i_le_num i - 1) \/ (s = 1 + 4 + i_acl_len i /\ n = i_acl_num i - 1))) /\
  (h_addr h = rev (i_addr i) \/ h_addr h = repeat 0 6) /\ c_adv k = false /\ c_scan k = false.
Proof.
  intros step i opts C IO O. destruct (options new_host true opts) as [h0 ok0] eqn:OP. destruct (options_inv opts new_host true h0 ok0 O new_host_ok OP) as ((_ & _ & V1 & V2 & _) & _). cbn [fst].
  destruct (init_conf step i h0 (fresh i) C IO (fresh_quiet i) V1 V2) as (h & k & ok & R & Q & AD & _ & P1 & P2). exists h, k, ok. split; [exact R|]. split; [exact P1|]. split; [exact P2|]. split; [exact AD|]. destruct Q as (_ & _ & _ & Q1 & Q2 & _). now split.
Qed.
(** The error of the options is that of the last one given (see C113). *)
Theorem C111_option_error : forall opts o, snd (options new_host true (opts ++ [o])) = false <-> o = OFails.
Proof.
  intros opts o. assert (X : forall h b, snd (options h b (opts ++ [o])) = false <-> o = OFails); [|apply X]. induction opts as [|q opts IH]; intros h b.
  - cbn [app options]. destruct o; cbn [apply_opt snd]; split; intro H; congruence.
  - cbn [app options]. destruct (apply_opt h q) as [h' b']. apply IH.
Qed.
Print Assumptions C111_option_error.
(** the default parameters on the wire: 20 ms, connectable undirected, public address, all channels, no filter *)
Theorem C111_default_parameters : body adv_fields (adv_params [] []) = [32; 0; 32; 0; 0; 0; 0; 0; 0; 0; 0; 0; 0; 7; 0].
Proof. reflexivity. Qed.

(** C112.  Scanning *)
Theorem C112_scan : forall step i opts l h k dup, conforming step -> ident_ok i -> after step i opts l h k -> exists h' k' ok, scan step h k dup = Ret (h', k', ok) /\
  (ok = true -> c_scan k' = true /\ c_dup k' = negb dup) /\ (willing step -> ok = true) /\ c_adv k' = c_adv k /\ c_ad k' = c_ad k /\ c_sr k' = c_sr k.
Proof.
  intros step i opts l h k dup C IO A. destruct (after_good _ _ _ _ _ _ C IO A) as ([I D] & _). destruct (scan_conf step h k dup C I) as (h' & k' & ok & s & d & R & _ & _ & _ & _ & K & OK). exists h', k', ok.
  split; [exact R|]. rewrite K. cbn. split; [exact OK|]. split; [|repeat split]. intro W. rewrite (scan_will step h k dup W) in R. now injection R as _ _ <-.
Qed.
Theorem C112_stop_scanning : forall step i opts l h k, conforming step -> ident_ok i -> after step i opts l h k -> exists h' k' ok, stop_scanning step h k = Ret (h', k', ok) /\
  (ok = true -> c_scan k' = false) /\ (willing step -> ok = true) /\ c_adv k' = c_adv k /\ c_ad k' = c_ad k /\ c_sr k' = c_sr k.
Proof.
  intros step i opts l h k C IO A. destruct (after_good _ _ _ _ _ _ C IO A) as ([I D] & _). destruct (stopscan_conf step h k C I D) as (h' & k' & ok & s & d & R & _ & _ & _ & _ & K & OK). exists h', k', ok.
  split; [exact R|]. rewrite K. cbn. split; [exact OK|]. split; [|repeat split]. intro W. destruct (stopscan_will step h k W D) as [d' R']. rewrite R' in R. now injection R as _ _ <-.
Qed.
(** Dial: an address that is not six bytes long is refused without a command; otherwise a connection to exactly that address and type is created, with the
    connection parameters given last *)
Definition peer_of (b : bytes) : Z * bytes := (nth 5 b 0, rev (firstn 6 (skipn 6 b))).
Theorem C112_dial : forall step i opts l h k a rnd, conforming step -> ident_ok i -> after step i opts l h k -> all_bytes a -> exists h' k' ok, dial step h k a rnd = Ret (h', k', ok) /\
  (length a <> 6%nat -> ok = false /\ k' = k) /\ (length a = 6%nat -> willing step -> ok = true) /\
  (ok = true -> exists b, c_create k' = Some b /\ peer_of b = (if rnd then 1 else 0, a) /\ firstn 5 b = firstn 5 (body conn_fields (conn_params opts)) /\ skipn 12 b = skipn 12 (body conn_fields (conn_params opts))) /\
  c_adv k' = c_adv k /\ c_scan k' = c_scan k.
Proof.
  intros step i opts l h k a rnd C IO A B. destruct (after_good _ _ _ _ _ _ C IO A) as ([I D] & _). destruct (dial_conf step h k a rnd C I B) as (h' & k' & ok & c & R & _ & _ & _ & _ & K & RF & OK). exists h', k', ok. split; [exact R|]. split; [exact RF|].
  pose proof I as (_ & _ & _ & _ & I5 & _). split.
  - intros L W. unfold dial in R. rewrite L in R. cbn [Nat.eqb negb] in R. cbn [h_connp with_connp] in R. change (M_gap.field "PeerAddressType" (GInt (if rnd then 1 else 0)) (M_gap.field "PeerAddress" (GBytes (rev a)) (h_connp h))) with (dial_params (h_connp h) a rnd) in R.
    rewrite (send_will step k _ _ _ W (pk_create _ (dial_params_ok _ _ rnd I5 B L)) eq_refl) in R. cbn [gbind] in R. now injection R as _ _ <-.
  - rewrite K. cbn [c_create c_adv c_scan with_create]. split; [|now split]. intro Q. exists (body conn_fields (dial_params (h_connp h) a rnd)). split; [exact (OK Q)|].
    assert (L : length a = 6%nat) by (destruct (Nat.eq_dec (length a) 6) as [X|X]; [exact X|destruct (RF X); congruence]). destruct (after_connp _ _ _ _ _ _ C IO A) as [SC SV].
    destruct (conn_split _ (dial_params_ok _ _ rnd I5 B L)) as (t & ad & E1 & L1 & L2 & T & AD). destruct (conn_split _ SV) as (t' & ad' & E2 & L1' & L2' & _).
    assert (S1 : body cf1 (dial_params (h_connp h) a rnd) = body cf1 (conn_params opts) /\ body cf2 (dial_params (h_connp h) a rnd) = body cf2 (conn_params opts)).
    { split; apply body_same; intros f IN; cbn in IN; decompose [or] IN; try contradiction; subst f; cbn; apply SC; discriminate. }
    destruct S1 as [S1 S2]. rewrite S1 in E1, L1. rewrite S2 in E1. rewrite E1, E2. set (x := body cf1 (conn_params opts)) in *. set (y := body cf2 (conn_params opts)) in *.
    assert (T' : t = if rnd then 1 else 0) by (destruct rnd; cbn in T; injection T as ->; reflexivity). cbn in AD. clearbody x y. destruct x as [|x0 [|x1 [|x2 [|x3 [|x4 [|x5 x]]]]]]; try discriminate L1.
    rewrite <- (rev_involutive a). subst ad t. destruct (rev a) as [|a0 [|a1 [|a2 [|a3 [|a4 [|a5 [|a6 r]]]]]]]; try discriminate L2. destruct ad' as [|b0 [|b1 [|b2 [|b3 [|b4 [|b5 [|b6 r]]]]]]]; try discriminate L2'. repeat split.
Qed.
Print Assumptions C110_advertises. Print Assumptions C110_payload_determined. Print Assumptions C110_while_advertising. Print Assumptions C110_success. Print Assumptions C110_only_requested.
Print Assumptions C110_silent_at_first. Print Assumptions C110_stop. Print Assumptions C110_stop_works. Print Assumptions C110_continues. Print Assumptions C111_set_up. Print Assumptions C111_any_controller.
Print Assumptions C112_scan. Print Assumptions C112_stop_scanning. Print Assumptions C112_dial.

(** ---- The hypotheses are met ---- *)
Definition id1 : ident := mkI [1; 2; 3; 4; 5; 6] 1021 8 251 10 7.
Lemma id1_ok : ident_ok id1.
Proof. unfold ident_ok. cbn. repeat split; try lia. unfold all_bytes, is_byte. repeat (apply Forall_cons; [lia|]). apply Forall_nil. Qed.
(** a controller that does what is allowed and answers Command Disallowed to what is not *)
Definition polite (k : ctl) (p : bytes) : ctl * option bytes := if disallowed k p then (k, Some [12]) else (effect k p, Some (0 :: info (c_id k) p)).
Lemma polite_ok : conforming polite /\ willing polite.
Proof.
  split.
  - intros k p k' r H. unfold polite in H. destruct (disallowed k p) eqn:D; injection H as <- <-; cbn; [reflexivity|repeat split; exact D].
  - intros k p D. unfold polite. now rewrite D.
Qed.
Definition eta_host (h : host) : Prop := h_pool h = Some (256, 9) /\ h_addr h = [6; 5; 4; 3; 2; 1].
(** the bytes of "gopher" and the heart rate service *)
Definition gopher : bytes := [103; 111; 112; 104; 101; 114].
Definition hr : bytes := [0x0D; 0x18].
Definition run_up : go (host * ctl * bool) := init_host polite new_host (fresh id1).
Example C111_example : exists h k, run_up = Ret (h, k, true) /\ set_up polite id1 [] h k /\ eta_host h.
Proof.
  pose proof (init_will polite new_host (fresh id1) (proj2 polite_ok) id1_ok) as R. destruct new_host_ok as (_ & _ & V1 & V2 & _). specialize (R V1 V2). cbv zeta in R. change (c_id (fresh id1)) with id1 in R.
  change (1 <? (if i_le_num id1 =? 0 then i_acl_num id1 else i_le_num id1)) with true in R. cbv iota in R. eexists. eexists. split; [exact R|]. split; [|split; reflexivity].
  split; [apply Forall_nil|]. exists new_host, true. split; [reflexivity|exact R].
Qed.
(** set up, advertise a name and a service, be connected, stop *)
Example C110_example : exists h k h1 k1 h2 k2, after polite id1 [] [] h k /\ c_adv k = false /\
  run_acall polite h k (ANames gopher [hr]) = Ret (h1, k1, true) /\ c_adv k1 = true /\ c_ad k1 = [2; 1; 6; 3; 3; 0x0D; 0x18; 7; 9; 103; 111; 112; 104; 101; 114] /\ c_sr k1 = [] /\
  lived polite h1 k1 [HConnected; HScan true] h2 k2 /\ c_adv k2 = true /\ c_scan k2 = true.
Proof.
  destruct C111_example as (h & k & R & SU & _). destruct polite_ok as [C W]. assert (A : after polite id1 [] [] h k) by (exists h, k; split; [exact SU|apply lv_start]).
  assert (Q : c_adv k = false) by exact (C110_silent_at_first _ _ _ _ _ _ C id1_ok A (fun c X => X)).
  destruct (C110_advertises _ _ _ _ _ _ (ANames gopher [hr]) C W id1_ok A I Q) as (h1 & k1 & ok & R1 & _ & X). destruct (X (fun X => X)) as (-> & AS & _ & ON & _).
  destruct (after_good _ _ _ _ _ _ C id1_ok A) as ([IH DH] & _). destruct (call_will polite h k (ANames gopher [hr]) W IH I (fun X => X) Q) as (h1' & ad & sr & _ & R1' & E1). rewrite R1 in R1'. injection R1' as <- K1.
  exists h, k, h1, k1, (with_scan h1 1 0). eexists. split; [exact A|]. split; [exact Q|]. split; [exact R1|]. split; [exact ON|].
  assert (P : asked (ANames gopher [hr]) [2; 1; 6; 3; 3; 0x0D; 0x18; 7; 9; 103; 111; 112; 104; 101; 114] []).
  { pose proof (plan_asked (ANames gopher [hr])) as PA. assert (PE : plan (ANames gopher [hr]) = Some ([2; 1; 6; 3; 3; 0x0D; 0x18; 7; 9; 103; 111; 112; 104; 101; 114], [])) by (vm_compute; reflexivity). rewrite PE in PA. apply PA. }
  destruct (asked_one _ _ _ _ _ AS P) as [E2 E3]. split; [exact E2|]. split; [exact E3|]. split.
  - change [HConnected; HScan true] with (([] ++ [HConnected]) ++ [HScan true]). eapply lv_step; [eapply lv_step; [apply lv_start|exact I|]|exact I|].
    + cbn [run_hop]. rewrite (conn_will polite h1 (connected k1) W E1). reflexivity.
    + cbn [run_hop]. exact (scan_will polite h1 _ true W).
  - split; reflexivity.
Qed.

(** ---- C113-C115: what does not hold ---- *)
(** a controller that does not take the event masks, nor advertising data, nor enabling advertising while it has a connection, as told *)
Definition choosy (no_mask no_data one_role : bool) (k : ctl) (p : bytes) : ctl * option bytes :=
  if disallowed k p then (k, Some [12])
  else if no_mask && ((op_of p =? 0x0C01) || (op_of p =? 0x2001)) then (k, Some [18])
  else if no_data && (op_of p =? 0x2008) then (k, Some [18])
  else if one_role && (op_of p =? 0x200A) && (nth 0 (args_of p) 0 =? 1) && negb (Nat.eqb (c_conns k) 0) then (k, Some [11])
  else (effect k p, Some (0 :: info (c_id k) p)).
Lemma choosy_ok : forall a b c, conforming (choosy a b c).
Proof.
  intros a b c k p k' r H. unfold choosy in H. destruct (disallowed k p) eqn:D; [injection H as <- <-; reflexivity|]. destruct (a && _); [injection H as <- <-; reflexivity|].
  destruct (b && _); [injection H as <- <-; reflexivity|]. destruct (_ && _ && _ && _); [injection H as <- <-; reflexivity|]. injection H as <- <-. cbn. repeat split; exact D.
Qed.
(** C113 would say: Init succeeds only if the controller accepted the set-up: the events handled are reported by it.  It does not: the errors of all commands are dropped. *)
Theorem C113_init_errors_refuted : exists step i h k, conforming step /\ ident_ok i /\ set_up step i [] h k /\ Z.testbit (c_mask k) 61 = false.
Proof.
  exists (choosy true false false), id1. eexists. eexists. split; [apply choosy_ok|]. split; [exact id1_ok|]. split; [split; [apply Forall_nil|]; exists new_host, true; split; [reflexivity|vm_compute; reflexivity]|]. reflexivity.
Qed.
(** ... and with a controller that accepts everything, one event the host has a handler for (LE Remote Connection Parameter Request, subevent 6, bit 5) is never enabled *)
Theorem C113_masks_refuted : forall step k opts h k' ok, willing step -> ident_ok (c_id k) -> Forall opt_ok opts -> init_host step (fst (options new_host true opts)) k = Ret (h, k', ok) -> Z.testbit (c_lemask k') 5 = false.
Proof.
  intros step k opts h k' ok W IO O R. destruct (options new_host true opts) as [h0 ok0] eqn:OP. destruct (options_inv opts new_host true h0 ok0 O new_host_ok OP) as ((_ & _ & V1 & V2 & _) & _). cbn [fst] in R.
  pose proof (init_will step h0 k W IO V1 V2) as R2. cbv zeta in R2. rewrite R2 in R. destruct (1 <? _); injection R as _ <- _; reflexivity.
Qed.
(** ... and an option that fails is not reported when a later one succeeds *)
Theorem C113_options_refuted : forall opts, snd (options new_host true (opts ++ [OFails; OOther])) = true.
Proof. intro opts. assert (X : forall h b, snd (options h b (opts ++ [OFails; OOther])) = true); [|apply X]. induction opts as [|o opts IH]; intros h b; [reflexivity|]. cbn [app options]. destruct (apply_opt h o) as [h' b']. apply IH. Qed.
(** C114 would say: an advertising call that succeeds advertises.  A refusal of the data by the controller is reported as success and nothing is advertised. *)
Theorem C114_success_means_advertising_refuted : exists step i h k h' k', conforming step /\ ident_ok i /\ after step i [] [] h k /\ run_acall step h k (ANames gopher [hr]) = Ret (h', k', true) /\ c_adv k' = false /\ c_ad k' = [].
Proof.
  exists (choosy false true false), id1. eexists. eexists. eexists. eexists. split; [apply choosy_ok|]. split; [exact id1_ok|].
  split; [eexists; eexists; split; [split; [apply Forall_nil|]; exists new_host, true; split; [reflexivity|vm_compute; reflexivity]|apply lv_start]|]. split; [vm_compute; reflexivity|]. split; reflexivity.
Qed.
(** C115 would say: a device asked to advertise advertises whenever its controller lets it.  With a controller that does not advertise while connected, advertising is not resumed
    when the connection ends: the check whether the HCI is open is negated. *)
Theorem C115_resumes_refuted : exists step i h k h1 k1 h2 k2, conforming step /\ ident_ok i /\ after step i [] [] h k /\ run_acall step h k (ANames gopher [hr]) = Ret (h1, k1, true) /\ c_adv k1 = true /\
  lived step h1 k1 [HConnected; HDisconnected true] h2 k2 /\ c_conns k2 = 0%nat /\ h_enable h2 = 1 /\ c_adv k2 = false.
Proof.
  exists (choosy false false true), id1. eexists. eexists. eexists. eexists. eexists. eexists. split; [apply choosy_ok|]. split; [exact id1_ok|].
  split; [eexists; eexists; split; [split; [apply Forall_nil|]; exists new_host, true; split; [reflexivity|vm_compute; reflexivity]|apply lv_start]|]. split; [vm_compute; reflexivity|]. split; [reflexivity|].
  split; [change [HConnected; HDisconnected true] with (([] ++ [HConnected]) ++ [HDisconnected true]); eapply lv_step; [eapply lv_step; [apply lv_start|exact I|]|exact I|]; vm_compute; reflexivity|]. repeat split.
Qed.
(** ... whatever the controller: nothing is sent when a connection ends while the HCI is open *)
Theorem C115_nothing_sent_refuted : forall K (step : controller K) h k, peripheral_disconnected step true h k = Ret (h, k).
Proof. reflexivity. Qed.
Print Assumptions C113_init_errors_refuted. Print Assumptions C113_masks_refuted. Print Assumptions C113_options_refuted. Print Assumptions C114_success_means_advertising_refuted.
Print Assumptions C115_resumes_refuted. Print Assumptions C115_nothing_sent_refuted.
