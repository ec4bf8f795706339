(** Properties C156-C159 and the ideals C160-C164: constructing a device. *)
Require Import Verif.Base Verif.M_uuid Verif.M_adv Verif.M_cmd Verif.M_params Verif.S_params Verif.Props_params Verif.M_gap Verif.S_adv Verif.S_gap Verif.P_gap4 Verif.M_open Verif.S_open Verif.P_open Verif.P_open2 Verif.P_open3 Verif.Props_gap.

(** C156.  Every setting is the one made last, and the default if none was made; security is on exactly if a bond manager was given. *)
Theorem C156_configuration : forall opts c, new_hci opts = Some c -> let l := setters opts in
  g_dial c = last (dialers l) 0 /\ g_listen c = last (listeners l) 0 /\ g_sync c = last (syncs l) false /\ g_errh c = last (errhs l) None /\ g_cache c = last (caches l) None /\
  g_sec c = last (managers l) None /\ h_connp (g_host c) = last (connps l) def_connp /\ h_scanp (g_host c) = last (scanps l) def_scanp /\ h_advp (g_host c) = last (advps l) def_advp.
Proof.
  intros opts c E l. rewrite (new_hci_cfg _ _ E). fold l. rewrite set_dial, set_listen, set_sync, set_errh, set_cache, set_sec, set_conn, set_scan, set_adv. do 8 (split; [reflexivity|]). reflexivity.
Qed.
(** The options of the package are never refused *)
Theorem C156_accepted : forall opts, (forall o, In o opts -> exists s, o = Opt s) -> exists c, new_hci opts = Some c.
Proof. intros opts H. unfold new_hci, hci_option. pose proof (option_loop_ok opts new_cfg H) as O. destruct (option_loop new_cfg true opts) as [c ok]. cbn in O. subst ok. now exists c. Qed.
(** Options given later to a device change only what they name *)
Theorem C156_later : forall opts c c' ok, hci_option c opts = (c', ok) -> let l := setters opts in
  g_dial c' = last (dialers l) (g_dial c) /\ g_listen c' = last (listeners l) (g_listen c) /\ g_sync c' = last (syncs l) (g_sync c) /\ g_errh c' = last (errhs l) (g_errh c) /\ g_cache c' = last (caches l) (g_cache c) /\
  g_sec c' = last (managers l) (g_sec c) /\ h_connp (g_host c') = last (connps l) (h_connp (g_host c)) /\ h_scanp (g_host c') = last (scanps l) (h_scanp (g_host c)) /\ h_advp (g_host c') = last (advps l) (h_advp (g_host c)).
Proof.
  intros opts c c' ok E l. rewrite (option_loop_set _ _ _ _ _ E). fold l. rewrite set_dial, set_listen, set_sync, set_errh, set_cache, set_sec, set_conn, set_scan, set_adv. do 8 (split; [reflexivity|]). reflexivity.
Qed.
(** The setters of a device: the roles and an object that is no bond manager are refused and change nothing, all else is accepted. *)
Theorem C156_setters : forall c s, (snd (set c s) = false <-> (s = SPeripheralRole \/ s = SCentralRole \/ s = SEnableSecurity BWrongType)) /\ (snd (set c s) = false -> fst (set c s) = c).
Proof. intros c s. destruct s as [d|d|p|p|p| | |b|f|[m|]|id|a t|q b|n]; cbn [set fst snd]; (split; [split; [intro H; try discriminate H; auto|intros [H|[H|H]]; try discriminate H; reflexivity]|try reflexivity; try discriminate]). Qed.
Print Assumptions C156_setters.
(** The defaults, as the commands that carry them go out (type 1, opcode, length, fields): scan actively, continuously, 2.5 ms interval and window, public address, accept all;
    advertise connectable and undirected every 20 ms on all three channels; connect with scan interval and window of 40 ms, interval 7.5 ms, latency 0, supervision time-out 10.24 s. *)
Theorem C156_defaults :
  packet "LESetScanParameters" def_scanp = Ret ([1] ++ le16 8203 ++ [7] ++ [1] ++ le16 4 ++ le16 4 ++ [0; 0]) /\
  packet "LESetAdvertisingParameters" def_advp = Ret ([1] ++ le16 8198 ++ [15] ++ le16 32 ++ le16 32 ++ [0; 0; 0] ++ repeat 0 6 ++ [7; 0]) /\
  packet "LECreateConnection" def_connp = Ret ([1] ++ le16 8205 ++ [25] ++ le16 64 ++ le16 64 ++ [0; 0] ++ repeat 0 6 ++ [0] ++ le16 6 ++ le16 6 ++ le16 0 ++ le16 1024 ++ le16 0 ++ le16 0).
Proof. split; [|split]; vm_compute; reflexivity. Qed.
Print Assumptions C156_defaults.

Lemma init_host_dev : forall K (step : controller K) h k h' k', init_host step h k = Ret (h', k', true) -> exists a sz cnt, h' = with_dev h a (Some (sz, cnt)) /\ 1 <= cnt.
Proof.
  intros K step h k h' k' E. unfold init_host in E. destruct (init_cmds step k) as [[k1 [[a cnt] sz]]|]; cbn [gbind] in E; [|discriminate]. destruct (Z.leb_spec (cnt - 1) 0) as [X|X]; [discriminate|].
  cbv zeta in E. destruct (send step k1 "LESetAdvertisingParameters" _) as [[k2 e2]|]; cbn [gbind] in E; [|discriminate]. destruct (send step k2 "LESetScanParameters" _) as [[k3 e3]|]; cbn [gbind] in E; [|discriminate].
  injection E as <- _. exists a, (5 + sz), (cnt - 1). split; [reflexivity|lia].
Qed.
(** C157.  A device that NewDevice returned: one descriptor was opened, it is the transport asked for (the last transport option), it is served by the device's goroutines
    and open; the parameters are legal and the controller has buffers. *)
Theorem C157_device : forall env rounds n (step : controller ctl) w k opts w' k' c fd, later (K := ctl) env fresh_world w -> new_device env rounds n step w k opts = Some (Ret (w', k', NDev c fd)) ->
  exists t f, transport_for opts = Some t /\ is_for t f /\ w_files w' = (fd, f) :: w_files w /\ ~ In fd (fds w) /\ w_run w' = fd :: w_run w /\ w_stop w' = w_stop w /\ w_files (settle w') = (fd, f) :: w_files (settle w) /\
    (* it is configured as asked (C156), with the address and the buffers of the controller *)
    (exists c0 a sz cnt, new_hci opts = Some c0 /\ c = with_host c0 (with_dev (g_host c0) a (Some (sz, cnt))) /\ 1 <= cnt) /\
    let l := setters opts in
    scan_legal (scan_of (last (scanps l) def_scanp)) /\ ranges_legal (conn_of (last (connps l) def_connp)) /\ timeout_quarter_ms (conn_of (last (connps l) def_connp)) >= required_quarter_ms (conn_of (last (connps l) def_connp)).
Proof.
  intros env rounds n step w0 k opts w' k' c fd L E. pose proof (sane_later _ _ _ _ L sane_fresh) as S.
  pose proof (new_device_ends _ _ _ _ _ _ _ _ _ _ _ (sn_below _ S) (sane_runs _ S) E) as D. inversion D as [| | | |c0 t f h k1 H P T F N I F1 F2 F3 F4 X1 X2]. subst. exists t, f. split; [exact T|]. split; [exact F|]. split; [exact F1|].
  assert (NF : ~ In (w_next w0) (fds w0)). { intro I0. pose proof (sn_below _ S) as B. unfold below in B. rewrite Forall_forall in B. specialize (B _ I0). lia. }
  split; [exact NF|]. split; [exact F3|]. split; [exact F4|]. split.
  - unfold settle. cbn [w_files]. rewrite F1, F4. cbn [filter fst]. destruct (existsb (Nat.eqb (w_next w0)) (w_stop w0)) eqn:EX; [|reflexivity].
    apply existsb_exists in EX. destruct EX as (x & I1 & I2). apply Nat.eqb_eq in I2. subst x. pose proof (sn_stop _ S) as B. rewrite Forall_forall in B. specialize (B _ I1). lia.
  - split. { destruct (init_host_dev _ _ _ _ _ _ I) as (a & sz & cnt & -> & Q). now exists c0, a, sz, cnt. }
    destruct (C156_configuration _ _ H) as (_ & _ & _ & _ & _ & _ & C1 & C2 & _). cbv zeta. rewrite <- C1, <- C2. unfold params_valid in P. apply C41_init_checks_both in P. destruct P as [P1 P2]. split; [exact P2|]. exact (C41_conn_params_sound _ P1).
Qed.
(** When NewDevice fails, no goroutine of it stays and, once those it had started are gone, the open descriptors are those of before — unless the parameters were refused (see C161). *)
Theorem C157_failure : forall env rounds n (step : controller ctl) w k opts w' k', later (K := ctl) env fresh_world w -> new_device env rounds n step w k opts = Some (Ret (w', k', NErr)) ->
  w_run w' = w_run w /\
  (w_files (settle w') = w_files (settle w) \/ exists c, new_hci opts = Some c /\ ~ (scan_legal (scan_of (h_scanp (g_host c))) /\ validate_conn (conn_of (h_connp (g_host c))) = true)).
Proof.
  intros env rounds n step w k opts w' k' L E. pose proof (sane_later _ _ _ _ L sane_fresh) as S.
  assert (NF : forall f st, (st = w_stop w \/ st = w_next w :: w_stop w) -> filter (fun x : nat * file => negb (existsb (Nat.eqb (fst x)) st)) (w_files w) = filter (fun x => negb (existsb (Nat.eqb (fst x)) (w_stop w))) (w_files w) /\
     (st = w_next w :: w_stop w -> filter (fun x : nat * file => negb (existsb (Nat.eqb (fst x)) st)) ((w_next w, f) :: w_files w) = filter (fun x => negb (existsb (Nat.eqb (fst x)) (w_stop w))) (w_files w))).
  { intros f st ST. assert (Q : filter (fun x : nat * file => negb (existsb (Nat.eqb (fst x)) st)) (w_files w) = filter (fun x => negb (existsb (Nat.eqb (fst x)) (w_stop w))) (w_files w)).
    { apply filter_ext_in. intros [g f0] I0. cbn [fst]. destruct ST as [->| ->]; [reflexivity|]. cbn [existsb]. pose proof (sn_below _ S) as B. unfold below, fds in B. rewrite Forall_forall in B. specialize (B g (in_map fst _ _ I0)). destruct (Nat.eqb_spec g (w_next w)); [lia|reflexivity]. }
    split; [exact Q|]. intros ->. cbn [filter fst existsb]. rewrite Nat.eqb_refl. cbn [orb negb]. exact Q. }
  remember NErr as o eqn:EO. destruct (new_device_ends _ _ _ _ _ _ _ _ _ _ _ (sn_below _ S) (sane_runs _ S) E) as [G|F1 F2 F3 F4|c t f H P _ _ _ A|c t f h k1 H P _ _ _ _ F1 F2 F3 F4|c t f h k1 H P _ _ _ _ F1 F2 F3 F4].
  - destruct G as (F & _ & R & T & _). split; [exact R|]. left. unfold settle. cbn [w_files]. rewrite F, T. reflexivity.
  - split; [exact F3|]. left. unfold settle. cbn [w_files]. rewrite F1, F4. apply (NF (FRaw None)). now right.
  - split; [apply A|]. right. exists c. split; [exact H|]. intros [X1 X2]. unfold params_valid in P. rewrite (proj2 (C41_init_checks_both _ _) (conj X2 X1)) in P. discriminate.
  - split; [exact F3|]. left. unfold settle. cbn [w_files]. rewrite F1, F4. apply (NF f); [now right|reflexivity].
  - discriminate.
Qed.
(** It succeeds when nothing gets in the way: a transport was asked for that can be opened, the parameters are legal and the controller carries out the set-up and has more than
    one buffer for LE data. *)
Theorem C157_works : forall env rounds n step w k opts t, later (K := ctl) env fresh_world w -> calm env (w_t w) -> (forall o, In o opts -> exists s, o = Opt s) -> transport_for opts = Some t ->
  match t with WHci id => id <> -1 /\ id mod 65536 <> 65535 /\ free env (w_t w) (id mod 65536) /\ ~ In (id mod 65536) (held w) | _ => True end ->
  let conn := last (connps (setters opts)) def_connp in let scan := last (scanps (setters opts)) def_scanp in let adv := last (advps (setters opts)) def_advp in
  scan_legal (scan_of scan) -> validate_conn (conn_of conn) = true -> struct_value adv_fields adv -> struct_value scan_fields scan ->
  willing step -> ident_ok (c_id k) -> 1 < (if i_le_num (c_id k) =? 0 then i_acl_num (c_id k) else i_le_num (c_id k)) ->
  exists w' k' c fd, new_device env rounds (S n) step w k opts = Some (Ret (w', k', NDev c fd)).
Proof.
  intros env rounds n step w k opts t L C O T OP conn scan adv SL CL VA VS W IO NB. destruct (C156_accepted _ O) as [c H]. destruct (C156_configuration _ _ H) as (_ & _ & _ & _ & _ & _ & C1 & C2 & C3).
  fold conn in C1. fold scan in C2. fold adv in C3. assert (P : params_valid c = true) by (unfold params_valid; rewrite C1, C2; apply C41_init_checks_both; now split).
  destruct (device_calm env rounds n step w k opts c t (sane_later _ _ _ _ L sane_fresh) C H T OP P W IO NB) as (w' & k' & c' & E); [rewrite C3; exact VA|rewrite C2; exact VS|].
  now exists w', k', c', (w_next w).
Qed.

(** C158.  Over all histories of a process: no HCI device is held twice, and every device that was not stopped has its transport open. *)
Theorem C158_exclusive : forall env w, later (K := ctl) env fresh_world w -> NoDup (held w) /\ forall fd, In fd (w_run w) -> In fd (fds w) /\ In fd (fds (settle w)).
Proof.
  intros env w L. pose proof (sane_later _ _ _ _ L sane_fresh) as S. split; [apply (sn_held _ S)|]. intros fd I. pose proof (sn_run _ S) as R. rewrite Forall_forall in R. destruct (R _ I) as (_ & Q & NS). split; [exact Q|].
  unfold fds in *. apply in_map_iff in Q. destruct Q as ([g f] & X & Q). cbn in X. subst g. apply in_map_iff. exists (fd, f). split; [reflexivity|]. unfold settle. cbn [w_files]. apply filter_In. split; [exact Q|]. cbn [fst].
  destruct (existsb (Nat.eqb fd) (w_stop w)) eqn:EX; [|reflexivity]. apply existsb_exists in EX. destruct EX as (x & I1 & I2). apply Nat.eqb_eq in I2. now subst x.
Qed.
(** The HCI device opened existed and was held neither by this process nor by another when it was taken; with id -1 its number is below the number of devices (at most 16) *)
Theorem C158_taken_when_free : forall env rounds w id w' fd, later (K := ctl) env fresh_world w -> new_socket env rounds w id = (w', Some fd) ->
  exists i u, w_files w' = (fd, FRaw (Some i)) :: w_files w /\ ~ In i (held w) /\ (w_t w <= u)%nat /\ In i (e_devs (env u)) /\ e_taken (env u) i = false /\ (id <> -1 -> i = id mod 65536) /\
    (id = -1 -> 0 <= i < 16 /\ exists v, (w_t w <= v)%nat /\ i < Z.of_nat (length (e_devs (env v)))).
Proof.
  intros env rounds w id w' fd L E. pose proof (sane_later _ _ _ _ L sane_fresh) as S. destruct (new_socket_at _ _ _ _ _ _ (sn_below _ S) E) as [(X & _)|(X & i & A & N & I1 & I2 & u & U1 & U2 & U3)]; [discriminate|]. injection X as ->.
  exists i, u. split; [apply A|]. split; [exact N|]. split; [exact U1|]. split; [exact U2|]. split; [exact U3|]. split; [exact I1|]. intro Y. destruct (I2 Y) as (j & l & -> & J & v & V & ->). rewrite firstn_length in J.
  assert (u16 j = j) as -> by (unfold u16; apply Z.mod_small; lia). split; [lia|]. exists v. split; [exact V|lia].
Qed.
(** A stopped device gives its transport back: it can be opened again *)
Theorem C158_reopen : forall env rounds w id fd, later (K := ctl) env fresh_world w -> In (fd, FRaw (Some id)) (w_files w) -> In fd (w_run w) -> 0 <= id < 65535 -> calm env (w_t w) -> free env (w_t w) id ->
  let w1 := settle (close_dev w fd) in ~ In id (held w1) /\ exists w' fd', new_socket env rounds w1 id = (w', Some fd').
Proof.
  intros env rounds w id fd L I R B C F w1. assert (L1 : later (K := ctl) env fresh_world w1).
  { apply (later_trans _ _ _ w); [exact L|]. apply later_step with (w1 := close_dev w fd); [apply PStop|]. apply later_step with (w1 := settle (close_dev w fd)); [apply PSettle|apply later_refl]. }
  pose proof (sane_later _ _ _ _ L sane_fresh) as S. pose proof (sane_later _ _ _ _ L1 sane_fresh) as S1.
  assert (N : ~ In id (held w1)).
  { intro J. unfold held in J. apply in_flat_map in J. destruct J as ([g f] & J1 & J2). cbn [snd] in J2. destruct f as [[i|]| |]; try contradiction. destruct J2 as [->|[]].
    unfold w1, settle, close_dev in J1. replace (existsb (Nat.eqb fd) (w_run w)) with true in J1 by (symmetry; apply existsb_exists; exists fd; split; [exact R|apply Nat.eqb_refl]). cbn [w_files w_stop] in J1.
    apply filter_In in J1. destruct J1 as [J1 J3]. cbn [fst existsb] in J3. destruct (Nat.eqb_spec g fd) as [->|NE]; [discriminate|].
    pose proof (sn_held _ S) as H. clear - H I J1 NE. unfold held in H. induction (w_files w) as [|[a b] l IH]; [contradiction|]. cbn [flat_map snd] in H. destruct I as [I|I], J1 as [J|J].
    - congruence.
    - injection I as -> ->. cbn [app] in H. inversion H as [|x m H1 H2]; subst. apply H1. apply in_flat_map. exists (g, FRaw (Some id)). split; [exact J|now left].
    - injection J as -> ->. cbn [app] in H. inversion H as [|x m H1 H2]; subst. apply H1. apply in_flat_map. exists (fd, FRaw (Some id)). split; [exact I|now left].
    - apply IH; [exact I|exact J|]. destruct b as [[i|]| |]; cbn [app] in H; try exact H. now inversion H. }
  split; [exact N|]. assert (T : w_t w1 = w_t w) by (unfold w1, settle, close_dev; destruct (existsb _ _); reflexivity).
  assert (C1 : calm env (w_t w1)) by (rewrite T; exact C).
  assert (O1 : openable env w1 (WHci id)). { unfold openable. rewrite T, Z.mod_small by lia. split; [lia|]. split; [lia|]. now split. }
  destruct (socket_calm env rounds w1 id (sn_below _ S1) C1 O1) as (w' & E). now exists w', (w_next w1).
Qed.

(** C159.  A UART or TCP transport is handed over only when it has fallen silent: everything read before was thrown away, the last read returned nothing. *)
Theorem C159_silent : forall env f eof n w w' fd, new_h4 env f eof n w = Some (w', Some fd) -> exists m, let t := (w_t w + 2)%nat in e_deny (env (w_t w)) = false (* opened *) /\ e_deny (env (w_t w + 1)%nat) = false (* the reset written *) /\ w_t w' = S (t + m) /\
  (forall i, (i < m)%nat -> exists b, e_read (env (t + i)%nat) = RData (S b)) /\
  (e_read (env (t + m)%nat) = RData 0 \/ (e_read (env (t + m)%nat) = RTimeout /\ e_late (env (t + m)%nat) = false (* before the deadline *)) \/ (eof = false /\ e_read (env (t + m)%nat) = REof /\ e_late (env (t + m)%nat) = false)).
Proof.
  intros env f eof n w w' fd E. unfold new_h4, sys_new in E. destruct (e_deny (env (w_t w))) eqn:D0; [discriminate|].
  unfold reset_and_wait in E. cbn [w_t tick] in E. destruct (e_deny (env (S (w_t w)))) eqn:D1; [discriminate|]. match type of E with context [wait_idle env eof n ?x] => destruct (wait_idle env eof n x) as [[w2 ok]|] eqn:W; [|discriminate] end. destruct ok; [|discriminate]. injection E as <- <-.
  destruct (wait_reads _ _ _ _ _ _ W) as (m & T & D & O & _). exists m. cbv zeta. cbn [w_t tick] in T, D, O. replace (w_t w + 2)%nat with (S (S (w_t w))) by lia. replace (w_t w + 1)%nat with (S (w_t w)) by lia.
  split; [reflexivity|]. split; [exact D1|]. split; [exact T|]. split; [|exact (O eq_refl)]. intros i I. apply D. exact I.
Qed.
(** Opening ends: it does not wait longer than its deadline, however much is received *)
Theorem C159_ends : forall env f eof w d, e_late (env (S (S (w_t w)) + d)%nat) = true -> exists n r, new_h4 env f eof n w = Some r.
Proof.
  intros env f eof w d L. unfold new_h4. destruct (sys_new env w f) as [w1 r1] eqn:N. assert (T : w_t w1 = S (w_t w)) by (unfold sys_new in N; destruct (e_deny _); injection N as <- _; reflexivity).
  destruct (new_at _ _ _ _ _ N) as [(-> & G)|(-> & A)]; [exists 0%nat; eexists; reflexivity|]. unfold reset_and_wait. destruct (e_deny (env (w_t w1))); [exists 0%nat; eexists; reflexivity|].
  destruct (wait_ends env eof d (tick w1)) as (n & [w2 ok] & W); [cbn; rewrite T; exact L|]. exists n. rewrite W. destruct ok; eexists; reflexivity.
Qed.

(** A read that reports the end of the data: a serial port is silent then, a TCP connection is broken *)
Theorem C159_end_of_data : forall env rounds n w, let t := w_t w in e_deny (env t) = false -> e_deny (env (S t)) = false -> e_read (env (S (S t))) = REof -> e_late (env (S (S t))) = false ->
  (forall p b, exists w', get_transport env rounds (S n) w (mkT None (Some (p, b)) None) = Some (w', Some (w_next w)) /\ In (w_next w) (fds w')) /\
  (forall s a d, exists w', get_transport env rounds (S n) w (mkT None s (Some (a, d))) = Some (w', None)).
Proof.
  intros env rounds n w t D0 D1 R L. split; [intros p b|intros s a d; destruct s as [[p b]|]]; cbn [get_transport]; unfold new_h4, sys_new; fold t; rewrite D0; unfold reset_and_wait; cbn [w_t tick]; fold t; rewrite D1; cbn [wait_idle]; cbn [w_t tick]; fold t; rewrite R, L; eexists; [split; [reflexivity|now left]|reflexivity|reflexivity].
Qed.
Print Assumptions C159_end_of_data.
Example C159_end_example : exists w', get_transport (fun _ => mkE [] (fun _ => false) false PNone REof false false) 0 1 fresh_world (mkT None (Some ("/dev/ttyS0"%string, -1)) None) = Some (w', Some 0%nat).
Proof. eexists. reflexivity. Qed.

(** ---- cases that meet the hypotheses ---- *)
Definition quiet_moment (devs : list Z) : moment := mkE devs (fun _ => false) false PNone RTimeout false false.
Definition env1 : environ := fun _ => quiet_moment [0; 1].
Definition run1 : option (go (world * ctl * outcome)) := new_device env1 59 10 polite fresh_world (fresh id1) [Opt (SDialerTimeout 5); Opt (SHCISocket 0); Opt (SH4Uart "/dev/ttyS0" (-1)); Opt (SHCISocket 1); Opt (SDialerTimeout 7)].
Example C157_example : exists w k c, run1 = Some (Ret (w, k, NDev c 0%nat)) /\ w_files w = [(0%nat, FRaw (Some 1))] /\ g_dial c = 7 /\ h_pool (g_host c) = Some (256, 9).
Proof. destruct run1 as [[[[w k] [|c fd]]|]|] eqn:E; vm_compute in E; try discriminate. injection E as <- <- <- <-. eexists _, _, _. split; [reflexivity|]. split; [reflexivity|]. split; reflexivity. Qed.
Example C157_works_example : later (K := ctl) env1 fresh_world fresh_world /\ calm env1 (w_t fresh_world) /\ free env1 0 1 /\ ~ In 1 (held fresh_world) /\ willing polite /\ scan_legal (scan_of def_scanp) /\ validate_conn (conn_of def_connp) = true /\
  struct_value adv_fields def_advp /\ struct_value scan_fields def_scanp.
Proof.
  split; [apply later_refl|]. split; [intros u _; repeat split|]. split; [intros u _; split; [right; now left|reflexivity]|]. split; [easy|]. split; [exact (proj2 polite_ok)|]. split; [apply C41_scan_params; reflexivity|]. split; [reflexivity|].
  split; apply new_host_ok.
Qed.
(** data arrives before the transport is silent *)
Definition env2 : environ := fun t => mkE [] (fun _ => false) false PNone (if Nat.ltb t 5 then RData 3 else RTimeout) false false.
Example C159_example : exists w, new_h4 env2 (FTcp "10.0.0.1:5000") true 10 fresh_world = Some (w, Some 0%nat) /\ w_t w = 6%nat.
Proof. eexists. split; [reflexivity|reflexivity]. Qed.

(** ---- what does not hold ---- *)
(** C160 would say: an option that cannot be carried out makes NewDevice fail.  A bond manager of the wrong type leaves security off without an error, and so do unsupported roles *)
Theorem C160_security_refuted : forall l, (forall o, In o l -> exists s, o = Opt s) -> exists c, new_hci (l ++ [Opt (SEnableSecurity BWrongType)]) = Some c /\ (managers (setters l) = [] -> g_sec c = None).
Proof.
  intros l H. destruct (C156_accepted (l ++ [Opt (SEnableSecurity BWrongType)])) as [c E]. { intros o I. apply in_app_or in I. destruct I as [I|[<-|[]]]; [now apply H|eexists; reflexivity]. }
  exists c. split; [exact E|]. intro M. destruct (C156_configuration _ _ E) as (_ & _ & _ & _ & _ & C & _). rewrite C. unfold setters in *. rewrite flat_map_app. unfold managers in *. rewrite flat_map_app, M. reflexivity.
Qed.
Theorem C160_roles_refuted : snd (set new_cfg SPeripheralRole) = false /\ snd (set new_cfg SCentralRole) = false /\ new_hci [Opt SPeripheralRole; Opt SCentralRole] = Some new_cfg.
Proof. split; [reflexivity|]. split; reflexivity. Qed.
(** C161 would say: when NewDevice fails nothing stays open.  Illegal parameters are found after the transport was opened, and nothing closes it: it stays open whatever the process
    does later, and an HCI device cannot be opened again by it. *)
Theorem C161_leak_refuted : forall env rounds n (step : controller ctl) w k opts w' k' c fd w1, later (K := ctl) env fresh_world w -> new_hci opts = Some c -> params_valid c = false ->
  get_transport env rounds n w (g_tr c) = Some (w1, Some fd) -> new_device env rounds n step w k opts = Some (Ret (w', k', NErr)) ->
  exists f, (exists t, transport_for opts = Some t /\ is_for t f) /\ forall w2, later (K := ctl) env w' w2 -> In (fd, f) (w_files w2) /\
    forall i, f = FRaw (Some i) -> forall r2 id, id mod 65536 = i -> id <> -1 -> snd (new_socket env r2 w2 id) = None.
Proof.
  intros env rounds n step w k opts w' k' c fd w1 L H P G E. pose proof (sane_later _ _ _ _ L sane_fresh) as S. pose proof (new_hci_tr _ _ H) as T. rewrite T in G.
  destruct (get_at _ _ _ _ _ _ _ (sn_below _ S) G) as [(X & _)|(X & t & f & O & F & A & N)]; [discriminate|]. injection X as ->.
  assert (D : w' = w1). { unfold new_device in E. rewrite H in E. unfold init in E. rewrite T, G, P in E. cbn [negb] in E. rewrite close_not in E; [now injection E|]. destruct A as (_ & _ & -> & _). exact (sane_runs _ S). } subst w1.
  exists f. split; [exists t; now split|]. intros w2 L2.
  assert (S' : sane w') by (destruct A as (A1 & A2 & A3 & A4 & _); apply (sane_new w f); [exact S|exact N|exact A1|exact A2|left; split; [exact A3|now left]]).
  assert (OR : orphan w2 (w_next w) f).
  { apply (orphan_later _ _ _ _ _ _ L2 S'). destruct A as (A1 & A2 & A3 & A4 & _). unfold orphan. rewrite A1, A3, A4. split; [now left|]. split; intro J.
    - pose proof (sane_runs _ S) as R. unfold runs_below in R. rewrite Forall_forall in R. specialize (R _ J). lia.
    - pose proof (sn_stop _ S) as R. rewrite Forall_forall in R. specialize (R _ J). lia. }
  destruct OR as (O1 & _). split; [exact O1|]. intros i -> r2 id EI NI. pose proof (sane_later _ _ _ _ L2 S') as S2. destruct (new_socket env r2 w2 id) as [w3 r] eqn:NS. cbn [snd].
  destruct (new_socket_at _ _ _ _ _ _ (sn_below _ S2) NS) as [(-> & _)|(-> & j & _ & NH & I1 & _)]; [reflexivity|]. exfalso. apply NH. rewrite (I1 NI). unfold u16. rewrite EI. unfold held. apply in_flat_map. exists (w_next w, FRaw (Some i)). split; [exact O1|now left].
Qed.
Definition bad_conn : sval := field "ConnIntervalMin" (GInt 0) def_connp.
Example C161_example : exists w k, new_device env1 59 10 polite fresh_world (fresh id1) [Opt (SHCISocket 0); Opt (SConnParams bad_conn)] = Some (Ret (w, k, NErr)) /\ w_files w = [(0%nat, FRaw (Some 0))].
Proof. eexists _, _. split; [reflexivity|reflexivity]. Qed.
(** C162 would say: when the HCI device becomes available within the minute NewDevice keeps trying, it is opened.  Only the first attempt counts: it closes the descriptor all others use *)
Theorem C162_retry_refuted : forall env w id, later (K := ctl) env fresh_world w -> id <> -1 -> forall rounds, (exists fd, snd (new_socket env rounds w id) = Some fd) <-> (exists fd, snd (new_socket env 0 w id) = Some fd).
Proof.
  intros env w id L NI rounds. pose proof (sane_later _ _ _ _ L sane_fresh) as S. unfold new_socket. destruct (sys_new env w (FRaw None)) as [w1 r1] eqn:N. destruct (new_at _ _ _ _ _ N) as [(-> & G)|(-> & A)]; [reflexivity|].
  destruct (Z.eqb_spec id (-1)) as [X|_]; [contradiction|]. cbn [negb].
  destruct (retry_first env rounds w w1 id (sn_below _ S) A) as [(O & R)|(O & w2 & R & G)]; destruct (retry_first env 0 w w1 id (sn_below _ S) A) as [(O' & R')|(O' & w2' & R' & G')]; rewrite R, R'.
  - reflexivity.
  - rewrite O in O'. discriminate.
  - rewrite O' in O. discriminate.
  - reflexivity.
Qed.
Definition env3 : environ := fun t => if Nat.ltb t 3 then mkE [0] (fun _ => true) false PNone RTimeout false false else quiet_moment [0].
Theorem C162_available_after_a_second_refuted : forall rounds, snd (new_socket env3 rounds fresh_world 0) = None.
Proof.
  intro rounds. destruct (snd (new_socket env3 rounds fresh_world 0)) as [fd|] eqn:E; [|reflexivity]. exfalso.
  destruct (proj1 (C162_retry_refuted env3 fresh_world 0 (later_refl _ _) ltac:(lia) rounds) (ex_intro _ fd E)) as (fd' & E'). vm_compute in E'. discriminate.
Qed.
(** C163 would say: with id -1 an available device is found.  The numbers tried are 0, 1, ... below the number of devices, not the numbers of the devices *)
Theorem C163_first_available_refuted : forall d rounds, d <> 0 -> 0 <= d < 65535 -> snd (new_socket (fun _ => quiet_moment [d]) rounds fresh_world (-1)) = None /\ exists w' fd, new_socket (fun _ => quiet_moment [d]) rounds fresh_world d = (w', Some fd).
Proof.
  intros d rounds ND B. set (env := fun _ : nat => quiet_moment [d]). assert (C : calm env 0) by (intros u _; repeat split). split.
  - destruct (new_socket env rounds fresh_world (-1)) as [w' r] eqn:E. destruct (new_socket_at _ _ _ _ _ _ (sn_below _ sane_fresh) E) as [(-> & _)|(-> & i & _ & _ & _ & I2 & u & _ & U2 & _)]; [reflexivity|]. exfalso.
    destruct (I2 eq_refl) as (j & l & -> & J & v & _ & ->). cbn in J. assert (j = 0) as -> by lia. cbn in U2. destruct U2 as [U2|[]]. unfold u16 in U2. cbn in U2. lia.
  - destruct (socket_calm env rounds fresh_world d (sn_below _ sane_fresh) C) as (w' & E); [|now exists w', (w_next fresh_world)]. cbn. rewrite Z.mod_small by lia. split; [lia|]. split; [lia|]. split; [|easy]. intros u _. split; [now left|reflexivity].
Qed.
(** C164 would say: after Stop has returned, the HCI device can be opened again.  Stop returns before the transport is closed *)
Theorem C164_stop_then_open_refuted : forall env rounds w id fd, later (K := ctl) env fresh_world w -> In (fd, FRaw (Some id)) (w_files w) -> 0 <= id < 65535 -> snd (new_socket env rounds (close_dev w fd) id) = None.
Proof.
  intros env rounds w id fd L I B. assert (S : sane (close_dev w fd)) by (apply (sane_happens ctl env w); [exact (sane_later _ _ _ _ L sane_fresh)|apply PStop]).
  destruct (new_socket env rounds (close_dev w fd) id) as [w' r] eqn:E. destruct (new_socket_at _ _ _ _ _ _ (sn_below _ S) E) as [(-> & _)|(-> & j & _ & NH & I1 & _)]; [reflexivity|]. exfalso. apply NH. rewrite I1 by lia. unfold u16. rewrite Z.mod_small by lia.
  unfold held. apply in_flat_map. exists (fd, FRaw (Some id)). split; [|now left]. unfold close_dev. destruct (existsb _ _); exact I.
Qed.
Print Assumptions C156_configuration. Print Assumptions C156_accepted. Print Assumptions C156_later. Print Assumptions C157_device. Print Assumptions C157_failure. Print Assumptions C157_works. Print Assumptions C158_exclusive.
Print Assumptions C158_taken_when_free. Print Assumptions C158_reopen. Print Assumptions C159_silent. Print Assumptions C159_ends. Print Assumptions C160_security_refuted. Print Assumptions C160_roles_refuted. Print Assumptions C161_leak_refuted.
Print Assumptions C162_retry_refuted. Print Assumptions C162_available_after_a_second_refuted. Print Assumptions C163_first_available_refuted. Print Assumptions C164_stop_then_open_refuted.
