(** C121-C122: incoming packets from the transport to the handlers, and the end of an HCI. *)
Require Import Verif.Base Verif.M_h4 Verif.S_h4 Verif.P_h4 Verif.Props_h4 Verif.M_life Verif.S_life Verif.P_life.

(** C121.  At any time the packets handled are, in order and each once, the first of those received *)
Theorem C121_in_order : forall raw eh s, reach raw eh s -> exists rest, l_hist s = l_handled s ++ rest.
Proof. intros raw eh s R. destruct (reach_all _ _ _ R) as (_ & (d & E & _) & _). rewrite E. eexists. reflexivity. Qed.
(** With a UART or TCP transport what is received is what the framing (C09) makes of the bytes, whatever the schedule; nothing empty or broken reaches a handler *)
Theorem C121_framed : forall eh s, reach false eh s -> exists f, rx_run new_frame (l_in s) = Ret (f, l_hist s).
Proof. intros eh s R. destruct (reach_all _ _ _ R) as (_ & _ & F). cbn in F. eexists. exact F. Qed.
Theorem C121_whole_packets : forall eh s, reach false eh s -> Forall (fun c => all_bytes (snd c)) (l_in s) -> Forall h4_packet (l_handled s).
Proof.
  intros eh s R B. destruct (C121_framed _ _ R) as [f F]. destruct (C09_only_whole_packets _ B) as (f' & o & E & P). rewrite F in E. injection E as <- <-. destruct (C121_in_order _ _ _ R) as [r X]. rewrite X in P. now apply Forall_app in P.
Qed.
Theorem C121_raw_packets : forall eh s, reach true eh s -> Forall (fun p => p <> [] /\ (length p <= 4096)%nat) (l_handled s).
Proof. intros eh s R. destruct (reach_all _ _ _ R) as (_ & _ & F). cbn in F. destruct F as [_ F]. destruct (C121_in_order _ _ _ R) as [r X]. rewrite X in F. now apply Forall_app in F. Qed.
(** The program's own steps are bounded between two events; when none is left either every packet received has been handled and the HCI waits for more, or it has stopped *)
Theorem C121_all_handled : forall raw eh s, reach raw eh s -> exists n, forall l s', execs raw eh s l s' -> Forall (fun a => internal a = true) l ->
  (length l <= n)%nat /\ (quiet raw eh s' -> (l_handled s' = l_hist s' /\ l_open s' = true /\ l_done s' = false) \/ stopped s').
Proof.
  intros raw eh s R. exists (mu s). intros l s' H IN. split; [pose proof (execs_mu _ _ _ _ _ H IN); lia|]. intro Q. pose proof (reach_run _ _ _ _ _ R H) as R'. destruct (reach_all _ _ _ R') as (W & (d & E & D) & _).
  destruct (quiet_cases _ _ _ W Q) as [[A B]|(O & DN & RR & QQ & CH & WW & XP)]; [right; split; [exact A|]; split; [exact B|]; now apply W|]. left. split; [|now split].
  unfold rp in E. rewrite RR, QQ, CH, XP, D, !app_nil_r in E; [now symmetry|]. rewrite RR. discriminate.
Qed.
(** Close, a failed transport, a command that cannot be written: the HCI stops, in a bounded number of steps *)
Theorem C121_stops : forall raw eh s, reach raw eh s -> l_done s = true \/ l_open s = false -> exists n, forall l s', execs raw eh s l s' -> Forall (fun a => internal a = true) l -> (length l <= n)%nat /\ (quiet raw eh s' -> stopped s').
Proof.
  intros raw eh s R C. destruct (C121_all_handled _ _ _ R) as [n X]. exists n. intros l s' H IN. destruct (X l s' H IN) as [L Y]. split; [exact L|]. intro Q. destruct (Y Q) as [(_ & O & DN)|Y1]; [|exact Y1]. destruct (done_open_mono _ _ _ _ _ H) as [M1 M2]. destruct C as [C|C]; [specialize (M1 C)|specialize (M2 C)]; congruence.
Qed.
(** The error handler is called by the loops at most once; exactly once if the HCI stops without having been closed, not at all if it was closed before it stopped reading *)
Theorem C121_error_handler : forall raw eh s, reach raw eh s -> (length (l_calls s) <= 1)%nat /\ (l_calls s <> [] -> eh = true) /\ (stopped s -> eh = true -> l_done s = false -> length (l_calls s) = 1%nat).
Proof.
  intros raw eh s R. destruct (reach_all _ _ _ R) as ((_ & _ & _ & _ & _ & A & B & C) & _). split; [destruct B as [-> | ->]; cbn; lia|]. split; [exact C|]. intros (_ & W & _) E D. rewrite W in A. rewrite (A E D). reflexivity.
Qed.
Theorem C121_no_call_after_close : forall raw eh s l s', reach raw eh s -> l_done s = true -> l_calls s = [] -> execs raw eh s l s' -> l_calls s' = [].
Proof.
  intros raw eh s l s' _ D N H. induction H as [s|s a s1 l s2 X E IH]; [exact N|]. apply IH.
  - apply (proj1 (done_open_mono _ _ _ [a] _ (ex_cons _ _ _ _ _ _ _ X (ex_nil _ _ _)))), D.
  - clear - X D N. destruct a; cbn [exec] in X; step X; exact N.
Qed.

Fixpoint run (raw eh : bool) (s : st) (l : list act) : option st := match l with [] => Some s | a :: r => match exec raw eh s a with Some s' => run raw eh s' r | None => None end end.
Lemma run_execs : forall raw eh l s s', run raw eh s l = Some s' -> execs raw eh s l s'.
Proof. intros raw eh. induction l as [|a l IH]; intros s s' H; cbn [run] in H; [injection H as <-; apply ex_nil|]. destruct (exec raw eh s a) as [s1|] eqn:E; [|discriminate]. exact (ex_cons _ _ _ _ _ _ _ E (IH _ _ H)). Qed.
Lemma run_reach : forall raw eh l s, run raw eh (start raw) l = Some s -> reach raw eh s. Proof. intros. exists l. now apply run_execs. Qed.
Definition pass : list act := [RTake; RCheck; RPutC; WTake; WRet].
Example C121_example : exists s, run false true (start false) ([WBegin; EChunk 0 [4; 14; 1]; EChunk 5 [7; 4; 5; 0; 2]; XPush; XPush] ++ pass ++ pass) = Some s /\ l_handled s = [[4; 14; 1; 7]; [4; 5; 0]] /\ l_handled s = l_hist s /\ l_done s = false.
Proof. eexists. split; [vm_compute; reflexivity|]. now vm_compute. Qed.
Example C121_example_stop : exists s, run true true (start true) ([WBegin; EPacket [4; 5; 0]; RTake; EClose; RCheck; RPutC; WTake; WRet; WSeen; WTell; WClose; RClosed]) = Some s /\ stopped s /\ l_handled s = [[4; 5; 0]] /\ l_calls s = [].
Proof. eexists. split; [vm_compute; reflexivity|]. now vm_compute. Qed.

(** C122 (ideal): the error handler and Error() say why the HCI stopped.  After a failed transport the handler is called with a nil error and Error() is nil *)
Theorem C122_nil_error_refuted : exists s, reach false true s /\ stopped s /\ l_done s = false /\ l_calls s = [None] /\ l_err s = None.
Proof. eexists. split; [apply (run_reach _ _ [WBegin; EFail; RClosed; WEof; WTell; WClose]); vm_compute; reflexivity|]. now vm_compute. Qed.
(** if the processing loop was started while there was no error, the handler never gets one, whatever happens *)
Theorem C122_never_told_refuted : forall raw eh s l s', reach raw eh s -> l_w s = WWait -> l_cap s = None -> execs raw eh s l s' -> l_calls s' = [] \/ l_calls s' = [None].
Proof.
  intros raw eh s l s' R W C H. assert (X : l_cap s' = None).
  { assert (NS : l_w s <> WStart) by (rewrite W; discriminate). clear - C H NS. induction H as [s|s a s1 l s2 X E IH]; [exact C|]. assert (Y : l_cap s1 = l_cap s /\ l_w s1 <> WStart); [|apply IH; [rewrite (proj1 Y); exact C|exact (proj2 Y)]].
    clear - X NS. destruct a; cbn [exec] in X; step X; cbn; split; congruence. }
  destruct (reach_all _ _ _ (reach_run _ _ _ _ _ R H)) as ((_ & _ & _ & _ & _ & _ & [B|B] & _) & _); rewrite B; [now left|right; now rewrite X].
Qed.
(** C123 (ideal): a packet the controller may send does not stop the HCI.  An ACL packet of more than 4091 bytes does, over UART or TCP, though the transport is fine *)
Definition big : list act := EChunk 0 (2 :: 0 :: 0 :: 252 :: 15 :: repeat 0 507) :: repeat (EChunk 0 (repeat 0 512)) 7 ++ [EChunk 0 [0]].
Theorem C123_long_packet_refuted : exists s, reach false true s /\ stopped s /\ l_done s = false /\ l_handled s = [] /\ exists p, l_hist s = [p] /\ h4_packet p.
Proof.
  set (acts := WBegin :: big ++ [XPush; RTake; WEof; WTell; WClose]).
  assert (P : option_map (fun s => (l_hist s, l_r s, l_w s, l_open s, l_done s, l_handled s)) (run false true (start false) acts) = Some ([2 :: 0 :: 0 :: le16 (Z.of_nat (length (repeat 0 4092))) ++ repeat 0 4092], REnd, WEnd, false, false, [])) by (vm_compute; reflexivity).
  destruct (run false true (start false) acts) as [s|] eqn:E; [|discriminate]. exists s. split; [exact (run_reach _ _ _ _ E)|]. clear E. set (pk := repeat 0 4092) in *. unfold option_map in P.
  assert (Q : (l_hist s, l_r s, l_w s, l_open s, l_done s, l_handled s) = ([2 :: 0 :: 0 :: le16 (Z.of_nat (length pk)) ++ pk], REnd, WEnd, false, false, [])) by congruence. clear P.
  apply pair_equal_spec in Q. destruct Q as [Q Q6]. apply pair_equal_spec in Q. destruct Q as [Q Q5]. apply pair_equal_spec in Q. destruct Q as [Q Q4]. apply pair_equal_spec in Q. destruct Q as [Q Q3]. apply pair_equal_spec in Q. destruct Q as [Q1 Q2].
  split; [now split|]. split; [exact Q5|]. split; [exact Q6|]. eexists. split; [exact Q1|]. apply h4_acl. vm_compute. discriminate.
Qed.
(** C124 (ideal): nothing is left running after the HCI has stopped.  The goroutine reading the UART may wait for ever for room in its queue *)
Lemma pusher_stays : forall eh s l s' p r, execs false eh s l s' -> reach false eh s -> stopped s -> l_x s = XSend (p :: r) -> length (l_q s) = 64%nat -> l_x s' = XSend (p :: r).
Proof.
  intros eh s l s' p r H. induction H as [s|s a s1 l s2 X E IH]; intros R (S1 & S2 & S3) XS LQ; [exact XS|].
  assert (Y : l_x s1 = l_x s /\ l_q s1 = l_q s /\ l_r s1 = l_r s /\ l_w s1 = l_w s /\ l_open s1 = false).
  { destruct a; cbn [exec] in X; rewrite ?XS, ?S1, ?S2, ?S3, ?LQ in X; try discriminate; step X; cbn; repeat split; congruence. }
  destruct Y as (Y1 & Y2 & Y3 & Y4 & Y5). apply IH; [exact (reach_run _ _ _ [a] _ R (ex_cons _ _ _ _ _ _ _ X (ex_nil _ _ _)))| |now rewrite Y1|now rewrite Y2]. unfold stopped. now rewrite Y3, Y4.
Qed.
Theorem C124_leak_refuted : exists s, reach false true s /\ stopped s /\ forall l s', execs false true s l s' -> l_x s' = XSend [[4; 0; 0]].
Proof.
  set (acts := WBegin :: EChunk 0 (concat (repeat [4; 0; 0] 65)) :: repeat XPush 64 ++ [EClose; WSeen; WTell; WClose; RClosed]).
  destruct (run false true (start false) acts) as [s|] eqn:E; [|vm_compute in E; discriminate]. exists s. pose proof (run_reach _ _ _ _ E) as R.
  assert (V : stopped s /\ l_x s = XSend [[4; 0; 0]] /\ length (l_q s) = 64%nat) by (vm_compute in E; injection E as <-; now vm_compute). destruct V as (V1 & V2 & V3).
  split; [exact R|]. split; [exact V1|]. intros l s' H. exact (pusher_stays _ _ _ _ _ _ H R V1 V2 V3).
Qed.
Print Assumptions C121_in_order. Print Assumptions C121_framed. Print Assumptions C121_whole_packets. Print Assumptions C121_raw_packets. Print Assumptions C121_all_handled. Print Assumptions C121_stops.
Print Assumptions C121_error_handler. Print Assumptions C121_no_call_after_close. Print Assumptions C122_nil_error_refuted. Print Assumptions C122_never_told_refuted. Print Assumptions C123_long_packet_refuted. Print Assumptions C124_leak_refuted.
