(** Credits and frame sizes: all histories. *)
Require Import Verif.Base Verif.M_attsrv Verif.M_gattcli Verif.M_coc Verif.S_coc Verif.P_gattcli Verif.P_gattcli3 Verif.P_coc Verif.P_coc2 Verif.P_coc3 Verif.P_coc4.

Lemma code_cases : forall w m s b code, sc_code b = Ret code ->
  handle_cmd w m s b = handle_disconnect w s b \/ handle_cmd w m s b = handle_param_update w m s b \/ handle_cmd w m s b = Ret s \/ (code = 22 /\ handle_cmd w m s b = handle_credit s b) \/ (code <> 22 /\ handle_cmd w m s b = handle_other w s b).
Proof.
  intros w m s b code E. unfold handle_cmd. rewrite E. cbn [gbind]. destruct code as [|p|p]; try (do 4 right; split; [lia|reflexivity]).
  do 5 (destruct p as [p|p|]; try (do 4 right; split; [lia|reflexivity]); try (left; reflexivity); try (right; left; reflexivity); try (do 2 right; left; reflexivity); try (do 3 right; left; split; reflexivity)).
Qed.
Lemma nth_in : forall {A} (l : list A) k x, nth_error l k = Some x -> In x l.
Proof. intros A l k x H. eapply nth_error_In; eassumption. Qed.
Lemma upd_in : forall {A} (l : list A) k x y, In y (upd l k x) -> y = x \/ In y l.
Proof. intros A l. induction l as [|z l IH]; intros [|k] x y I; cbn [upd] in I; try (destruct I; fail); destruct I as [<-|I]; auto; [right; now right|right; now left|]. destruct (IH _ _ _ I); auto. right. now right. Qed.
Lemma cmd_acct : forall cid ps w m s b c s', cid <> 5 -> invK ps s -> all_bytes b -> first_cmd b c -> commanded ps c -> handle_cmd w m s b = Ret s' ->
  invK ps s' /\ acct cid s' <= acct cid s + grant cid c.
Proof.
  intros cid ps w m s b c s' N5 K B FC CM H. destruct (first_data b c FC) as (D1 & D2 & D3). destruct (first_bytes b c B FC) as (BC & BI & BD).
  assert (G0 : 0 <= grant cid c) by (destruct c as [c1 c2 c3]; now apply grant_nonneg).
  assert (Q : q5 s s' -> invK ps s' /\ acct cid s' <= acct cid s + grant cid c). { intro Q. split; [now apply (q5_K ps s)|]. rewrite (q5_acct cid s s') by assumption. lia. }
  assert (SAME : invK ps s /\ acct cid s <= acct cid s + grant cid c) by (split; [exact K|lia]).
  destruct (code_cases w m s b _ D1) as [E|[E|[E|[[EC E]|[EC E]]]]]; rewrite E in H; clear E.
  - unfold handle_disconnect in H. rewrite D3 in H. cbn [gbind] in H. destruct (sig_unmarshal 6 _) as [[| | |dcid scid| | | | | | | |]|]; try (injection H as <-; exact SAME). rewrite D2 in H. cbn [gbind] in H.
    destruct (dcid =? 4); cbn [negb] in H; [destruct (scid =? 4); cbn [negb] in H|]; injection H as <-; try exact SAME; apply Q, q5_response.
  - unfold handle_param_update in H. destruct m; cbn [negb] in H.
    + rewrite D3 in H. cbn [gbind] in H. destruct (sig_unmarshal 18 _) as [[| | | | |x1 x2 x3 x4| | | | | |]|]; try (injection H as <-; exact SAME). rewrite D2 in H. cbn [gbind] in H. injection H as <-. apply Q. exact (q5_response w (set_hci (c_hci s ++ [[x1; x2; x3; x4; 0; 0]]) s) (x_id c) (SParRsp 0)).
    + rewrite D2 in H. cbn [gbind] in H. injection H as <-. apply Q, q5_response.
  - injection H as <-. exact SAME.
  - unfold handle_credit in H. rewrite D3 in H. cbn [gbind] in H. destruct c as [c1 c2 d]. cbn [x_code x_data x_id] in *. subst c1. rewrite grant_fields in *.
    destruct (sig_unmarshal 22 d) as [[| | | | | | | | |x n| |]|] eqn:U; try (injection H as <-; exact SAME). injection H as <-.
    destruct (modify_credits s x n true) as [s1 b1] eqn:M. cbn [fst]. rewrite Z.eqb_refl in *. eapply modify_add; [exact K| |exact M].
    unfold sig_unmarshal in U. destruct (get_fields 2 d) as [l|] eqn:G; [|discriminate U]. apply get_fields_range in G; [|exact BD]. destruct l as [|? [|? [|? ?]]]; try discriminate U; []. injection U as <- <-. do 2 (apply Forall_cons_iff in G; destruct G as [? G]). assumption.
  - unfold handle_other in H. rewrite D2 in H. cbn [gbind] in H. destruct (aget (c_pend s) (x_id c)) as [k|]; [|injection H as <-; apply Q, q5_response].
    destruct (nth_error (c_wait s) k) as [wt|] eqn:NW; injection H as <-; [|exact SAME]. destruct (first_split b c 0 FC) as (r & FS). change (split_cmds 0 r) with (@nil scmd) in FS.
    assert (W0 := waiting_nonneg cid ps s K wt (nth_in _ _ _ NW)). destruct K as (K1 & K2 & K3 & K4). split.
    + split; [exact K1|]. split; [|split; [exact K3|exact K4]]. cbn [set_pend set_wait c_wait]. intros x b0 I E. apply upd_in in I. destruct I as [->|I]; [|now apply (K2 x)]. cbn in E. injection E as <-. split; [exact B|].
      intros c0 I. rewrite FS in I. destruct I as [<-|[]]. exact CM.
    + unfold acct. cbn [set_pend set_wait c_log c_lut c_send c_wait]. rewrite (sumZ_upd (waiting cid) (c_wait s) k wt) by assumption.
      assert (W1 : waiting cid (mkW (w_id wt) (w_local wt) (Some b) (w_done wt)) <= grant cid c); [|lia]. unfold waiting. cbn [w_done w_rsp]. destruct (w_done wt); [exact G0|]. rewrite FS. unfold sumZ. cbn [fold_right]. lia.
Qed.
Lemma loop_acct : forall n cid ps w m s b s', cid <> 5 -> invK ps s -> all_bytes b -> (forall c, In c (split_cmds n b) -> commanded ps c) -> sig_loop n w m s b = Ret s' ->
  invK ps s' /\ acct cid s' <= acct cid s + sumZ (grant cid) (split_cmds n b).
Proof.
  induction n as [|n IH]; intros cid ps w m s b s' N5 K B CM H; cbn [sig_loop] in H; [injection H as <-; split; [exact K|unfold sumZ; cbn; lia]|]. destruct b as [|x b]; [injection H as <-; split; [exact K|unfold sumZ; cbn; lia]|].
  destruct (handle_cmd w m s (x :: b)) as [s1|] eqn:E; [|discriminate]. cbn [gbind] in H. destruct (sc_len (x :: b)) as [l|] eqn:L; [|discriminate]. cbn [gbind] in H. destruct (gfrom (x :: b) (4 + l)) as [r|] eqn:G; [|discriminate]. cbn [gbind] in H.
  destruct (cmd_first _ _ _ L G) as (c & i & l1 & l2 & t & EB & EL & LT & ER & _ & _ & _).
  assert (SP : split_cmds (S n) (x :: b) = mkSC c i (firstn l t) :: split_cmds n r). { rewrite EB, EL. cbn [split_cmds]. rewrite <- EL, (proj2 (Nat.leb_le _ _) LT), ER. reflexivity. }
  rewrite SP in *. assert (FC : first_cmd (x :: b) (mkSC c i (firstn l t))). { exists l1, l2, t. cbn [x_code x_id x_data]. rewrite <- EL. auto. }
  destruct (cmd_acct cid ps w m s (x :: b) _ s1 N5 K B FC (CM _ (or_introl eq_refl)) E) as [K1 A1].
  assert (BR : all_bytes r). { rewrite ER. rewrite EB in B. do 4 (let H := fresh in apply Forall_cons_iff in B; destruct B as [H B]). now apply Forall_skipn. }
  destruct (IH cid ps w m s1 r s' N5 K1 BR (fun c0 I => CM c0 (or_intror I)) H) as [K2 A2]. split; [exact K2|]. unfold sumZ in *. cbn [fold_right]. lia.
Qed.
Lemma signal_acct : forall cid ps w m s p s', cid <> 5 -> invK ps s -> all_bytes p -> In p ps -> on_channel 5 p = true -> handle_signal w m s p = Ret s' -> invK ps s' /\ acct cid s' <= acct cid s + grants_in cid p.
Proof.
  intros cid ps w m s p s' N5 K B IP ON H. destruct p as [|l1 [|l2 [|a [|b t]]]]; try discriminate ON. assert (AB : a = 5 /\ b = 0). { do 4 (let H := fresh in apply Forall_cons_iff in B; destruct B as [H B]). cbn [on_channel] in ON. unfold de16, is_byte in *. lia. }
  destruct AB as [-> ->]. unfold handle_signal in H. cbn [gslice Nat.leb length andb Nat.sub firstn skipn gbind gle16] in H. rewrite gfrom_ok in H by (cbn [length]; lia). cbn [skipn gbind] in H.
  assert (BT : all_bytes t) by (do 4 (let H := fresh in apply Forall_cons_iff in B; destruct B as [H B]); exact B).
  cbn [grants_in]. destruct (de16 l1 l2 >? 515) eqn:E.
  - assert (de16 l1 l2 <=? 515 = false) as -> by lia. destruct (sc_id t) as [id|]; [|discriminate]. cbn [gbind] in H. injection H as <-. split; [eapply q5_K; [apply q5_response|exact K]|]. rewrite (q5_acct cid s) by (assumption || apply q5_response). lia.
  - assert (de16 l1 l2 <=? 515 = true) as -> by lia. destruct (sc_code t); [|discriminate]. cbn [gbind] in H. destruct (sc_id t); [|discriminate]. cbn [gbind] in H. eapply loop_acct; [exact N5|exact K|exact BT| |exact H].
    intros c I. exists l1, l2, t. auto.
Qed.
Lemma receive_quiet : forall w s cid data s' ok, coc_receive w s cid data = Ret (s', ok) -> c_next s' = c_next s /\ c_lut s' = c_lut s /\ c_wait s' = c_wait s /\ c_send s' = c_send s /\ exists l, c_log s' = c_log s ++ l /\ Forall (fun p => on_channel 5 p = true) l.
Proof.
  intros w s cid data s' ok H. unfold coc_receive in H. destruct (find_local (c_lut s) cid) as [i|]; [|injection H as <- <-; do 4 (split; [reflexivity|]); exists []; split; [now rewrite app_nil_r|constructor]].
  match type of H with gbind ?x _ = _ => destruct x as [[size buf]|]; [|discriminate] end. cbn [gbind] in H. match type of H with gbind ?x _ = _ => destruct x as [[s1 ok1]|] eqn:E; [|discriminate] end. cbn [gbind] in H. injection H as <- <-.
  assert (PC : forall ch bb s2 o2, push_chan s ch bb = Ret (s2, o2) -> c_next s2 = c_next s /\ c_lut s2 = c_lut s /\ c_wait s2 = c_wait s /\ c_send s2 = c_send s /\ c_log s2 = c_log s).
  { intros [n|] bb s2 o2 P; cbn [push_chan] in P; [|injection P as <- <-; auto]. destruct (nth_error (c_chans s) n) as [[q [|]]|]; [destruct (Nat.ltb _ _)|discriminate|]; injection P as <- <-; auto. }
  assert (S1 : c_next s1 = c_next s /\ c_lut s1 = c_lut s /\ c_wait s1 = c_wait s /\ c_send s1 = c_send s /\ c_log s1 = c_log s).
  { destruct (_ >=? _); [|injection E as <- <-; auto]. destruct (_ >? _); [now apply PC in E|]. destruct (ci_chan i); [now apply PC in E|injection E as <- <-; auto]. }
  destruct S1 as (S1 & S2 & S3 & S4 & S5). destruct (q5_signal w s1 (SCredit cid 1)) as [(E1 & E2 & E3 & E4 & E5) (l & L & F)]. rewrite E1, E2, E3, E4. do 4 (split; [assumption|]). exists l. rewrite L, S5. auto.
Qed.
Lemma acct_eq : forall cid s s', cid <> 5 -> c_lut s' = c_lut s -> c_wait s' = c_wait s -> c_send s' = c_send s -> (exists l, c_log s' = c_log s ++ l /\ Forall (fun p => on_channel 5 p = true) l) -> acct cid s' = acct cid s.
Proof.
  intros cid s s' N E2 E3 E4 (l & L & F). transitivity (acct cid (set_log (c_log s') s)).
  - unfold acct. cbn [set_log c_log c_lut c_send c_wait]. now rewrite E2, E3, E4.
  - apply q5_acct; [exact N|]. split; [unfold quiet; auto|]. exists l. auto.
Qed.
Lemma K_eq : forall ps s s', c_lut s' = c_lut s -> c_wait s' = c_wait s -> c_send s' = c_send s -> (exists l, c_log s' = c_log s ++ l /\ Forall (fun p => on_channel 5 p = true) l) -> invK ps s -> invK ps s'.
Proof.
  intros ps s s' E2 E3 E4 (l & L & F) (K1 & K2 & K3 & K4). unfold invK. rewrite E2, E3, E4, L. split; [exact K1|]. split; [exact K2|]. split; [exact K3|].
  intros p I. apply in_app_or in I. destruct I as [I|I]; [now apply K4|left]. rewrite Forall_forall in F. now apply F.
Qed.
Lemma rsp_parts : forall ps b code id d dcid mtu mps credits result, rok ps b -> sc_code b = Ret code -> code = 21 -> sc_id b = Ret id -> sc_data b = Ret d -> sig_unmarshal 21 d = Some (SCocRsp dcid mtu mps credits result) -> result = 0 ->
  0 <= dcid < 65536 /\ 0 <= credits <= 65535 /\ announced ps dcid mps /\ forall cid, sumZ (grant cid) (split_cmds 1 b) = if dcid =? cid then credits else 0.
Proof.
  intros ps b code id d dcid mtu mps credits result [B R] C -> I D U ->.
  assert (FC : first_cmd b (mkSC 21 id d)).
  { unfold sc_data in D. destruct (sc_len b) as [l|] eqn:L; [|discriminate]. cbn [gbind] in D. assert (G := gslice_inv _ _ _ _ D). destruct G as (_ & G1 & G2). destruct (gfrom b (4 + l)) as [r|] eqn:GR; [|rewrite gfrom_ok in GR by lia; discriminate].
    destruct (cmd_first _ _ _ L GR) as (c & i & l1 & l2 & t & EB & EL & LT & ER & C' & I' & D'). rewrite C in C'. injection C' as <-. rewrite I in I'. injection I' as <-. exists l1, l2, t. cbn [x_code x_id x_data]. rewrite <- EL. split; [exact EB|]. split; [exact LT|].
    unfold sc_data in D'. rewrite L in D'. cbn [gbind] in D'. rewrite D in D'. now injection D'. }
  destruct (first_split b _ 0 FC) as (r & FS). change (split_cmds 0 r) with (@nil scmd) in FS. destruct (first_bytes b _ B FC) as (_ & _ & BD). cbn [x_data] in BD.
  assert (U0 := U). unfold sig_unmarshal in U. destruct (get_fields 5 d) as [l|] eqn:G; [|discriminate U]. assert (G0 := G). apply get_fields_range in G; [|exact BD].
  destruct l as [|? [|? [|? [|? [|? [|? ?]]]]]]; try discriminate U; []. injection U as -> -> -> -> ->.
  apply Forall_cons_iff in G. destruct G as [R1 G]. apply Forall_cons_iff in G. destruct G as [_ G]. apply Forall_cons_iff in G. destruct G as [_ G]. apply Forall_cons_iff in G. destruct G as [R4 G].
  split; [exact R1|]. split; [lia|]. split.
  - exists (mkSC 21 id d). split; [apply R; rewrite FS; now left|]. cbn [mps_of x_code x_data]. cbn [get_fields] in G0. do 10 (destruct d as [|? d]; [discriminate G0|]). injection G0 as <- <- <- <- E5. rewrite Z.eqb_refl, E5. reflexivity.
  - intro cid. rewrite FS. unfold sumZ. cbn [fold_right]. rewrite grant_fields, U0. cbn [Z.eqb Pos.eqb]. rewrite andb_true_r. destruct (dcid =? cid); lia.
Qed.
Lemma finish_acct : forall cid ps s k s' r, invK ps s -> open_finish s k = Ret (s', r) -> invK ps s' /\ acct cid s' <= acct cid s.
Proof.
  intros cid ps s k s' r K H. unfold open_finish in H. destruct (nth_error (c_wait s) k) as [wt|] eqn:N; [|injection H as <- <-; split; [exact K|lia]].
  destruct (w_done wt) eqn:D; [injection H as <- <-; split; [exact K|lia]|].
  set (s1 := set_pend _ _) in H. assert (W0 := waiting_nonneg cid ps s K wt (nth_in _ _ _ N)).
  assert (A1 : acct cid s1 = acct cid s - waiting cid wt).
  { unfold acct, s1. cbn [set_pend set_wait c_log c_lut c_send c_wait]. rewrite (sumZ_upd (waiting cid) (c_wait s) k wt) by assumption. change (waiting cid (mkW (w_id wt) (w_local wt) (w_rsp wt) true)) with 0. lia. }
  assert (K1 : invK ps s1). { destruct K as (K1 & K2 & K3 & K4). split; [exact K1|]. split; [|split; [exact K3|exact K4]]. cbn [s1 set_pend set_wait c_wait]. intros x b0 I E. apply upd_in in I. destruct I as [->|I]; [|now apply (K2 x)]. cbn in E. apply (K2 wt); [eapply nth_in; exact N|exact E]. }
  assert (DONE : invK ps s1 /\ acct cid s1 <= acct cid s) by (split; [exact K1|lia]).
  clearbody s1.
  destruct (w_rsp wt) as [b|] eqn:EW; [|injection H as <- <-; exact DONE]. destruct (sc_code b) as [code|] eqn:C; [|discriminate]. cbn [gbind] in H. destruct (code =? 21) eqn:E21; cbn [negb] in H; [|injection H as <- <-; exact DONE].
  destruct (sc_id b) as [id|] eqn:I; [|discriminate]. cbn [gbind] in H. destruct (id =? c_sig s); cbn [negb] in H; [|injection H as <- <-; exact DONE].
  destruct (sc_data b) as [d|] eqn:SD; [|discriminate]. cbn [gbind] in H. destruct (sig_unmarshal 21 d) as [[| | | | | | | |dcid mtu mps credits result| | |]|] eqn:U; try (injection H as <- <-; exact DONE).
  destruct (result =? 0) eqn:R0; cbn [negb] in H; [|injection H as <- <-; exact DONE]. unfold add_channel in H. destruct (aget (c_lut s1) dcid) as [v|] eqn:G; [injection H as <- <-; exact DONE|]. injection H as <- <-.
  apply Z.eqb_eq in E21, R0. assert (RK : rok ps b) by (apply (proj1 (proj2 K) wt); [eapply nth_in; exact N|exact EW]).
  destruct (rsp_parts ps b code id d dcid mtu mps credits result RK C E21 I SD U R0) as (P1 & P2 & P3 & P4). split; [apply K_lut; auto|].
  assert (WV : waiting cid wt = if dcid =? cid then credits else 0). { unfold waiting. rewrite D, EW. apply P4. }
  assert (A2 : acct cid (set_lut (aset (c_lut s1) dcid (mkCI (w_local wt) dcid credits mtu mps None None)) s1) = acct cid s1 + (if dcid =? cid then credits else 0)); [|lia].
  unfold acct. cbn [set_lut c_log c_lut c_send c_wait]. unfold creds. rewrite aget_aset. rewrite (Z.eqb_sym cid dcid). destruct (dcid =? cid) eqn:Q; [|lia]. apply Z.eqb_eq in Q. subst cid. rewrite G. cbn. lia.
Qed.
Lemma frame_on : forall cid c total ch, 0 <= c < 65536 -> on_channel cid (coc_frame c total ch) = (c =? cid).
Proof. intros cid c total ch R. unfold coc_frame. cbn [le16 app on_channel]. now rewrite de16_le16. Qed.
Lemma step_acct : forall cid ps w m s o s' r, cid <> 5 -> inv s -> invK ps s -> typed_op o -> kstep w m s o = Ret (s', r) ->
  let qs := match o with KIncoming p => [p] | _ => [] end in invK (ps ++ qs) s' /\ acct cid s' <= acct cid s + sumZ (grants_in cid) qs.
Proof.
  intros cid ps w m s o s' r N5 I K T H. destruct o; cbv zeta; rewrite ?app_nil_r; cbn [kstep] in H.
  - unfold sumZ; cbn [fold_right]. destruct (open_start w s psm) as [s1 x] eqn:E. assert (s' = s1) as -> by (destruct x; injection H as <- <-; reflexivity). clear H. unfold open_start, next_cid in E. destruct (_ || _); [injection E as <- <-; split; [exact K|lia]|].
    destruct (put_pdu _ _ _) as [s2 b] eqn:P. apply q5_put in P. destruct P as [(Q1 & Q2 & Q3 & Q4 & Q5) L]. cbn [set_pend set_sig set_next c_next c_lut c_wait c_send c_chans c_log] in *.
    assert (K2 : invK ps s2) by (eapply K_eq; eassumption). assert (A2 : acct cid s2 = acct cid s) by (now apply acct_eq). destruct b; injection E as <- <-.
    + split.
      * destruct K2 as (K1 & K2 & K3 & K4). split; [exact K1|]. split; [|split; [exact K3|exact K4]]. cbn [set_wait c_wait]. intros wt b J X. apply in_app_or in J. destruct J as [J|[<-|[]]]; [now apply (K2 wt)|discriminate].
      * rewrite <- A2. unfold acct. cbn [set_wait c_log c_lut c_send c_wait]. rewrite sumZ_app. match goal with |- context [sumZ (waiting cid) [?x]] => change (sumZ (waiting cid) [x]) with 0 end. lia.
    + split; [exact K2|]. rewrite <- A2. unfold acct. cbn [set_pend c_log c_lut c_send c_wait]. lia.
  - unfold sumZ; cbn [fold_right]. destruct (open_finish s k) as [[s1 c]|] eqn:E; [|discriminate]. cbn [gbind] in H. injection H as <- <-. destruct (finish_acct cid ps s k s1 c K E). split; [assumption|lia].
  - assert (SG : sumZ (grants_in cid) [pdu] = grants_in cid pdu) by (unfold sumZ; cbn [fold_right]; lia). rewrite SG. cbn [typed_op] in T. assert (K' := K_app ps [pdu] s K).
    assert (GN : 0 <= grants_in cid pdu). { unfold grants_in. destruct pdu as [|l1 [|l2 [|a [|b t]]]]; try exact (Z.le_refl 0); destruct a as [|a|a]; try exact (Z.le_refl 0); do 3 (destruct a as [a|a|]; try exact (Z.le_refl 0)); destruct b; try exact (Z.le_refl 0). destruct (de16 l1 l2 <=? 515); [|exact (Z.le_refl 0)]. apply grants_nonneg. do 4 (let H := fresh in apply Forall_cons_iff in T; destruct T as [H T]). exact T. }
    destruct (gslice pdu 2 4) as [h|] eqn:GS; [|discriminate]. cbn [gbind] in H. destruct (gle16 h) as [c|] eqn:GL; [|discriminate]. cbn [gbind] in H.
    assert (ONC : on_channel c pdu = true). { apply gslice_inv in GS. destruct GS as (_ & GS1 & ->). destruct pdu as [|l1 [|l2 [|a [|b t]]]]; try (cbn in GS1; lia). cbn in GL. injection GL as <-. cbn. apply Z.eqb_refl. }
    destruct (c =? 5) eqn:E5.
    + apply Z.eqb_eq in E5. subst c. destruct (handle_signal w m s pdu) as [s1|] eqn:E; [|discriminate]. cbn [gbind] in H. injection H as <- <-. eapply signal_acct; try eassumption. apply in_or_app. right. now left.
    + destruct (_ && _); [|injection H as <- <-; split; [exact K'|lia]]. destruct (gfrom pdu 4) as [b|]; [|discriminate]. cbn [gbind] in H. destruct (coc_receive w s c b) as [[s1 ok]|] eqn:E; [|discriminate]. cbn [gbind] in H. injection H as <- <-.
      apply receive_quiet in E. destruct E as (E1 & E2 & E3 & E4 & E5'). split; [eapply K_eq; eassumption|]. rewrite (acct_eq cid s s1) by assumption. lia.
  - unfold sumZ; cbn [fold_right]. destruct (coc_subscribe s local) as [s1 x] eqn:E. assert (s' = s1) as -> by (destruct x; injection H as <- <-; reflexivity). clear H. unfold coc_subscribe in E. destruct (find_local (c_lut s) local) as [i|] eqn:F; [|injection E as <- <-; split; [exact K|lia]].
    destruct (ci_chan i); [injection E as <- <-; split; [exact K|lia]|]. injection E as <- <-. destruct (local_key s local i I F) as (G & L & X). destruct (proj1 K _ _ (aget_in _ _ _ G)) as (R1 & R2 & R3). split.
    + apply (K_lut ps (set_chans (c_chans s ++ [([], true)]) s)); auto.
    + unfold acct. cbn [set_lut set_chans c_log c_lut c_send c_wait]. unfold creds. rewrite aget_aset. destruct (cid =? ci_remote i) eqn:Q; [|lia]. apply Z.eqb_eq in Q. subst cid. rewrite G. cbn. lia.
  - unfold sumZ; cbn [fold_right]. destruct (coc_unsubscribe s local) as [s1 x] eqn:E. assert (s' = s1) as -> by (destruct x; injection H as <- <-; reflexivity). clear H. unfold coc_unsubscribe in E. destruct (find_local (c_lut s) local) as [i|] eqn:F; [|injection E as <- <-; split; [exact K|lia]].
    injection E as <- <-. destruct (local_key s local i I F) as (G & L & X). destruct (proj1 K _ _ (aget_in _ _ _ G)) as (R1 & R2 & R3).
    assert (CC : c_lut (close_chan s (ci_chan i)) = c_lut s /\ c_wait (close_chan s (ci_chan i)) = c_wait s /\ c_send (close_chan s (ci_chan i)) = c_send s /\ c_log (close_chan s (ci_chan i)) = c_log s) by (destruct (ci_chan i) as [n|]; cbn [close_chan]; [destruct (nth_error (c_chans s) n) as [[q o]|]|]; auto).
    destruct CC as (C1 & C2 & C3 & C4). split.
    + rewrite <- C1. apply K_lut; auto. eapply K_eq; [exact C1|exact C2|exact C3| |exact K]. exists []. split; [now rewrite C4, app_nil_r|constructor].
    + unfold acct. cbn [set_lut c_log c_lut c_send c_wait]. rewrite C2, C3, C4. unfold creds. rewrite aget_aset. destruct (cid =? ci_remote i) eqn:Q; [|lia]. apply Z.eqb_eq in Q. subst cid. rewrite G. cbn. lia.
  - unfold sumZ; cbn [fold_right]. destruct (close_channel s remote) as [s1 x] eqn:E. injection H as <- <-. assert (CN := creds_nonneg cid ps s K). unfold close_channel in E. destruct (aget (c_lut s) remote) as [i|] eqn:G; [|injection E as <- <-; split; [exact K|lia]]. injection E as <- <-.
    assert (CC : c_lut (close_chan s (ci_chan i)) = c_lut s /\ c_wait (close_chan s (ci_chan i)) = c_wait s /\ c_send (close_chan s (ci_chan i)) = c_send s /\ c_log (close_chan s (ci_chan i)) = c_log s) by (destruct (ci_chan i) as [n|]; cbn [close_chan]; [destruct (nth_error (c_chans s) n) as [[q o]|]|]; auto).
    destruct CC as (C1 & C2 & C3 & C4). split.
    + destruct K as (K1 & K2 & K3 & K4). unfold invK. cbn [set_lut c_lut c_wait c_send c_log]. rewrite C2, C3, C4. split; [|auto]. intros k j J. apply adel_in in J. now apply K1.
    + unfold acct. cbn [set_lut c_log c_lut c_send c_wait]. rewrite C2, C3, C4. unfold creds at 1. rewrite aget_adel. destruct (cid =? remote); [lia|]. fold (creds cid (c_lut s)). lia.
  - unfold sumZ; cbn [fold_right]. destruct (nth_error (c_chans s) ch) as [[[|b q] [|]]|] eqn:E; injection H as <- <-; (split; [exact K|unfold acct; cbn [set_chans c_log c_lut c_send c_wait]; lia]).
  - unfold sumZ; cbn [fold_right]. unfold send_start in H. destruct (aget (c_lut s) remote) as [i|] eqn:G; [|injection H as <- <-; split; [exact K|lia]]. destruct (_ <=? 2) eqn:E; injection H as <- <-; [split; [exact K|lia]|]. split.
    + destruct K as (K1 & K2 & K3 & K4). destruct (K1 _ _ (aget_in _ _ _ G)) as (R1 & R2 & R3). split; [exact K1|]. split; [exact K2|]. split; [|exact K4]. cbn [set_send c_send]. intros d J. apply in_app_or in J. destruct J as [J|[<-|[]]]; [now apply K3|]. cbn [sd_cid sd_mps sd_have]. split; [exact R1|]. split; [exact R3|]. split; [lia|discriminate].
    + unfold acct. cbn [set_send c_log c_lut c_send c_wait]. rewrite sumZ_app. unfold sumZ at 2. cbn [fold_right]. unfold inflight at 2. cbn [sd_cid sd_have]. destruct (_ =? _); lia.
  - unfold sumZ; cbn [fold_right]. unfold send_credit in H. destruct (nth_error (c_send s) k) as [d|] eqn:N; [|injection H as <- <-; split; [exact K|lia]]. destruct (sd_done d); [injection H as <- <-; split; [exact K|lia]|]. destruct (sd_have d) as [hv|] eqn:HV; [injection H as <- <-; split; [exact K|lia]|].
    destruct (proj1 (proj2 (proj2 K)) d (nth_in _ _ _ N)) as (S1 & S2 & S3 & S4).
    assert (IDLE : forall x, sd_cid x = sd_cid d -> sd_mps x = sd_mps d -> sd_have x = None -> invK ps (upd_sd s k x) /\ acct cid (upd_sd s k x) <= acct cid s + 0).
    { intros x X1 X2 X3. split.
      - destruct K as (K1 & K2 & K3 & K4). split; [exact K1|]. split; [exact K2|]. split; [|exact K4]. cbn [upd_sd set_send c_send]. intros y J. apply upd_in in J. destruct J as [->|J]; [|now apply K3]. rewrite X1, X2, X3. split; [exact S1|]. split; [exact S2|]. split; [exact S3|discriminate].
      - unfold acct, upd_sd. cbn [set_send c_log c_lut c_send c_wait]. rewrite (sumZ_upd (inflight cid) (c_send s) k d) by assumption. unfold inflight at 2 3. rewrite X1, X3, HV. destruct (_ =? _); lia. }
    destruct (sd_rest d) as [|x t]; [injection H as <- <-; now apply IDLE|]. destruct (modify_credits s (sd_cid d) 1 false) as [s1 [|]] eqn:E.
    + injection H as <- <-. destruct (modify_take ps s _ s1 cid K E) as (K1 & A1 & SS). split.
      * destruct K1 as (K1 & K2 & K3 & K4). split; [exact K1|]. split; [exact K2|]. split; [|exact K4]. cbn [upd_sd set_send c_send]. intros y J. apply upd_in in J. destruct J as [->|J]; [|now apply K3]. cbn [sd_cid sd_mps sd_have]. split; [exact S1|]. split; [exact S2|]. split; [exact S3|].
        intros ch X. injection X as <-. rewrite firstn_length. lia.
      * unfold acct, upd_sd. cbn [set_send c_log c_lut c_send c_wait]. rewrite SS. rewrite (sumZ_upd (inflight cid) (c_send s) k d) by assumption. unfold acct in A1. rewrite SS in A1. unfold inflight at 2 3. cbn [sd_cid sd_have]. rewrite HV. destruct (_ =? _); lia.
    + destruct (Nat.ltb _ 9); injection H as <- <-; now apply IDLE.
  - unfold sumZ; cbn [fold_right]. unfold send_frame in H. destruct (nth_error (c_send s) k) as [d|] eqn:N; [|injection H as <- <-; split; [exact K|lia]]. destruct (sd_have d) as [ch|] eqn:HV; [|injection H as <- <-; split; [exact K|lia]].
    destruct (proj1 (proj2 (proj2 K)) d (nth_in _ _ _ N)) as (S1 & S2 & S3 & S4). unfold put_pdu in H. destruct K as (K1 & K2 & K3 & K4).
    assert (SND : forall x, sd_cid x = sd_cid d -> sd_mps x = sd_mps d -> sd_have x = None -> forall y, In y (upd (c_send s) k x) -> 0 <= sd_cid y < 65536 /\ announced ps (sd_cid y) (sd_mps y) /\ 2 < sd_mps y /\ (forall c, sd_have y = Some c -> Z.of_nat (length c) <= sd_mps y - 2)).
    { intros x X1 X2 X3 y J. apply upd_in in J. destruct J as [->|J]; [|now apply K3]. rewrite X1, X2, X3. split; [exact S1|]. split; [exact S2|]. split; [exact S3|discriminate]. }
    destruct (w (c_log s)); injection H as <- <-.
    + split.
      * split; [exact K1|]. split; [exact K2|]. split; [now apply SND|]. cbn [upd_sd set_send set_log c_log]. intros p J. apply in_app_or in J. destruct J as [J|[<-|[]]]; [now apply K4|]. right. exists (sd_cid d), (sd_mps d). split; [exact S2|]. split; [rewrite frame_on by assumption; apply Z.eqb_refl|].
        specialize (S4 ch HV). unfold coc_frame. cbn [le16 app length]. lia.
      * unfold acct, upd_sd. cbn [set_send set_log c_log c_lut c_send c_wait]. rewrite (sumZ_upd (inflight cid) (c_send s) k d) by assumption. rewrite frames_app. unfold frames_on at 2. cbn [filter]. rewrite frame_on by assumption.
        unfold inflight at 2 3. cbn [sd_cid sd_have]. rewrite HV. destruct (_ =? _); cbn [length]; lia.
    + split.
      * split; [exact K1|]. split; [exact K2|]. split; [now apply SND|exact K4].
      * unfold acct, upd_sd. cbn [set_send c_log c_lut c_send c_wait]. rewrite (sumZ_upd (inflight cid) (c_send s) k d) by assumption. unfold inflight at 2 3. cbn [sd_cid sd_have]. rewrite HV. destruct (_ =? _); lia.
Qed.
Lemma incoming_app : forall es es', incoming (es ++ es') = incoming es ++ incoming es'.
Proof. intros. unfold incoming. apply flat_map_app. Qed.
Lemma hist_acct : forall cid m es s, cid <> 5 -> khist m es s -> invK (incoming es) s /\ acct cid s <= sumZ (grants_in cid) (incoming es).
Proof.
  intros cid m es s N5 H. induction H as [|es s w o s' r H IH T K].
  - split; [|cbn; unfold acct; cbn; lia]. unfold invK. cbn. split; [intros k i []|]. split; [intros wt b []|]. split; [intros d []|intros p []].
  - destruct IH as [IK IA]. destruct (step_acct cid (incoming es) w m s o s' r N5 (inv_hist _ _ _ H) IK T K) as [K' A']. rewrite incoming_app. unfold incoming at 2 4. cbn [flat_map fst]. rewrite app_nil_r. rewrite sumZ_app. split; [exact K'|]. lia.
Qed.
