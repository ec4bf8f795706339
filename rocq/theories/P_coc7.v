(** Sending and receiving SDUs; whole signaling packets. *)
Require Import Verif.Base Verif.M_attsrv Verif.M_gattcli Verif.M_coc Verif.S_coc Verif.P_gattcli Verif.P_gattcli3 Verif.P_coc Verif.P_coc2 Verif.P_coc3 Verif.P_coc4 Verif.P_coc5 Verif.P_coc6.

Lemma modify_one : forall s cid i, aget (c_lut s) cid = Some i -> 1 <= ci_credits i <= 65535 -> ci_remote i = cid ->
  modify_credits s cid 1 false = (set_lut (aset (c_lut s) cid (mkCI (ci_local i) cid (ci_credits i - 1) (ci_mtu i) (ci_mps i) (ci_chan i) (ci_rx i))) s, true).
Proof. intros s cid i G R E. unfold modify_credits. rewrite G. destruct (1 >? ci_credits i) eqn:Q; [lia|]. rewrite E. assert (u16 (ci_credits i - 1) = ci_credits i - 1) as -> by (unfold u16; lia). reflexivity. Qed.
Lemma pieces_nil : forall f n, pieces f n [] = []. Proof. destruct f; reflexivity. Qed.
Lemma pieces_cons : forall f n d, d <> [] -> pieces (S f) n d = firstn n d :: pieces f n (skipn n d).
Proof. intros f n [|x d] H; [congruence|reflexivity]. Qed.
Lemma pieces_fuel : forall f n d, (0 < n)%nat -> (length d <= f)%nat -> pieces f n d = pieces (length d) n d.
Proof.
  induction f as [f IH] using lt_wf_ind. intros n d N L. destruct d as [|x d]; [now rewrite !pieces_nil|]. destruct f as [|f]; [cbn in L; lia|]. cbn [length] in *. rewrite !pieces_cons by discriminate. f_equal.
  assert (LS : (length (skipn n (x :: d)) <= length d)%nat) by (rewrite skipn_length; cbn [length]; lia). rewrite (IH f) by lia. destruct (Nat.eq_dec (length d) f) as [->|NE]; [symmetry; rewrite (IH f) by lia; reflexivity|]. symmetry. apply IH; lia.
Qed.
Lemma pieces_concat : forall f n d, (0 < n)%nat -> (length d <= f)%nat -> concat (pieces f n d) = d.
Proof.
  induction f as [|f IH]; intros n d N L; [destruct d; [reflexivity|cbn in L; lia]|]. destruct d as [|x d]; [reflexivity|]. rewrite pieces_cons by discriminate. cbn [concat]. rewrite IH; [apply firstn_skipn|exact N|]. rewrite skipn_length. cbn [length] in *. lia.
Qed.
Lemma send_run : forall f m s k cid mps total rest tries i, nth_error (c_send s) k = Some (mkSd cid mps total rest None tries false) -> aget (c_lut s) cid = Some i -> ci_remote i = cid -> 2 < mps -> (length rest <= f)%nat ->
  let ps := pieces f (Z.to_nat (mps - 2)) rest in Z.of_nat (length ps) <= ci_credits i <= 65535 ->
  exists es s', kruns (fun _ => true) m s (es ++ [(KCredit k, KOk)]) s' /\ Forall (fun e => fst e = KCredit k \/ fst e = KFrame k) es /\ c_log s' = c_log s ++ map (coc_frame cid total) ps /\ c_chans s' = c_chans s /\
    exists i', aget (c_lut s') cid = Some i' /\ ci_credits i' = ci_credits i - Z.of_nat (length ps).
Proof.
  induction f as [|f IH]; intros m s k cid mps total rest tries i N G RM M L ps C.
  - destruct rest; [|cbn in L; lia]. exists [], (upd_sd s k (mkSd cid mps total [] None 0 true)). subst ps. cbn [pieces app length map]. split; [|split; [constructor|]].
    + eapply kr_cons; [|apply kr_nil]. cbn [kstep]. unfold send_credit. rewrite N. reflexivity.
    + rewrite app_nil_r. split; [reflexivity|]. split; [reflexivity|]. exists i. split; [exact G|]. cbn. lia.
  - destruct rest as [|x rest].
    + exists [], (upd_sd s k (mkSd cid mps total [] None 0 true)). subst ps. cbn [pieces app length map]. split; [|split; [constructor|]].
      * eapply kr_cons; [|apply kr_nil]. cbn [kstep]. unfold send_credit. rewrite N. reflexivity.
      * rewrite app_nil_r. split; [reflexivity|]. split; [reflexivity|]. exists i. split; [exact G|]. cbn. lia.
    + assert (EP : ps = firstn (Z.to_nat (mps - 2)) (x :: rest) :: pieces f (Z.to_nat (mps - 2)) (skipn (Z.to_nat (mps - 2)) (x :: rest))) by reflexivity. clearbody ps. subst ps. cbn [length] in C.
      set (n := Z.to_nat (mps - 2)) in *. assert (NP : (0 < n)%nat) by lia. set (ch := firstn n (x :: rest)) in *. set (rest' := skipn n (x :: rest)) in *.
      assert (KL : (k < length (c_send s))%nat) by (apply nth_error_Some; congruence).
      assert (MO := modify_one s cid i G ltac:(lia) RM). set (i1 := mkCI (ci_local i) cid (ci_credits i - 1) (ci_mtu i) (ci_mps i) (ci_chan i) (ci_rx i)) in *.
      set (s1 := upd_sd (set_lut (aset (c_lut s) cid i1) s) k (mkSd cid mps total rest' (Some ch) 0 false)).
      assert (ST1 : kstep (fun _ => true) m s (KCredit k) = Ret (s1, KNone)). { cbn [kstep]. unfold send_credit. rewrite N. cbn [sd_done sd_have sd_rest sd_cid sd_mps sd_total]. rewrite MO. reflexivity. }
      assert (N1 : nth_error (c_send s1) k = Some (mkSd cid mps total rest' (Some ch) 0 false)) by (cbn [s1 upd_sd set_send set_lut c_send]; now apply nth_upd_same).
      set (s2 := upd_sd (set_log (c_log s ++ [coc_frame cid total ch]) s1) k (mkSd cid mps total rest' None 0 false)).
      assert (ST2 : kstep (fun _ => true) m s1 (KFrame k) = Ret (s2, KNone)). { cbn [kstep]. unfold send_frame. rewrite N1. reflexivity. }
      assert (N2 : nth_error (c_send s2) k = Some (mkSd cid mps total rest' None 0 false)). { cbn [s2 upd_sd set_send set_log c_send]. apply nth_upd_same. cbn [s1 upd_sd set_send set_lut c_send]. now rewrite upd_length. }
      assert (G2 : aget (c_lut s2) cid = Some i1). { cbn [s2 s1 upd_sd set_send set_log set_lut c_lut]. now rewrite aget_aset, Z.eqb_refl. }
      assert (L2 : (length rest' <= f)%nat) by (unfold rest'; rewrite skipn_length; cbn [length] in *; lia).
      destruct (IH m s2 k cid mps total rest' 0%nat i1 N2 G2 eq_refl M L2 ltac:(cbn [i1 ci_credits]; fold n; lia)) as (es & s' & R & F & LG & CH & i' & G' & CR).
      exists ((KCredit k, KNone) :: (KFrame k, KNone) :: es), s'. split; [|split; [|split; [|split]]].
      * cbn [app]. eapply kr_cons; [exact ST1|]. eapply kr_cons; [exact ST2|]. exact R.
      * constructor; [now left|]. constructor; [now right|exact F].
      * rewrite LG. cbn [s2 upd_sd set_send set_log c_log map]. rewrite <- app_assoc. reflexivity.
      * rewrite CH. reflexivity.
      * exists i'. split; [exact G'|]. rewrite CR. cbn [i1 ci_credits length]. fold n. lia.
Qed.
(** ---- whole packets ---- *)
Lemma cmd_total : forall w m s b c, first_cmd b c -> exists s', handle_cmd w m s b = Ret s'.
Proof.
  intros w m s b c FC. destruct (first_data b c FC) as (D1 & D2 & D3).
  destruct (code_cases w m s b _ D1) as [E|[E|[E|[[EC E]|[EC E]]]]]; rewrite E; clear E.
  - unfold handle_disconnect. rewrite D3. cbn [gbind]. destruct (sig_unmarshal 6 _) as [[]|]; try (eexists; reflexivity). rewrite D2. cbn [gbind]. destruct (negb (dcid =? 4)); [eexists; reflexivity|]. destruct (negb (scid =? 4)); eexists; reflexivity.
  - unfold handle_param_update. rewrite D3, D2. destruct (negb m); cbn [gbind]; [eexists; reflexivity|]. destruct (sig_unmarshal 18 _) as [[]|]; eexists; reflexivity.
  - eexists. reflexivity.
  - unfold handle_credit. rewrite D3. cbn [gbind]. destruct (sig_unmarshal 22 _) as [[]|]; eexists; reflexivity.
  - unfold handle_other. rewrite D2. cbn [gbind]. destruct (aget _ _) as [k|]; [|eexists; reflexivity]. destruct (nth_error _ _); eexists; reflexivity.
Qed.
(** the answer to a command, if any *)
Definition answers (c : scmd) (a : list bytes) : Prop := a = [] \/ exists r, a = [l2cap 5 (cmd_bytes r)] /\ cmd_ok r /\ x_id r = x_id c /\ (x_code r = 1 \/ x_code r = 7 \/ x_code r = 19).
Lemma response_log : forall w s id m, is_byte id -> (sig_code m = 1 \/ sig_code m = 7 \/ sig_code m = 19) ->
  exists a, c_log (send_response w s id m) = c_log s ++ a /\ (a = [] \/ exists r, a = [l2cap 5 (cmd_bytes r)] /\ cmd_ok r /\ x_id r = id /\ (x_code r = 1 \/ x_code r = 7 \/ x_code r = 19)).
Proof.
  intros w s id m B C. unfold send_response, put_pdu. destruct (w (c_log s)); cbn [fst]; [|exists []; split; [now rewrite app_nil_r|now left]]. eexists. split; [reflexivity|]. right. exists (mkSC (sig_code m) id (sig_marshal m)). split; [now rewrite sig_pdu_spec|]. split; [now apply sig_cmd_ok|]. split; [reflexivity|exact C].
Qed.
Lemma cmd_answer : forall w m s b c s', all_bytes b -> first_cmd b c -> handle_cmd w m s b = Ret s' -> exists a, c_log s' = c_log s ++ a /\ answers c a.
Proof.
  intros w m s b c s' B FC H. destruct (first_data b c FC) as (D1 & D2 & D3). destruct (first_bytes b c B FC) as (BC & BI & BD).
  assert (NONE : c_log s' = c_log s -> exists a, c_log s' = c_log s ++ a /\ answers c a) by (intro E; exists []; split; [now rewrite app_nil_r|now left]).
  destruct (code_cases w m s b _ D1) as [E|[E|[E|[[EC E]|[EC E]]]]]; rewrite E in H; clear E.
  - unfold handle_disconnect in H. rewrite D3 in H. cbn [gbind] in H. destruct (sig_unmarshal 6 _) as [[| | |dcid scid| | | | | | | |]|]; try (injection H as <-; now apply NONE). rewrite D2 in H. cbn [gbind] in H.
    destruct (dcid =? 4); cbn [negb] in H; [destruct (scid =? 4); cbn [negb] in H|]; injection H as <-; try (now apply NONE); (apply response_log; [exact BI|cbn; auto]).
  - unfold handle_param_update in H. destruct m; cbn [negb] in H.
    + rewrite D3 in H. cbn [gbind] in H. destruct (sig_unmarshal 18 _) as [[| | | | |x1 x2 x3 x4| | | | | |]|]; try (injection H as <-; now apply NONE). rewrite D2 in H. cbn [gbind] in H. injection H as <-. exact (response_log w (set_hci (c_hci s ++ [[x1; x2; x3; x4; 0; 0]]) s) (x_id c) (SParRsp 0) BI (or_intror (or_intror eq_refl))).
    + rewrite D2 in H. cbn [gbind] in H. injection H as <-. apply response_log; [exact BI|cbn; auto].
  - injection H as <-. now apply NONE.
  - unfold handle_credit in H. rewrite D3 in H. cbn [gbind] in H. destruct (sig_unmarshal 22 _) as [[| | | | | | | | |x n| |]|]; try (injection H as <-; now apply NONE). injection H as <-. destruct (modify_credits s x n true) as [s1 b1] eqn:M. apply modify_same in M. apply NONE. tauto.
  - unfold handle_other in H. rewrite D2 in H. cbn [gbind] in H. destruct (aget (c_pend s) (x_id c)) as [k|]; [|injection H as <-; apply response_log; [exact BI|cbn; auto]]. destruct (nth_error (c_wait s) k) as [wt|]; injection H as <-; now apply NONE.
Qed.
Lemma first_cons : forall c r, cmd_ok c -> first_cmd (cmd_bytes c ++ r) c /\ sc_len (cmd_bytes c ++ r) = Ret (length (x_data c)) /\ gfrom (cmd_bytes c ++ r) (4 + length (x_data c)) = Ret r.
Proof.
  intros [cc ci d] r (BC & BI & BD & LD). cbn [x_code x_id x_data] in *. assert (D : de16 (u8 (Z.of_nat (length d))) (u8 (Z.of_nat (length d) / 256)) = Z.of_nat (length d)) by (apply de16_le16; lia).
  split; [|split].
  - exists (u8 (Z.of_nat (length d))), (u8 (Z.of_nat (length d) / 256)), (d ++ r). split; [reflexivity|]. rewrite D, Nat2Z.id. split; [rewrite app_length; lia|]. cbn [x_data]. rewrite firstn_app, Nat.sub_diag, firstn_all, app_nil_r. reflexivity.
  - unfold sc_len, cmd_bytes. cbn [x_code x_id x_data le16 app gslice Nat.leb length andb Nat.sub firstn skipn gbind gle16]. rewrite D, Nat2Z.id. reflexivity.
  - rewrite gfrom_ok by (unfold cmd_bytes; cbn [x_code x_id x_data le16 app length]; rewrite app_length; lia). f_equal. unfold cmd_bytes. cbn [x_code x_id x_data le16 app skipn plus]. rewrite skipn_app, Nat.sub_diag, skipn_all. reflexivity.
Qed.
Lemma cmd_bytes_ok : forall c, cmd_ok c -> all_bytes (cmd_bytes c).
Proof. intros c (B1 & B2 & B3 & _). unfold cmd_bytes. apply Forall_app. split; [constructor; [exact B1|constructor; [exact B2|constructor]]|]. apply Forall_app. split; [apply le16_bytes|exact B3]. Qed.
Lemma cmds_bytes_ok : forall cs, Forall cmd_ok cs -> all_bytes (flat_map cmd_bytes cs).
Proof. intros cs F. induction F as [|c cs C F IH]; [constructor|]. cbn [flat_map]. apply Forall_app. split; [now apply cmd_bytes_ok|exact IH]. Qed.
Lemma loop_total : forall cs n w m s, Forall cmd_ok cs -> (length cs <= n)%nat -> exists s' rs, sig_loop n w m s (flat_map cmd_bytes cs) = Ret s' /\ Forall2 answers cs rs /\ c_log s' = c_log s ++ concat rs.
Proof.
  induction cs as [|c cs IH]; intros n w m s F L.
  - exists s, []. destruct n; cbn [flat_map sig_loop concat]; (split; [reflexivity|]); (split; [constructor|now rewrite app_nil_r]).
  - destruct n as [|n]; [cbn in L; lia|]. assert (BF := cmds_bytes_ok _ F). apply Forall_cons_iff in F. destruct F as [C F]. cbn [flat_map] in *. destruct (first_cons c (flat_map cmd_bytes cs) C) as (FC & SL & GF). destruct (cmd_total w m s _ c FC) as (s1 & H1).
    destruct (cmd_answer w m s _ c s1 BF FC H1) as (a & LA & AN). cbn [length] in L. destruct (IH n w m s1 F ltac:(lia)) as (s' & rs & H2 & F2 & LG).
    exists s', (a :: rs). split; [|split; [now constructor|cbn [concat]; rewrite LG, LA, app_assoc; reflexivity]].
    assert (NE : exists x y, cmd_bytes c ++ flat_map cmd_bytes cs = x :: y) by (do 2 eexists; reflexivity). destruct NE as (x & y & NE). rewrite NE in *. cbn [sig_loop]. rewrite H1. cbn [gbind]. rewrite SL. cbn [gbind]. rewrite GF. cbn [gbind]. exact H2.
Qed.
Lemma len_cmds : forall cs, (length cs <= length (flat_map cmd_bytes cs))%nat.
Proof. induction cs as [|c cs IH]; [cbn; lia|]. cbn [flat_map length]. rewrite app_length. assert (1 <= length (cmd_bytes c))%nat by (unfold cmd_bytes; cbn [app length]; lia). lia. Qed.
Lemma loop_complete : forall n w m s b s', all_bytes b -> (length b <= n)%nat -> sig_loop n w m s b = Ret s' -> exists cs, Forall cmd_ok cs /\ b = flat_map cmd_bytes cs.
Proof.
  induction n as [|n IH]; intros w m s b s' B L H; [destruct b; [|cbn in L; lia]; exists []; split; [constructor|reflexivity]|]. destruct b as [|x b]; [exists []; split; [constructor|reflexivity]|]. cbn [sig_loop] in H.
  destruct (handle_cmd w m s (x :: b)) as [s1|] eqn:E; [|discriminate]. cbn [gbind] in H. destruct (sc_len (x :: b)) as [l|] eqn:SL; [|discriminate]. cbn [gbind] in H. destruct (gfrom (x :: b) (4 + l)) as [r|] eqn:G; [|discriminate]. cbn [gbind] in H.
  destruct (cmd_first _ _ _ SL G) as (c & i & l1 & l2 & t & EB & EL & LT & ER & _ & _ & _). rewrite EB in *. do 4 (let H := fresh "B" in apply Forall_cons_iff in B; destruct B as [H B]).
  assert (DR := de16_range l1 l2 B2 B3).
  destruct (IH w m s1 r s') as (cs & F & ->); [subst r; now apply Forall_skipn|subst r; rewrite skipn_length; cbn [length] in L; lia|exact H|].
  exists (mkSC c i (firstn l t) :: cs). split.
  - constructor; [|exact F]. split; [exact B0|]. split; [exact B1|]. split; [now apply Forall_firstn|]. cbn [x_data]. rewrite firstn_length. lia.
  - cbn [flat_map]. unfold cmd_bytes at 1. cbn [x_code x_id x_data]. rewrite firstn_length. replace (Z.of_nat (Nat.min l (length t))) with (de16 l1 l2) by lia. rewrite le16_de16 by assumption. cbn [app]. do 4 f_equal. rewrite ER. symmetry. apply firstn_skipn.
Qed.
Lemma one_cmd : forall w m s c, cmd_ok c -> Z.of_nat (length (cmd_bytes c)) <= 515 -> kstep w m s (KIncoming (l2cap 5 (cmd_bytes c))) = (let! s' := handle_cmd w m s (cmd_bytes c) in Ret (s', KNone)).
Proof.
  intros w m s c C L. destruct (first_cons c [] C) as (FC & SL & GF). rewrite app_nil_r in *. destruct (first_data _ _ FC) as (D1 & D2 & D3).
  set (b := cmd_bytes c) in *. assert (E : exists y, b = x_code c :: x_id c :: y) by (unfold b; eexists; reflexivity). destruct E as (y & E).
  unfold l2cap. cbn [le16 app kstep gslice Nat.leb length andb Nat.sub firstn skipn gbind gle16]. rewrite (de16_le16 5) by lia. cbn [Z.eqb Pos.eqb]. unfold handle_signal. cbn [gslice Nat.leb length andb Nat.sub firstn skipn gbind gle16]. rewrite de16_le16 by lia.
  rewrite gfrom_ok by (cbn [length]; lia). cbn [skipn gbind]. assert (Z.of_nat (length b) >? 515 = false) as -> by lia. rewrite D1, D2. cbn [gbind].
  assert (SLP : sig_loop (length b) w m s b = handle_cmd w m s b).
  { clearbody b. subst b. cbn [length sig_loop]. destruct (handle_cmd w m s _) as [s1|]; [|reflexivity]. cbn [gbind]. rewrite SL. cbn [gbind]. rewrite GF. cbn [gbind]. destruct (length y); reflexivity. }
  rewrite SLP. reflexivity.
Qed.
Lemma data_of : forall c, cmd_ok c -> sc_code (cmd_bytes c) = Ret (x_code c) /\ sc_id (cmd_bytes c) = Ret (x_id c) /\ sc_data (cmd_bytes c) = Ret (x_data c).
Proof. intros c C. destruct (first_cons c [] C) as (FC & _). rewrite app_nil_r in FC. now apply first_data. Qed.
Lemma fields_ok : forall code id l, is_byte code -> is_byte id -> Z.of_nat (length l) <= 100 -> cmd_ok (mkSC code id (flat_map le16 l)) /\ Z.of_nat (length (cmd_bytes (mkSC code id (flat_map le16 l)))) <= 515.
Proof.
  intros code id l B1 B2 L. assert (E : length (flat_map le16 l) = (2 * length l)%nat) by (clear; induction l as [|x l IH]; [reflexivity|]; cbn [flat_map le16 app length]; lia). split.
  - split; [exact B1|]. split; [exact B2|]. split; [apply all_bytes_le16s|]. cbn [x_data]. lia.
  - unfold cmd_bytes. cbn [x_data x_code x_id app le16 length]. lia.
Qed.
