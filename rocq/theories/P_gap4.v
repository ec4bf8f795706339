(** Proofs about M_gap: setting up. *)
Require Import Verif.Base Verif.M_uuid Verif.M_adv Verif.S_adv Verif.M_cmd Verif.P_cmd Verif.P_adv3 Verif.M_gap Verif.S_gap Verif.P_gap Verif.P_gap2 Verif.P_gap3.

Lemma ask_conf : forall step k n fv rn p d, conforming step -> packet n fv = Ret p -> find_rp rn = Some d -> exists k' r, ask step k n fv rn = Ret (k', r) /\
  (k' = k \/ k' = effect k p) /\ (r = None \/ r = unmarshal (rd_fields d) (0 :: info (c_id k) p)).
Proof.
  intros step k n fv rn p d C P F. unfold ask. rewrite P. cbn [gbind]. destruct (step k p) as [k' r] eqn:S. pose proof (C _ _ _ _ S) as H. eexists. eexists. split; [reflexivity|].
  destruct r as [[|st rest]|]; [destruct H| |split; [exact H|now left]]. unfold send_result. rewrite F. destruct (st =? 0) eqn:E; [|split; [now left|now left]].
  destruct H as (-> & _ & ->). apply Z.eqb_eq in E. subst st. split; [now right|]. destruct (unmarshal _ _); [now right|now left].
Qed.
Lemma ask_will : forall step k n fv rn p d, willing step -> packet n fv = Ret p -> find_rp rn = Some d -> disallowed k p = false ->
  ask step k n fv rn = Ret (effect k p, unmarshal (rd_fields d) (0 :: info (c_id k) p)).
Proof.
  intros step k n fv rn p d W P F D. unfold ask. rewrite P. cbn [gbind]. rewrite (W k p D). unfold send_result. rewrite F. cbn [Z.eqb]. destruct (unmarshal _ _); reflexivity.
Qed.

(** the controller during set-up *)
Definition quiet (i : ident) (k : ctl) : Prop := c_id k = i /\ c_ad k = [] /\ c_sr k = [] /\ c_adv k = false /\ c_scan k = false /\ c_create k = None /\ c_conns k = 0%nat.
Definition hushed (p : bytes) : Prop := forall i k, quiet i k -> quiet i (effect k p).
Lemma fresh_quiet : forall i, quiet i (fresh i). Proof. intro i. repeat split. Qed.
Ltac hush := intros i k (Q1 & Q2 & Q3 & Q4 & Q5 & Q6 & Q7); unfold quiet; cbn; repeat split; assumption.
Lemma hs_reset : hushed [1; 3; 12; 0]. Proof. hush. Qed.
Lemma hs_bd : hushed [1; 9; 16; 0]. Proof. hush. Qed.
Lemma hs_bs : hushed [1; 5; 16; 0]. Proof. hush. Qed.
Lemma hs_ls : hushed [1; 2; 32; 0]. Proof. hush. Qed.
Lemma hs_pw : hushed [1; 7; 32; 0]. Proof. hush. Qed.
Lemma hs_lm : forall b, hushed ([1; 1; 32; 8] ++ b). Proof. intro b. hush. Qed.
Lemma hs_m : forall b, hushed ([1; 1; 12; 8] ++ b). Proof. intro b. hush. Qed.
Lemma hs_hs : forall b, hushed ([1; 109; 12; 2] ++ b). Proof. intro b. hush. Qed.
Lemma hs_dl : forall b, hushed ([1; 36; 32; 4] ++ b). Proof. intro b. hush. Qed.
Lemma hs_advp : forall b, hushed ([1; 6; 32; 15] ++ b). Proof. intro b. hush. Qed.
Lemma hs_scanp : forall b, hushed ([1; 11; 32; 7] ++ b). Proof. intro b. hush. Qed.
Lemma pk0 : packet "Reset" none = Ret [1; 3; 12; 0] /\ packet "ReadBDADDR" none = Ret [1; 9; 16; 0] /\ packet "ReadBufferSize" none = Ret [1; 5; 16; 0] /\ packet "LEReadBufferSize" none = Ret [1; 2; 32; 0] /\
  packet "LEReadAdvertisingChannelTxPower" none = Ret [1; 7; 32; 0].
Proof. repeat split; vm_compute; reflexivity. Qed.
Definition lm_pkt : bytes := [1; 1; 32; 8; 31; 0; 0; 0; 0; 0; 0; 0].
Definition m_pkt : bytes := [1; 1; 12; 8; 255; 255; 251; 255; 7; 248; 191; 61].
Definition hs_pkt : bytes := [1; 109; 12; 2; 1; 0].
Definition dl_pkt : bytes := [1; 36; 32; 4; 251; 0; 72; 8].
Lemma pk1 : packet "LESetEventMask" (M_gap.field "LEEventMask" (GInt 0x1F) none) = Ret lm_pkt /\ packet "SetEventMask" (M_gap.field "EventMask" (GInt 0x3dbff807fffbffff) none) = Ret m_pkt /\
  packet "WriteLEHostSupport" (M_gap.field "LESupportedHost" (GInt 1) (M_gap.field "SimultaneousLEHost" (GInt 0) none)) = Ret hs_pkt /\
  packet "LEWriteSuggestedDefaultDataLength" (M_gap.field "SuggestedMaxTxOctets" (GInt 251) (M_gap.field "SuggestedMaxTxTime" (GInt 2120) none)) = Ret dl_pkt.
Proof. repeat split; vm_compute; reflexivity. Qed.
(** what the reads give *)
Definition bd_rp := Eval vm_compute in find_rp "ReadBDADDRRP".
Definition bs_rp := Eval vm_compute in find_rp "ReadBufferSizeRP".
Definition ls_rp := Eval vm_compute in find_rp "LEReadBufferSizeRP".
Lemma le2_val : forall z, 0 <= z < 65536 -> z mod 256 + 256 * (z / 256 + 256 * 0) = z.
Proof. intros z H. pose proof (Z.div_mod z 256 ltac:(lia)). lia. Qed.
Lemma read_bd : forall i d, ident_ok i -> find_rp "ReadBDADDRRP" = Some d -> get_arr (unmarshal (rd_fields d) (0 :: info i [1; 9; 16; 0])) "BDADDR" 6 = i_addr i.
Proof.
  intros i d (L & _) F. vm_compute in F. injection F as <-. change (info i [1; 9; 16; 0]) with (i_addr i). destruct (i_addr i) as [|a0 [|a1 [|a2 [|a3 [|a4 [|a5 [|a6 r]]]]]]]; try discriminate L. reflexivity.
Qed.
Lemma read_bs : forall i d, ident_ok i -> find_rp "ReadBufferSizeRP" = Some d -> get_int (unmarshal (rd_fields d) (0 :: info i [1; 5; 16; 0])) "HCTotalNumACLDataPackets" = i_acl_num i /\
  get_int (unmarshal (rd_fields d) (0 :: info i [1; 5; 16; 0])) "HCACLDataPacketLength" = i_acl_len i.
Proof.
  intros i d (_ & _ & H1 & H2 & _) F. vm_compute in F. injection F as <-. change (info i [1; 5; 16; 0]) with ([i_acl_len i mod 256; i_acl_len i / 256; 0; i_acl_num i mod 256; i_acl_num i / 256; 0; 0]).
  split; [exact (le2_val (i_acl_num i) H2)|exact (le2_val (i_acl_len i) H1)].
Qed.
Lemma read_ls : forall i d, ident_ok i -> find_rp "LEReadBufferSizeRP" = Some d -> get_int (unmarshal (rd_fields d) (0 :: info i [1; 2; 32; 0])) "HCTotalNumLEDataPackets" = i_le_num i /\
  get_int (unmarshal (rd_fields d) (0 :: info i [1; 2; 32; 0])) "HCLEDataPacketLength" = i_le_len i.
Proof.
  intros i d (_ & _ & _ & _ & H1 & H2 & _) F. vm_compute in F. injection F as <-. change (info i [1; 2; 32; 0]) with ([i_le_len i mod 256; i_le_len i / 256; i_le_num i]).
  split; [change (i_le_num i + 256 * 0 = i_le_num i); lia|exact (le2_val (i_le_len i) H1)].
Qed.
(** set-up with any controller *)
Lemma ask_quiet : forall step i k n fv rn p, conforming step -> quiet i k -> hushed p -> packet n fv = Ret p -> (exists d, find_rp rn = Some d) -> exists k' r, ask step k n fv rn = Ret (k', r) /\ quiet i k' /\
  (r = None \/ forall d, find_rp rn = Some d -> r = unmarshal (rd_fields d) (0 :: info i p)).
Proof.
  intros step i k n fv rn p C Q H P [d F]. destruct (ask_conf step k n fv rn p d C P F) as (k' & r & A & K & R). exists k', r. split; [exact A|]. split; [destruct K as [-> | ->]; [exact Q|now apply H]|].
  destruct R as [R|R]; [now left|right]. intros d' F'. rewrite F in F'. injection F' as <-. rewrite R. now rewrite (proj1 Q).
Qed.
Lemma send_quiet : forall step i k n fv p, conforming step -> quiet i k -> hushed p -> packet n fv = Ret p -> exists k' e, send step k n fv = Ret (k', e) /\ quiet i k'.
Proof.
  intros step i k n fv p C Q H P. destruct (send_conf step k n fv p C P) as (k' & e & S & O). exists k', e. split; [exact S|]. destruct O as [(_ & -> & _)|(_ & [-> | ->])]; try (now apply H); exact Q.
Qed.
Ltac have_rp := eexists; vm_compute; reflexivity.
Lemma init_cmds_conf : forall step i k, conforming step -> ident_ok i -> quiet i k -> exists k' addr cnt sz, init_cmds step k = Ret (k', (addr, cnt, sz)) /\ quiet i k' /\ (addr = rev (i_addr i) \/ addr = repeat 0 6) /\
  ((cnt, sz) = (i_le_num i, i_le_len i) \/ (cnt, sz) = (i_acl_num i, i_acl_len i) \/ (cnt, sz) = (0, 0)).
Proof.
  intros step i k C IO Q. destruct pk0 as (P0 & P1 & P2 & P3 & P4). destruct pk1 as (P5 & P6 & P7 & P8). unfold init_cmds.
  destruct (send_quiet step i k _ _ _ C Q hs_reset P0) as (k0 & e0 & S0 & Q0). rewrite S0. cbn [gbind].
  destruct (ask_quiet step i k0 _ _ "ReadBDADDRRP" _ C Q0 hs_bd P1 ltac:(have_rp)) as (k1 & r1 & S1 & Q1 & R1). rewrite S1. cbn [gbind].
  destruct (ask_quiet step i k1 _ _ "ReadBufferSizeRP" _ C Q1 hs_bs P2 ltac:(have_rp)) as (k2 & r2 & S2 & Q2 & R2). rewrite S2. cbn [gbind].
  destruct (ask_quiet step i k2 _ _ "LEReadBufferSizeRP" _ C Q2 hs_ls P3 ltac:(have_rp)) as (k3 & r3 & S3 & Q3 & R3). rewrite S3. cbn [gbind].
  destruct (ask_quiet step i k3 _ _ "LEReadAdvertisingChannelTxPowerRP" _ C Q3 hs_pw P4 ltac:(have_rp)) as (k4 & r4 & S4 & Q4 & _). rewrite S4. cbn [gbind].
  destruct (ask_quiet step i k4 _ _ "LESetEventMaskRP" _ C Q4 (hs_lm _) P5 ltac:(have_rp)) as (k5 & r5 & S5 & Q5 & _). rewrite S5. cbn [gbind].
  destruct (ask_quiet step i k5 _ _ "SetEventMaskRP" _ C Q5 (hs_m _) P6 ltac:(have_rp)) as (k6 & r6 & S6 & Q6 & _). rewrite S6. cbn [gbind].
  destruct (ask_quiet step i k6 _ _ "WriteLEHostSupportRP" _ C Q6 (hs_hs _) P7 ltac:(have_rp)) as (k7 & r7 & S7 & Q7 & _). rewrite S7. cbn [gbind].
  destruct (ask_quiet step i k7 _ _ "LEWriteSuggestedDefaultDataLengthRP" _ C Q7 (hs_dl _) P8 ltac:(have_rp)) as (k8 & r8 & S8 & Q8 & _). rewrite S8. cbn [gbind].
  eexists. eexists. eexists. eexists. split; [reflexivity|]. split; [exact Q8|]. split.
  - destruct R1 as [-> | R1]; [now right|left]. rewrite (R1 _ eq_refl). now rewrite (read_bd i _ IO eq_refl).
  - assert (BS : (get_int r2 "HCTotalNumACLDataPackets" = i_acl_num i /\ get_int r2 "HCACLDataPacketLength" = i_acl_len i) \/ (get_int r2 "HCTotalNumACLDataPackets" = 0 /\ get_int r2 "HCACLDataPacketLength" = 0)).
    { destruct R2 as [-> | R2]; [now right|left]. rewrite (R2 _ eq_refl). exact (read_bs i _ IO eq_refl). }
    assert (LS : (get_int r3 "HCTotalNumLEDataPackets" = i_le_num i /\ get_int r3 "HCLEDataPacketLength" = i_le_len i) \/ (get_int r3 "HCTotalNumLEDataPackets" = 0 /\ get_int r3 "HCLEDataPacketLength" = 0)).
    { destruct R3 as [-> | R3]; [now right|left]. rewrite (R3 _ eq_refl). exact (read_ls i _ IO eq_refl). }
    destruct (negb (get_int r3 "HCTotalNumLEDataPackets" =? 0)) eqn:E.
    + left. destruct LS as [[-> ->]|[X _]]; [reflexivity|]. rewrite X in E. discriminate.
    + right. destruct BS as [[-> ->]|[-> ->]]; [now left|now right].
Qed.
Lemma init_conf : forall step i h k, conforming step -> ident_ok i -> quiet i k -> struct_value adv_fields (h_advp h) -> struct_value scan_fields (h_scanp h) ->
  exists h' k' ok, init_host step h k = Ret (h', k', ok) /\ quiet i k' /\ (h_addr h' = rev (i_addr i) \/ h_addr h' = repeat 0 6) /\ h' = with_dev h (h_addr h') (h_pool h') /\
    (ok = true <-> h_pool h' <> None) /\ (forall s n, h_pool h' = Some (s, n) -> 1 <= n /\ ((s = 5 + i_le_len i /\ n = i_le_num i - 1) \/ (s = 5 + i_acl_len i /\ n = i_acl_num i - 1))).
Proof.
  intros step i h k C IO Q V1 V2. destruct (init_cmds_conf step i k C IO Q) as (k1 & addr & cnt & sz & S1 & Q1 & A & B). unfold init_host. rewrite S1. cbn [gbind]. destruct (Z.leb_spec (cnt - 1) 0) as [X|X].
  - eexists. exists k1, false. split; [reflexivity|]. split; [exact Q1|]. split; [exact A|]. split; [reflexivity|]. split; [split; [discriminate|intro Y; now elim Y]|]. intros s n Y. discriminate Y.
  - cbn [h_advp with_dev]. destruct (send_quiet step i k1 _ _ _ C Q1 (hs_advp _) (pk_advp _ V1)) as (k2 & e2 & S2 & Q2). rewrite S2. cbn [gbind].
    cbn [h_scanp with_dev]. destruct (send_quiet step i k2 _ _ _ C Q2 (hs_scanp _) (pk_scanp _ V2)) as (k3 & e3 & S3 & Q3). rewrite S3. cbn [gbind].
    eexists. exists k3, true. split; [reflexivity|]. split; [exact Q3|]. split; [exact A|]. split; [reflexivity|]. split; [split; [intros _ Y; discriminate Y|reflexivity]|].
    intros s n Y. cbn [h_pool with_dev] in Y. injection Y as <- <-. split; [lia|]. destruct B as [B|[B|B]]; injection B as -> ->; [now left|now right|lia].
Qed.
(** set-up with a controller that accepts the commands: from any earlier state *)
Definition ready (i : ident) (p s : bytes) : ctl := mkC i p [] [] false s false true 0x3dbff807fffbffff 0x1F None 0.
Lemma init_will : forall step h k, willing step -> ident_ok (c_id k) -> struct_value adv_fields (h_advp h) -> struct_value scan_fields (h_scanp h) ->
  let i := c_id k in let num := if i_le_num i =? 0 then i_acl_num i else i_le_num i in let len := if i_le_num i =? 0 then i_acl_len i else i_le_len i in
  init_host step h k = if 1 <? num then Ret (with_dev h (rev (i_addr i)) (Some (5 + len, num - 1)), ready i (body adv_fields (h_advp h)) (body scan_fields (h_scanp h)), true)
    else Ret (with_dev h (rev (i_addr i)) None, ready i [] [], false).
Proof.
  intros step h k W IO V1 V2 i num len. destruct pk0 as (P0 & P1 & P2 & P3 & P4). destruct pk1 as (P5 & P6 & P7 & P8). unfold init_host, init_cmds. fold i in IO.
  rewrite (send_will step k _ _ _ W P0) by reflexivity. cbn [gbind]. change (effect k [1; 3; 12; 0]) with (fresh i).
  pose proof (read_bd i) as RB. pose proof (read_bs i) as RS. pose proof (read_ls i) as RL.
  rewrite (ask_will step (fresh i) _ _ "ReadBDADDRRP" _ _ W P1 eq_refl) by reflexivity. cbn [gbind]. change (c_id (fresh i)) with i. rewrite (RB _ IO eq_refl). change (effect (fresh i) [1; 9; 16; 0]) with (fresh i).
  rewrite (ask_will step (fresh i) _ _ "ReadBufferSizeRP" _ _ W P2 eq_refl) by reflexivity. cbn [gbind]. change (c_id (fresh i)) with i. destruct (RS _ IO eq_refl) as [-> ->]. change (effect (fresh i) [1; 5; 16; 0]) with (fresh i).
  rewrite (ask_will step (fresh i) _ _ "LEReadBufferSizeRP" _ _ W P3 eq_refl) by reflexivity. cbn [gbind]. change (c_id (fresh i)) with i. destruct (RL _ IO eq_refl) as [-> ->]. change (effect (fresh i) [1; 2; 32; 0]) with (fresh i).
  rewrite (ask_will step (fresh i) _ _ "LEReadAdvertisingChannelTxPowerRP" _ _ W P4 eq_refl) by reflexivity. cbn [gbind]. change (effect (fresh i) [1; 7; 32; 0]) with (fresh i).
  rewrite (ask_will step (fresh i) _ _ "LESetEventMaskRP" _ _ W P5 eq_refl) by reflexivity. cbn [gbind]. change (effect (fresh i) lm_pkt) with (fresh i).
  rewrite (ask_will step (fresh i) _ _ "SetEventMaskRP" _ _ W P6 eq_refl) by reflexivity. cbn [gbind]. change (effect (fresh i) m_pkt) with (ready i [] []).
  rewrite (ask_will step (ready i [] []) _ _ "WriteLEHostSupportRP" _ _ W P7 eq_refl) by reflexivity. cbn [gbind]. change (effect (ready i [] []) hs_pkt) with (ready i [] []).
  rewrite (ask_will step (ready i [] []) _ _ "LEWriteSuggestedDefaultDataLengthRP" _ _ W P8 eq_refl) by reflexivity. cbn [gbind]. change (effect (ready i [] []) dl_pkt) with (ready i [] []).
  assert (N : (if negb (i_le_num i =? 0) then i_le_num i else i_acl_num i) = num) by (unfold num; destruct (i_le_num i =? 0); reflexivity).
  assert (LN : (if negb (i_le_num i =? 0) then i_le_len i else i_acl_len i) = len) by (unfold len; destruct (i_le_num i =? 0); reflexivity). rewrite N, LN.
  destruct (Z.leb_spec (num - 1) 0); destruct (Z.ltb_spec 1 num); try lia; [reflexivity|]. cbn [h_advp h_scanp with_dev].
  rewrite (send_will step (ready i [] []) _ _ _ W (pk_advp _ V1)) by reflexivity. cbn [gbind]. rewrite eff_advp.
  rewrite (send_will step (with_run (ready i [] []) (body adv_fields (h_advp h)) (c_adv (ready i [] []))) _ _ _ W (pk_scanp _ V2)) by reflexivity. cbn [gbind]. reflexivity.
Qed.
(** options *)
Lemma zeros6 : all_bytes [0; 0; 0; 0; 0; 0].
Proof. unfold all_bytes, is_byte. repeat (apply Forall_cons; [lia|]). apply Forall_nil. Qed.
Lemma new_host_ok : hinv new_host.
Proof.
  split; [reflexivity|]. split; [reflexivity|]. split; [|split; [|split; [|now left]]]; unfold struct_value; repeat (apply Forall_cons; [cbn; first [lia|split; [reflexivity|exact zeros6]]|]); apply Forall_nil.
Qed.
Lemma options_inv : forall l h ok h' ok', Forall opt_ok l -> hinv h -> options h ok l = (h', ok') -> hinv h' /\ h_enable h' = h_enable h /\ h_dup h' = h_dup h.
Proof.
  induction l as [|o l IH]; intros h ok h' ok' O I H; cbn [options] in H; [injection H as <- _; now split|]. apply Forall_cons_iff in O. destruct O as [O1 O]. destruct (apply_opt h o) as [h1 ok1] eqn:A.
  assert (X : hinv h1 /\ h_enable h1 = h_enable h /\ h_dup h1 = h_dup h).
  { destruct I as (L1 & L2 & I3 & I4 & I5 & I6). destruct o; cbn [apply_opt opt_ok] in *; injection A as <- _; cbn; (split; [repeat split; assumption|now split]). }
  destruct X as (I1 & E1 & D1). destruct (IH h1 ok1 h' ok' O I1 H) as (A1 & A2 & A3). split; [exact A1|]. split; congruence.
Qed.
Lemma set_up_good : forall step i opts h k, conforming step -> ident_ok i -> set_up step i opts h k -> good h /\ h_enable h = 0 /\ quiet i k.
Proof.
  intros step i opts h k C IO (O & h0 & ok & OP & IN). destruct (options_inv opts new_host true h0 ok O new_host_ok OP) as (I & E & D).
  destruct (init_conf step i h0 (fresh i) C IO (fresh_quiet i)) as (h1 & k1 & ok1 & R & Q & _ & HE & _); [apply I|apply I|]. rewrite IN in R. injection R as <- <- <-.
  rewrite HE. split; [split; [exact I|left; exact D]|]. split; [exact E|exact Q].
Qed.
