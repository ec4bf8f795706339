(** The steps of a run, one by one. *)
Require Import Verif.Base Verif.M_smp Verif.P_smp Verif.P_smp2 Verif.P_smp7.
Require Import Verif.M_enc Verif.S_enc Verif.P_enc Verif.P_enc2 Verif.P_enc3 Verif.P_enc4 Verif.P_enc5 Verif.P_enc6 Verif.P_enc7.
Require Verif.M_hci Verif.S_smp.

Lemma last_inj : forall {A} (l l' : list A) x y, l ++ [x] = l' ++ [y] -> l = l' /\ x = y.
Proof. intros A l l' x y H. apply app_inj_tail in H. exact H. Qed.
Lemma run_last : forall C w0 l a o w, run C w0 (l ++ [(a, o)]) w -> exists w1, run C w0 l w1 /\ env_ok w1 a /\ step C w1 a = Some (Ret (w, o)).
Proof.
  intros C w0 l a o w H. inversion H as [x E1 E2|x l' w1 a' w2 o' Hr He Hs E1 E2 E3].
  - destruct l; discriminate.
  - subst. apply last_inj in E2. destruct E2 as (-> & E). injection E as -> ->. exists w1. split; [exact Hr|]. split; assumption.
Qed.

(** *** Packets *)
Lemma enc_event_inv : forall b v, enc_event b = Some v ->
  exists n p, n = Z.of_nat (length p) /\
   ((b = 4 :: 8 :: n :: p /\ exists st hl hh en r, p = st :: hl :: hh :: en :: r /\ v = Change (hl + 256 * hh) st en) \/
    (b = 4 :: 62 :: n :: p /\ exists hl hh r, p = 48 :: hl :: hh :: r /\ v = Refresh (hl + 256 * hh) 48)).
Proof.
  intros b v H. unfold enc_event in H. destruct (event b) as [[c p]|] eqn:Ev; [|discriminate].
  assert (Hb : exists n, b = 4 :: c :: n :: p /\ n = Z.of_nat (length p)).
  { unfold event in Ev. destruct b as [|t [|c' [|n p']]]; try discriminate. destruct (Z.eqb_spec t 4) as [->|]; [|discriminate]. cbn [andb] in Ev.
    destruct (Z.eqb_spec n (Z.of_nat (length p'))) as [En|]; [|discriminate]. injection Ev as -> ->. exists n. split; [reflexivity|exact En]. }
  destruct Hb as (n & -> & En). exists n, p. split; [exact En|].
  destruct (Z.eq_dec c 8) as [->|N8].
  - left. split; [reflexivity|]. destruct p as [|st [|hl [|hh [|en r]]]]; try discriminate. exists st, hl, hh, en, r. split; [reflexivity|]. congruence.
  - destruct (Z.eq_dec c 62) as [->|N62].
    + right. split; [reflexivity|]. destruct p as [|s p]; [discriminate|]. destruct (Z.eq_dec s 48) as [->|N48].
      * destruct p as [|hl [|hh r]]; try discriminate. exists hl, hh, r. split; [reflexivity|]. congruence.
      * exfalso. destruct s as [|q|q]; try discriminate. do 6 (destruct q as [q|q|]; try discriminate; try congruence).
    + exfalso. destruct c as [|q|q]; try discriminate. do 7 (destruct q as [q|q|]; try discriminate; try congruence).
Qed.
Lemma packet_event : forall b v del w, enc_event b = Some v ->
  handle_packet b del w = match assoc (ev_handle v) (tab w) with
                          | None => Ret (w, [])
                          | Some i => match nth_error (conns w) i with None => Ret (w, []) | Some c => apply_event v i c del w end
                          end.
Proof.
  intros b v del w H. destruct (enc_event_inv _ _ H) as (n & p & En & [(-> & st & hl & hh & en & r & Ep & ->)|(-> & hl & hh & r & Ep & ->)]).
  - unfold handle_packet, M_hci.dec_pkt, gidx, gfrom. cbn [nth_error length Nat.leb skipn gbind Z.eqb]. unfold M_hci.dec_evt, gidx, gfrom. cbn [nth_error length Nat.leb skipn gbind].
    rewrite En, Z.eqb_refl. cbn [negb]. subst p. cbn. remember (hl + 256 * hh) as h eqn:Eh. destruct (assoc h (tab w)) as [i|]; [|reflexivity].
    unfold handleEncryptionChanged. destruct (nth_error (conns w) i); reflexivity.
  - unfold handle_packet, M_hci.dec_pkt, gidx, gfrom. cbn [nth_error length Nat.leb skipn gbind Z.eqb]. unfold M_hci.dec_evt, gidx, gfrom. cbn [nth_error length Nat.leb skipn gbind].
    rewrite En, Z.eqb_refl. cbn [negb]. subst p. cbn. remember (hl + 256 * hh) as h eqn:Eh. destruct (assoc h (tab w)) as [i|]; [|reflexivity].
    unfold handleEncryptionKeyRefreshComplete. destruct (nth_error (conns w) i); reflexivity.
Qed.

Section Run.
Variable C : prims.
Variable HC : S_smp.prims_ok C.
Variables (t : list (bytes * bondinfo)) (cap : nat -> nat).
Notation Iv := (Inv C t cap).

Lemma told_ok : forall l w w0 i c v w' o, Iv l w -> nth_error (conns w) i = Some c -> chans w0 = chans w ->
  report i (c_ch c) v w0 = (w', o) -> told cap l i v o.
Proof.
  intros l w w0 i c v w' o J Hi Ec R. pose proof (K_ch _ _ _ _ (J_conn _ _ _ _ _ J _ _ Hi)) as E. unfold told. rewrite <- E.
  unfold report in R. destruct (c_ch c) as [k|]; [|now injection R as _ <-].
  destruct (J_chan _ _ _ _ _ J k) as [K1 K2 K3 K4 K5]. apply (f_equal (@length _)) in K2. rewrite app_length in K2.
  unfold chan_send in R. rewrite Ec in R. unfold waits, room.
  destruct (Nat.ltb_spec 0 (ch_wait (chans w k))).
  - injection R as _ <-. left. split; [lia|reflexivity].
  - destruct (Nat.ltb_spec (length (ch_buf (chans w k))) (ch_cap (chans w k))).
    + injection R as _ <-. right. left. split; [lia|]. split; [lia|reflexivity].
    + injection R as _ <-. right. right. split; [lia|]. split; [lia|reflexivity].
Qed.
Lemma conns_on : forall i f w j, chans (on_conn i f w) j = chans w j.
Proof. intros i f w j. unfold on_conn. now destruct (nth_error (conns w) i). Qed.
Lemma chans_on : forall i f w, chans (on_conn i f w) = chans w.
Proof. intros i f w. unfold on_conn. now destruct (nth_error (conns w) i). Qed.
Lemma event_ok : forall l w b del w' o i v, Iv l w -> event_for l b i = Some v -> handle_packet b del w = Ret (w', o) ->
  exists cr o0 o1, conn_of l i = Some cr /\ o = o0 ++ o1 /\ forgotten t l cr v del o0 /\ told cap l i (ev_info v) o1.
Proof.
  intros l w b del w' o i v J Hv H. rewrite (event_iff C t cap l w b i J) in Hv. destruct (enc_event b) as [v'|] eqn:Ev; [|discriminate].
  destruct (assoc (ev_handle v') (tab w)) as [j|] eqn:A; [|discriminate]. destruct (Nat.eqb_spec j i) as [->|]; [|discriminate]. injection Hv as ->.
  rewrite (packet_event _ _ _ _ Ev), A in H. pose proof (J_tabv _ _ _ _ _ J _ _ A) as Li. apply nth_error_Some in Li.
  destruct (nth_error (conns w) i) as [c|] eqn:Hi; [|congruence]. unfold apply_event in H.
  destruct (on_failure c (ev_status v) del w) as [[w0 o0]|] eqn:F; cbn [gbind fst snd] in H; [|discriminate].
  destruct (report i (c_ch c) (ev_info v) _) as [w2 o2] eqn:R. injection H as <- <-.
  destruct (failure_frame _ _ _ _ _ _ F) as (F1 & F2 & F3 & F4 & F5 & F6 & F7 & F8).
  destruct (K_cr _ _ _ _ (J_conn _ _ _ _ _ J _ _ Hi)) as (cr & Hcr & _ & S). exists cr, o0, o2. split; [exact Hcr|]. split; [reflexivity|]. split.
  - unfold forgotten. destruct F7 as [->|(s & N & Es & -> & Fb & ->)].
    + right. split; [|reflexivity]. destruct (F8 eq_refl) as [Z|(s & Es & X)]; [now left|]. rewrite Es in S. destruct S as (_ & S & _).
      right. rewrite <- (J_store _ _ _ _ _ J), <- S. destruct X as [X|X]; [now right|now left].
    + left. rewrite Es in S. destruct S as (_ & S & _). rewrite <- (J_store _ _ _ _ _ J), <- S. split; [exact N|]. split; [exact Fb|]. split; reflexivity.
  - apply (told_ok l w _ i c (ev_info v) w2 o2 J Hi) in R; [exact R|]. rewrite chans_on. exact F3.
Qed.
Lemma no_event_ok : forall l w b del w' o, Iv l w -> (forall i, event_for l b i = None) -> handle_packet b del w = Ret (w', o) -> o = [].
Proof.
  intros l w b del w' o J N H. destruct (packet_cases _ _ _ _ _ H) as [(v & i & c & Hv & Ha & Hi & Hap)|(_ & -> & _)]; [|reflexivity].
  specialize (N i). rewrite (event_iff C t cap l w b i J), Hv, Ha, Nat.eqb_refl in N. discriminate.
Qed.
Lemma event_no_crash : forall l w b del v, Iv l w -> enc_event b = Some v ->
  (forall i cr, owner l (ev_handle v) = Some i -> conn_of l i = Some cr -> ev_status v = 0 \/ cr_sec cr = true) -> handle_packet b del w <> Panic.
Proof.
  intros l w b del v J Ev Hs. rewrite (packet_event _ _ _ _ Ev). destruct (assoc (ev_handle v) (tab w)) as [i|] eqn:A; [|discriminate].
  destruct (nth_error (conns w) i) as [c|] eqn:Hi; [|discriminate]. destruct (K_cr _ _ _ _ (J_conn _ _ _ _ _ J _ _ Hi)) as (cr & Hcr & _ & S).
  rewrite (J_tab _ _ _ _ _ J) in A. specialize (Hs _ _ A Hcr). unfold apply_event, on_failure. destruct (Z.eqb_spec (ev_status v) 0) as [Z|N].
  - cbn [gbind fst]. destruct (report _ _ _ _). discriminate.
  - destruct Hs as [Hs|Hs]; [congruence|]. destruct (c_smp c) as [s|]; [|congruence]. cbn [gbind]. destruct (delete_bond _ _ _). cbn [fst snd]. destruct (report _ _ _ _). discriminate.
Qed.

(** *** Reports *)
Lemma told_in : forall l i v o x, told cap l i v o -> In x o -> exists k, listener l i = Some k /\ (x = OReport i k v \/ x = OLost i k v \/ x = OGot k v).
Proof.
  intros l i v o x T H. unfold told in T. destruct (listener l i) as [k|]; [|subst o; destruct H]. exists k. split; [reflexivity|].
  destruct T as [(_ & ->)|[(_ & _ & ->)|(_ & _ & ->)]]; cbn in H; intuition.
Qed.
Lemma forgotten_in : forall l cr v del o x, forgotten t l cr v del o -> In x o ->
  x = ODeleted (rev (cr_peer cr)) /\ ev_status v <> 0 /\ stored t l (rev (cr_peer cr)) <> None.
Proof.
  intros l cr v del o x F H. destruct F as [(A & B & _ & ->)|(_ & ->)]; [|destruct H]. destruct H as [<-|[]]. split; [reflexivity|]. split; assumption.
Qed.
Lemma event_dec : forall l b, (exists i v, event_for l b i = Some v) \/ (forall i, event_for l b i = None).
Proof.
  intros l b. unfold event_for. destruct (enc_event b) as [v|]; [|right; reflexivity]. destruct (owner l (ev_handle v)) as [j|]; [|right; reflexivity].
  left. exists j, v. now rewrite Nat.eqb_refl.
Qed.
Lemma packet_in : forall l w b del w' o x, Iv l w -> handle_packet b del w = Ret (w', o) -> In x o ->
  exists i v cr, event_for l b i = Some v /\ conn_of l i = Some cr /\
   ((x = ODeleted (rev (cr_peer cr)) /\ ev_status v <> 0 /\ stored t l (rev (cr_peer cr)) <> None) \/
    (exists k, listener l i = Some k /\ (x = OReport i k (ev_info v) \/ x = OLost i k (ev_info v) \/ x = OGot k (ev_info v)))).
Proof.
  intros l w b del w' o x J H Hx. destruct (event_dec l b) as [(i & v & Hv)|N].
  - destruct (event_ok _ _ _ _ _ _ _ _ J Hv H) as (cr & o0 & o1 & Hcr & -> & F & T). exists i, v, cr. split; [exact Hv|]. split; [exact Hcr|].
    apply in_app_or in Hx. destruct Hx as [Hx|Hx]; [left; exact (forgotten_in _ _ _ _ _ _ F Hx)|right; exact (told_in _ _ _ _ _ T Hx)].
  - rewrite (no_event_ok _ _ _ _ _ _ J N H) in Hx. destruct Hx.
Qed.
Lemma send_out : forall k v w w' o x, chan_send k v w = Some (w', o) -> In x o -> x = OGot k v.
Proof.
  intros k v w w' o x Hc Hx. unfold chan_send in Hc. destruct (Nat.ltb 0 _).
  - injection Hc as _ <-. now destruct Hx as [<-|[]].
  - destruct (Nat.ltb (length _) _); [|discriminate]. injection Hc as _ <-. destruct Hx.
Qed.
(** Every observation of a step, by its kind. *)
Lemma obs_of_step : forall l w a w' o x, Iv l w -> step C w a = Some (Ret (w', o)) -> In x o ->
  match x with
  | OReport i k v | OLost i k v =>
      (exists b del u, a = TPacket b del /\ event_for l b i = Some u /\ v = ev_info u /\ listener l i = Some k) \/
      (exists j g, a = TGoEnd j g /\ sender_ok l (mkSender i k (Some v)))
  | ODeleted y => exists b del i v cr, a = TPacket b del /\ event_for l b i = Some v /\ ev_status v <> 0 /\ conn_of l i = Some cr /\
      y = rev (cr_peer cr) /\ stored t l y <> None
  | OSaved y _ => exists i e pdu cr, a = TSmp i (AMsg e pdu) /\ conn_of l i = Some cr /\ cr_sec cr = true /\ y = rev (cr_peer cr)
  | OCmd i h k ed rn => (exists ch e, a = TStart i ch e) \/ (exists e pdu, a = TSmp i (AMsg e pdu))
  | OStartRet i _ => (exists ch e, a = TStart i ch e) \/ (exists j, a = TFinish j)
  | _ => True
  end.
Proof.
  intros l w a w' o x J H Hx. destruct a; cbn [step] in H.
  - apply (f_equal (fun y => match y with Some (Ret z) => z | _ => (w, []) end)) in H. injection H as <- <-. destruct Hx.
  - apply (f_equal (fun y => match y with Some (Ret z) => z | _ => (w, []) end)) in H. injection H as <- <-. destruct Hx.
  - destruct (handle_packet b del w) as [[w1 o1]|] eqn:E; [|discriminate]. injection H as <- <-.
    destruct (packet_in _ _ _ _ _ _ _ J E Hx) as (i & v & cr & Hv & Hcr & [(-> & N & S)|(k & Hk & [-> | [-> | ->]])]).
    + exists b, del, i, v, cr. split; [reflexivity|]. split; [exact Hv|]. split; [exact N|]. split; [exact Hcr|]. split; [reflexivity|exact S].
    + left. exists b, del, v. split; [reflexivity|]. split; [exact Hv|]. split; [reflexivity|exact Hk].
    + left. exists b, del, v. split; [reflexivity|]. split; [exact Hv|]. split; [reflexivity|exact Hk].
    + exact Logic.I.
  - assert (Na : match a with AStartEncryption _ => False | _ => True end) by (destruct a; try exact Logic.I; discriminate).
    assert (H' : smp_step C i a w = Some (Ret (w', o))) by (destruct a; try exact H; discriminate). clear H.
    destruct (smp_step_inv _ _ _ _ _ _ H') as (c & Hi & [(_ & -> & -> & _)|(s & s' & evs & Hs & Hss & -> & ->)]); [destruct Hx|].
    destruct (sstep_eff C HC s a s' evs Hss Na) as [G1 G2 G3 G4]. destruct (K_cr _ _ _ _ (J_conn _ _ _ _ _ J _ _ Hi)) as (cr & Hcr & _ & S).
    rewrite Hs in S. destruct S as (S1 & S2 & _).
    apply smp_obs_shape in Hx. destruct Hx as [(e & q & Ha & Hq & ->)|(ok & _ & ->)]; [|exact Logic.I]. destruct q as [pdu|y b|k ed rn]; cbn [out_obs].
    + exact Logic.I.
    + destruct (e_save e); [|exact Logic.I]. destruct (G2 _ _ Hq) as (-> & e' & pdu & ->). exists i, e', pdu, cr. split; [reflexivity|]. split; [exact Hcr|]. split; [exact S1|exact S2].
    + destruct (G3 _ _ _ Hq) as (e' & pdu & cc & d & -> & _). right. exists e', pdu. reflexivity.
  - destruct (start_inv _ _ _ _ _ _ H) as (c & Hi & [(_ & k & -> & _ & ->)|[(_ & -> & _ & ->)|(_ & s & os & r & _ & _ & _ & Ho & _ & ->)]]).
    + destruct Hx as [<-|[]]. left. exists (Some k), e. reflexivity.
    + destruct Hx as [<-|[]]. left. exists None, e. reflexivity.
    + destruct Ho as [-> | (k & ed & rn & -> & _)]; [destruct Hx|]. destruct Hx as [<-|[]]. left. exists ch, e. reflexivity.
  - destruct (finish_inv _ _ _ _ H) as (c & _ & [(_ & -> & _)|(_ & -> & _)]); (destruct Hx as [<-|[]]; right; exists j; reflexivity).
  - destruct (go_eval_inv _ _ _ _ H) as (i & k & c & _ & _ & _ & ->). destruct Hx.
  - destruct (go_end_inv _ _ _ _ _ H) as (i & k & v & Hs & [(_ & -> & _)|(_ & os & -> & Hc)]).
    + destruct Hx as [<-|[]]. right. exists j, give_up. split; [reflexivity|]. exact (J_send _ _ _ _ _ J _ (nth_error_In _ _ Hs)).
    + destruct Hx as [<-|Hx].
      * right. exists j, give_up. split; [reflexivity|]. exact (J_send _ _ _ _ _ J _ (nth_error_In _ _ Hs)).
      * rewrite (send_out _ _ _ _ _ _ Hc Hx). exact Logic.I.
  - apply (f_equal (fun y => match y with Some (Ret z) => z | _ => (w, []) end)) in H. unfold recv in H. destruct (ch_buf (chans w k)); injection H as <- <-; [destruct Hx|].
    destruct Hx as [<-|[]]. exact Logic.I.
  - destruct (leave k w) as [w1|] eqn:E; [|discriminate]. injection H as <- <-. destruct Hx.
Qed.

(** *** Keys *)
Lemma start_key : forall l w i ch e w' o i' h k ed rn, Iv l w -> env_ok w (TStart i ch e) -> start i ch e w = Some (Ret (w', o)) ->
  In (OCmd i' h k ed rn) o -> exists cr b, conn_of l i = Some cr /\ i' = i /\ h = cr_handle cr /\ stored t l (rev (cr_peer cr)) = Some b /\
    (key_of b k ed rn \/ (short_term_key l i k /\ ed = 0 /\ rn = 0)).
Proof.
  intros l w i ch e w' o i' h k ed rn J He H Hx. destruct (start_inv _ _ _ _ _ _ H) as (c & Hi & [(_ & k' & _ & _ & ->)|[(_ & _ & _ & ->)|(_ & s & os & r & Hs & _ & _ & Ho & _ & ->)]]).
  - destruct Hx as [X|[]]. discriminate.
  - destruct Hx as [X|[]]. discriminate.
  - destruct Ho as [-> | (k' & ed' & rn' & -> & Nf & U & _)]; [destruct Hx|]. destruct Hx as [X|[]]. cbn [out_obs] in X. injection X as <- <- <- <- <-.
    destruct (J_conn _ _ _ _ _ J _ _ Hi) as [(cr & Hcr & Hh & S) K _ _ _]. rewrite Hs in S. destruct S as (S1 & S2 & _).
    cbn [env_ok] in He. rewrite Hi, Hs in He. destruct He as [He|He]; [congruence|]. rewrite S2, (J_store _ _ _ _ _ J) in He.
    destruct (stored t l (rev (cr_peer cr))) as [b|] eqn:Eb; [|congruence]. exists cr, b. split; [exact Hcr|]. split; [reflexivity|]. split; [exact Hh|]. split; [exact Eb|].
    destruct U as [(L & N & -> & -> & ->)|(b' & Eb' & -> & -> & ->)].
    + right. split; [|split; reflexivity]. apply (K _ Hs N).
    + left. rewrite He in Eb'. injection Eb' as <-. split; [reflexivity|]. split; reflexivity.
Qed.
Lemma smp_key : forall l w i a w' o i' h k ed rn, Iv l w -> env_ok w (TSmp i a) -> match a with AStartEncryption _ => False | _ => True end ->
  smp_step C i a w = Some (Ret (w', o)) -> In (OCmd i' h k ed rn) o ->
  exists e pdu c d cr, a = AMsg e pdu /\ S_smp.msg_of pdu = Some (c, d) /\ conn_of l i = Some cr /\ cr_sec cr = true /\ i' = i /\ h = cr_handle cr /\
   ((c = 4 /\ ed = 0 /\ rn = 0) \/ c = 13 \/
    (c = 11 /\ exists b, stored t l (rev (cr_peer cr)) = Some b /\ (key_of b k ed rn \/ (short_term_key l i k /\ ed = 0 /\ rn = 0)))).
Proof.
  intros l w i a w' o i' h k ed rn J He Na H Hx. destruct (smp_step_inv _ _ _ _ _ _ H) as (c & Hi & [(_ & _ & -> & _)|(s & s' & evs & Hs & Hss & -> & _)]); [destruct Hx|].
  destruct (sstep_eff C HC s a s' evs Hss Na) as [G1 G2 G3 G4].
  apply smp_obs_shape in Hx. destruct Hx as [(e & q & Ha & Hq & E)|(ok & _ & E)]; [|discriminate].
  destruct q as [pdu|y b|k' ed' rn']; cbn [out_obs] in E; [discriminate|destruct (e_save e); discriminate|]. injection E as -> -> -> -> ->.
  destruct (J_conn _ _ _ _ _ J _ _ Hi) as [(cr & Hcr & Hh & S) K _ _ _]. rewrite Hs in S. destruct S as (S1 & S2 & _).
  destruct (G3 _ _ _ Hq) as (e' & pdu & cc & d & -> & Hm & Hk). exists e', pdu, cc, d, cr. split; [reflexivity|]. split; [exact Hm|]. split; [exact Hcr|]. split; [exact S1|].
  split; [reflexivity|]. split; [exact Hh|]. destruct Hk as [(-> & _ & -> & ->)|[(-> & _)|(-> & Nf & U)]].
  - left. split; [reflexivity|]. split; reflexivity.
  - right. now left.
  - right. right. split; [reflexivity|]. cbn [env_ok M_enc.act_env] in He. rewrite Hi, Hs in He. destruct He as [He|He]; [congruence|]. rewrite S2, (J_store _ _ _ _ _ J) in He.
    destruct (stored t l (rev (cr_peer cr))) as [b|] eqn:Eb; [|congruence]. exists b. split; [reflexivity|].
    destruct U as [(L & N & -> & -> & ->)|(b' & Eb' & -> & -> & ->)].
    + right. split; [|split; reflexivity]. apply (K _ Hs N).
    + left. rewrite He in Eb'. injection Eb' as <-. split; [reflexivity|]. split; reflexivity.
Qed.

(** *** Calls *)
Lemma start_cases : forall l w i ch e w' o, Iv l w -> start i ch e w = Some (Ret (w', o)) ->
  (encrypted l i = true /\ o = [OStartRet i (match ch with Some _ => RNil | None => RAlready end)]) \/
  (encrypted l i = false /\ (o = [] \/ exists h k ed rn, o = [OCmd i h k ed rn])).
Proof.
  intros l w i ch e w' o J H. destruct (start_inv _ _ _ _ _ _ H) as (c & Hi & [(En & k' & -> & _ & ->)|[(En & -> & _ & ->)|(En & s & os & r & Hs & _ & _ & Ho & _ & ->)]]);
    rewrite (K_en _ _ _ _ (J_conn _ _ _ _ _ J _ _ Hi)) in En.
  - left. split; [exact En|reflexivity].
  - left. split; [exact En|reflexivity].
  - right. split; [exact En|]. destruct Ho as [-> | (k' & ed' & rn' & -> & _)]; [now left|]. right. exists (c_handle c), k', ed', rn'. reflexivity.
Qed.
Lemma start_no_crash : forall l w i ch e cr, Iv l w -> Small w -> env_ok w (TStart i ch e) -> conn_of l i = Some cr -> cr_sec cr = true ->
  exists w' o, start i ch e w = Some (Ret (w', o)).
Proof.
  intros l w i ch e cr J [Sb Sc] He Hcr Hsec. unfold start.
  assert (Li : (i < length (conns w))%nat) by (rewrite (J_len _ _ _ _ _ J); unfold conn_of in Hcr; apply nth_error_Some; congruence).
  apply nth_error_Some in Li. destruct (nth_error (conns w) i) as [c|] eqn:Hi; [|congruence]. clear Li.
  destruct (c_enabled c); [destruct ch; eexists _, _; reflexivity|].
  destruct (K_cr _ _ _ _ (J_conn _ _ _ _ _ J _ _ Hi)) as (cr' & Hcr' & _ & S). rewrite Hcr in Hcr'. injection Hcr' as <-.
  destruct (c_smp c) as [s|] eqn:Hs; [|congruence]. cbn [env_ok] in He. rewrite Hi, Hs in He.
  destruct (StartEncryption e (ctx s)) as [[[p os] r]|] eqn:Est; [eexists _, _; reflexivity|]. exfalso.
  destruct (Sc _ _ (nth_error_In _ _ Hi) Hs) as [[_ Hstk] _].
  unfold StartEncryption, bind, ofopt, ret, fail in Est. destruct (e_find e) as [b|] eqn:Ef; [|discriminate].
  assert (Hb : fits b) by (destruct He as [He|He]; [congruence|rewrite Ef in He; symmetry in He; exact (Sb _ _ He)]).
  pose proof (conn_encrypt_tw e (Some b) (ctx s) Hb Hstk) as T. apply tw_np in T. destruct (conn_encrypt e (Some b) (ctx s)) as [[[? ?] ?]|]; [discriminate|congruence].
Qed.
Definition okcalls (i : nat) (cs : list call) : nat := length (filter (fun c => Nat.eqb (l_conn c) i && l_ok c) cs).
Lemma okcalls_app : forall i a b, okcalls i (a ++ b) = (okcalls i a + okcalls i b)%nat.
Proof. intros. unfold okcalls. now rewrite filter_app, app_length. Qed.
Lemma okcalls_remove : forall cs j c i, nth_error cs j = Some c ->
  okcalls i cs = (okcalls i (firstn j cs ++ skipn (S j) cs) + if Nat.eqb (l_conn c) i && l_ok c then 1 else 0)%nat.
Proof.
  intros cs j c i H. rewrite (nth_split_at _ _ _ H) at 1. rewrite !okcalls_app. unfold okcalls at 2. cbn [filter].
  destruct (Nat.eqb (l_conn c) i && l_ok c); cbn [length]; unfold okcalls; clear; lia.
Qed.
Lemma filter_snoc_len : forall {A} (f : A -> bool) l x, length (filter f (l ++ [x])) = (length (filter f l) + if f x then 1 else 0)%nat.
Proof. intros A f l x. rewrite filter_app, app_length. cbn. now destruct (f x). Qed.
Lemma accepted_count : forall l w, run C (world0 t cap) l w -> forall i, accepted_of l i = (nil_of l i + okcalls i (calls w))%nat.
Proof.
  intros l w H. remember (world0 t cap) as w0 eqn:E0. induction H as [w|w l w1 a w2 o Hr IH He Hs]; subst w; [reflexivity|]. specialize (IH eq_refl).
  intro i. specialize (IH i). unfold accepted_of, nil_of in *. rewrite !filter_snoc_len. cbn [fst snd].
  assert (Q : match a with TStart _ _ _ | TFinish _ => False | _ => True end -> calls w2 = calls w1 ->
    (length (filter (fun x => match fst x with TStart j _ e => Nat.eqb j i && has_cmd (snd x) && e_cmd e | _ => false end) l) +
      (if match a with TStart j _ e => Nat.eqb j i && has_cmd o && e_cmd e | _ => false end then 1 else 0) =
     length (filter (fun x => match fst x with TFinish _ => existsb (fun y => match y with OStartRet j RNil => Nat.eqb j i | _ => false end) (snd x) | _ => false end) l) +
      (if match a with TFinish _ => existsb (fun y => match y with OStartRet j RNil => Nat.eqb j i | _ => false end) o | _ => false end then 1 else 0) + okcalls i (calls w2))%nat).
  { intros A ->. rewrite IH. destruct a; try contradiction; clear; lia. }
  destruct a; cbn [step] in Hs; try (apply Q; [exact Logic.I|]); clear Q.
  - apply (f_equal (fun y => match y with Some (Ret z) => z | _ => (w1, []) end)) in Hs. now injection Hs as <- _.
  - apply (f_equal (fun y => match y with Some (Ret z) => z | _ => (w1, []) end)) in Hs. now injection Hs as <- _.
  - destruct (handle_packet b del w1) as [[w3 o1]|] eqn:E; [|discriminate]. injection Hs as -> ->.
    destruct (packet_cases _ _ _ _ _ E) as [(v & i' & c & Hv & Ha & Hi & Hap)|(-> & _)]; [|reflexivity].
    unfold apply_event in Hap. destruct (on_failure c (ev_status v) del w1) as [[wf of]|] eqn:F; cbn [gbind fst snd] in Hap; [|discriminate].
    destruct (report i' (c_ch c) (ev_info v) _) as [wr or] eqn:R. injection Hap as -> _.
    destruct (report_frame _ _ _ _ _ _ R) as (_ & _ & _ & R4 & _). destruct (failure_frame _ _ _ _ _ _ F) as (_ & _ & _ & F4 & _). rewrite R4.
    unfold on_conn. destruct (nth_error (conns wf) i'); exact F4.
  - assert (H' : smp_step C i0 a w1 = Some (Ret (w2, o))) by (destruct a; try exact Hs; discriminate).
    destruct (smp_step_inv _ _ _ _ _ _ H') as (c & Hi & [(_ & -> & _)|(s & s' & evs & _ & _ & _ & ->)]); reflexivity.
  - destruct (start_inv _ _ _ _ _ _ Hs) as (c & Hi & [(_ & k & -> & -> & ->)|[(_ & -> & -> & ->)|(_ & s & os & r & _ & _ & Hne & Ho & -> & ->)]]).
    + cbn [has_cmd existsb calls set_senders]. rewrite andb_false_r. cbn [andb]. lia.
    + cbn [has_cmd existsb]. rewrite andb_false_r. cbn [andb]. lia.
    + cbn [calls set_calls]. rewrite okcalls_app. unfold okcalls at 2. cbn [filter l_conn l_ok].
      destruct Ho as [-> | (k & ed & rn & -> & _ & _ & Hr')].
      * destruct r as [u|]; [destruct Hne; [discriminate|reflexivity]|]. cbn [has_cmd map existsb]. rewrite !andb_false_r. cbn [andb length]. lia.
      * cbn [map out_obs has_cmd existsb orb]. rewrite andb_true_r. assert (X : match r with Some _ => true | None => false end = e_cmd e).
        { destruct (e_cmd e), r; try reflexivity; [destruct (proj2 Hr' eq_refl); reflexivity|]. assert (Y : Some u <> None) by discriminate. apply Hr' in Y. discriminate. }
        rewrite X. destruct (Nat.eqb i0 i && e_cmd e); cbn [length]; lia.
  - destruct (finish_inv _ _ _ _ Hs) as (c & Hc & [(Ok & -> & ->)|(Ok & -> & ->)]).
    + cbn [calls set_calls existsb]. rewrite (okcalls_remove _ _ _ i Hc), Ok in IH. rewrite andb_true_r in IH. rewrite orb_false_r. destruct (Nat.eqb (l_conn c) i); lia.
    + cbn [existsb orb]. rewrite (okcalls_remove _ _ _ i Hc), Ok in IH. rewrite andb_false_r in IH.
      assert (X : calls (on_conn (l_conn c) (set_ch None) (set_calls (firstn j (calls w1) ++ skipn (S j) (calls w1)) w1)) = firstn j (calls w1) ++ skipn (S j) (calls w1)).
      { clear. unfold on_conn. cbn [conns set_calls]. destruct (nth_error (conns w1) (l_conn c)); reflexivity. }
      rewrite X. lia.
  - destruct (go_eval_inv _ _ _ _ Hs) as (i' & k & c & _ & _ & -> & _). reflexivity.
  - destruct (go_end_inv _ _ _ _ _ Hs) as (i' & k & v & _ & [(_ & _ & ->)|(_ & os & _ & Hc)]); [reflexivity|].
    destruct (send_some _ _ _ _ _ Hc) as (ch & ->). reflexivity.
  - apply (f_equal (fun y => match y with Some (Ret z) => z | _ => (w1, []) end)) in Hs. unfold recv in Hs. destruct (ch_buf (chans w1 k)); now injection Hs as <- _.
  - destruct (leave k w1) as [w3|] eqn:E; [|discriminate]. injection Hs as -> _. unfold leave in E. destruct (ch_wait (chans w1 k)); [discriminate|]. injection E as <-. reflexivity.
Qed.
Lemma pending_call : forall i cs, (0 < ncalls i cs)%nat -> exists j c, nth_error cs j = Some c /\ l_conn c = i.
Proof.
  intros i cs H. unfold ncalls in H. destruct (filter _ cs) as [|c r] eqn:E; [cbn in H; lia|].
  assert (In c cs /\ Nat.eqb (l_conn c) i = true) as (Hc & Hi) by (apply (proj1 (filter_In (fun c => Nat.eqb (l_conn c) i) c cs)); rewrite E; now left).
  apply In_nth_error in Hc. destruct Hc as (j & Hj). exists j, c. split; [exact Hj|]. now apply Nat.eqb_eq.
Qed.
Lemma okcalls_le : forall i cs, (okcalls i cs <= ncalls i cs)%nat.
Proof. intros i cs. unfold okcalls, ncalls. induction cs as [|c cs IH]; [cbn; lia|]. cbn. destruct (Nat.eqb (l_conn c) i), (l_ok c); cbn; lia. Qed.
End Run.
