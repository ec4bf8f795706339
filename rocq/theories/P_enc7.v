(** Consequences of the invariant, step by step; no crashes; the results of calls. *)
Require Import Verif.Base Verif.M_smp Verif.P_smp Verif.P_smp2 Verif.P_smp3 Verif.P_smp4 Verif.P_smp7.
Require Import Verif.M_enc Verif.S_enc Verif.P_enc Verif.P_enc2 Verif.P_enc3 Verif.P_enc4 Verif.P_enc5 Verif.P_enc6.
Require Verif.M_hci Verif.S_smp.

(** ** Stored bonds stay usable *)
Definition find_small (e : env) : Prop := match e_find e with Some b => fits b | None => True end.
Section Small.
Variable C : prims.
Variable HC : S_smp.prims_ok C.
Lemma G_dispatch' : forall e c d p h, find_small e -> dispatch C e c d = Some h -> G p -> wp h p (fun p' _ _ => G p').
Proof.
  intros e c d p h Hfo Hd HG. unfold dispatch in Hd.
  repeat match type of Hd with
  | (if ?x then _ else _) = _ => destruct x eqn:?
  end; try discriminate Hd; apply Some_inj in Hd; subst h.
  all: wps; try (apply (G_same p); [reflexivity|reflexivity|reflexivity|exact HG]).
  all: destruct HG as [[A1 A2] A3].
  all: try match goal with E : smpS1 _ _ _ _ = Ret (Some _) |- _ => apply smpS1_len in E; [|exact HC] end.
  all: try match goal with E : smpF5 _ _ _ _ _ _ = Some ?x |- _ => destruct x as [mk lt]; apply F5_out_len in E; [|exact HC] end.
  all: unfold find_small, fits in Hfo; try match goal with E : e_find _ = _ |- _ => rewrite E in Hfo end.
  all: split; [split|]; sp; try assumption; try lia.
  all: intros b' Hb'; try (apply Some_inj in Hb'; subst b'; cbn [ltk blegacy]; first [left; reflexivity|exact Hfo|right; lia|right; assumption]).
Qed.
Lemma saved_bond : forall e c d p h, dispatch C e c d = Some h -> wp h p (fun p' o _ => forall a b, In (OSave a b) o -> p_bond p' = Some b).
Proof.
  intros e c d p h Hd. unfold dispatch in Hd.
  repeat match type of Hd with
  | (if ?x then _ else _) = _ => destruct x eqn:?
  end; try discriminate Hd; apply Some_inj in Hd; subst h.
  all: wps; sp; intros a' b' Hin; cbn [In app] in Hin; repeat (destruct Hin as [Hin|Hin]; [try discriminate Hin; try (injection Hin as <- <-; congruence)|]); try contradiction.
Qed.
Lemma sstep_small : forall s a s' evs, sstep C s a = Some (Ret (s', evs)) -> match a with AStartEncryption _ => False | _ => True end ->
  match act_env a with Some e => find_small e | None => True end -> G (ctx s) ->
  G (ctx s') /\ forall x b, In (EOut (OSave x b)) evs -> fits b.
Proof.
  intros s a s' evs H Na Ha HG. destruct a as [e pdu|e k oob| |e]; cbn [sstep act_env] in *; [| | |contradiction].
  - destruct (stuck s); [discriminate|]. apply Some_inj in H. destruct (Handle_inv _ _ _ _ _ _ H) as (c & d & Hm & Hh).
    destruct Hh as [(Hd & Hc & evs' & -> & Hf & _)|(h & p & o & r & s1 & evs1 & Hd & Hh & Haf & -> & ->)].
    + rewrite Hc. split; [exact HG|]. intros x b [X|X]; [discriminate|]. rewrite Forall_forall in Hf. specialize (Hf _ X). discriminate.
    + pose proof (G_dispatch' _ _ _ _ _ Ha Hd HG _ _ _ Hh) as HG'. cbv beta in HG'.
      pose proof (saved_bond _ _ _ (ctx s) _ Hd _ _ _ Hh) as Sv. cbv beta in Sv.
      destruct (after_events _ _ _ _ _ Haf) as (F & _). split.
      * destruct (after_ctx _ _ _ _ _ Haf) as [[-> | ->] _]; [exact HG'|]. apply (G_same p); try reflexivity. exact HG'.
      * intros x b X. apply in_events in X; [|exact F]. destruct HG' as [[B _] _]. exact (B _ (Sv _ _ X)).
  - apply Some_inj in H. unfold Pair in H.
    assert (Hn : Ret (s, [EPairRet false]) = Ret (s', evs) -> G (ctx s') /\ forall x b, In (EOut (OSave x b)) evs -> fits b).
    { intro X. injection X as <- <-. split; [exact HG|]. intros x b [X|[]]. discriminate. }
    destruct (p_st (ctx s)) eqn:Es; try (exact (Hn H)). clear Hn.
    unfold StartPairing, sendPairingRequest, send, bind, modify, get, emit, must in H.
    destruct (0 <? length oob)%nat, (e_write e); cbn in H; injection H as <- <-; cbn [ctx];
      (split; [apply (G_same (ctx s)); try reflexivity; exact HG|intros x b X; cbn [In] in X; intuition discriminate]).
  - destruct (waiting s); [|discriminate]. injection H as <- <-. split; [exact HG|]. intros x b [X|[]]. discriminate.
Qed.

(** In the world. *)
Record Small (w : world) : Prop := {
  S_bonds : forall a b, find_bond a (bonds w) = Some b -> fits b;
  S_conns : forall c s, In c (conns w) -> c_smp c = Some s -> G (ctx s) }.
Lemma obs_bonds_small : forall o tb, (forall a b, In (OSaved a b) o -> fits b) -> (forall a b, find_bond a tb = Some b -> fits b) ->
  forall a b, find_bond a (obs_bonds tb o) = Some b -> fits b.
Proof.
  induction o as [|x o IH]; intros tb S H; [exact H|]. unfold obs_bonds. cbn [fold_left]. apply IH; [intros a b Hin; apply (S a); now right|].
  destruct x; try exact H. intros a' b'. rewrite find_put. destruct (beq_bytes a' a); [|apply H]. intro X. injection X as <-. apply (S a). now left.
Qed.
Lemma start_small : forall w i ch e w' o, start i ch e w = Some (Ret (w', o)) -> Small w -> Small w'.
Proof.
  intros w i ch e w' o H [S1 S2]. destruct (start_inv _ _ _ _ _ _ H) as (c & Hi & [(_ & k & _ & -> & _)|[(_ & _ & -> & _)|(_ & s & os & r & Hs & _ & _ & _ & -> & _)]]); split; cbn [bonds conns set_senders set_calls set_conns]; try assumption.
  intros c' s' Hc. apply upd_in in Hc. destruct Hc as [->|Hc]; [|now apply S2]. cbn [c_smp set_ch]. apply S2. exact (nth_error_In _ _ Hi).
Qed.
Lemma chan_send_frame : forall k v w w' o, chan_send k v w = Some (w', o) -> bonds w' = bonds w /\ conns w' = conns w.
Proof. intros k v w w' o H. destruct (send_some _ _ _ _ _ H) as (c & ->). split; reflexivity. Qed.
Lemma on_conn_small : forall i f w, (forall c, c_smp (f c) = c_smp c) -> Small w -> Small (on_conn i f w).
Proof.
  intros i f w Hf [S1 S2]. unfold on_conn. destruct (nth_error (conns w) i) as [c|] eqn:N; [|split; assumption]. split; cbn [bonds conns set_conns]; [exact S1|].
  intros c' s Hc. apply upd_in in Hc. destruct Hc as [->|Hc]; [|now apply S2]. rewrite Hf. apply S2. exact (nth_error_In _ _ N).
Qed.
Lemma step_small : forall w a w' o, env_ok w a -> step C w a = Some (Ret (w', o)) -> Small w -> Small w'.
Proof.
  intros w a w' o He H HS. destruct a; cbn [step] in H.
  - apply (f_equal (fun x => match x with Some (Ret y) => y | _ => (w, []) end)) in H. injection H as <- <-. destruct HS as [S1 S2].
    split; cbn [bonds conns set_tab set_conns]; [exact S1|]. intros c s Hc Hs. apply in_app_or in Hc. destruct Hc as [Hc|[<-|[]]]; [now apply (S2 c)|].
    unfold new_conn in Hs. cbn [c_smp] in Hs. destruct security; [|discriminate]. injection Hs as <-. split; [split; cbn; [discriminate|lia]|cbn; lia].
  - apply (f_equal (fun x => match x with Some (Ret y) => y | _ => (w, []) end)) in H. injection H as <- <-. destruct HS as [S1 S2]. split; assumption.
  - destruct (handle_packet b del w) as [[w1 o1]|] eqn:E; [|discriminate]. injection H as <- <-.
    destruct (packet_cases _ _ _ _ _ E) as [(v & i & c & Hv & Ha & Hi & Hap)|(-> & -> & Hno)]; [|exact HS].
    unfold apply_event in Hap. destruct (on_failure c (ev_status v) del w) as [[w0 o0]|] eqn:F; cbn [gbind fst snd] in Hap; [|discriminate].
    destruct (report i (c_ch c) (ev_info v) _) as [w2 o2] eqn:R. injection Hap as <- <-.
    destruct (report_frame _ _ _ _ _ _ R) as (R1 & _ & R3 & _).
    assert (S0 : Small w0).
    { unfold on_failure in F. destruct (ev_status v =? 0); [injection F as <- <-; exact HS|]. destruct (c_smp c); [|discriminate].
      apply (f_equal (fun x => match x with Ret y => y | Panic => (w, []) end)) in F. unfold delete_bond in F. destruct (find_bond _ (bonds w)); [|injection F as <- <-; exact HS].
      destruct del; injection F as <- <-; [|exact HS]. destruct HS as [S1 S2]. split; cbn [bonds conns set_bonds]; [|exact S2].
      intros a b'. rewrite find_drop. destruct (beq_bytes a _); [discriminate|apply S1]. }
    apply (on_conn_small i (match v with Change _ _ _ => fun c0 => set_info (ev_info v) (set_enabled (i_enabled (ev_info v)) c0) | Refresh _ _ => set_enabled true end)) in S0; [|intro c0; now destruct v].
    destruct S0 as [S1 S2]. split; [rewrite R3; exact S1|rewrite R1; exact S2].
  - assert (Na : match a with AStartEncryption _ => False | _ => True end) by (destruct a; try exact Logic.I; discriminate).
    assert (H' : smp_step C i a w = Some (Ret (w', o))) by (destruct a; try exact H; discriminate). clear H.
    destruct (smp_step_inv _ _ _ _ _ _ H') as (c & Hi & [(_ & -> & -> & _)|(s & s' & evs & Hs & Hss & -> & ->)]); [exact HS|].
    destruct HS as [S1 S2]. cbn [env_ok] in He. rewrite Hi, Hs in He.
    destruct (sstep_small _ _ _ _ Hss Na) as (G1 & G2).
    { change (M_enc.act_env a) with (act_env a) in He. destruct (act_env a) as [e|]; [|exact Logic.I]. unfold find_small. destruct He as [-> | ->]; [exact Logic.I|].
      destruct (find_bond _ (bonds w)) as [b|] eqn:Ef; [exact (S1 _ _ Ef)|exact Logic.I]. }
    { exact (S2 _ _ (nth_error_In _ _ Hi) Hs). }
    split; cbn [bonds conns set_bonds set_conns].
    + apply obs_bonds_small; [|exact S1]. intros x b Hin. apply smp_obs_shape in Hin. destruct Hin as [(e & q & _ & Hq & E)|(ok & _ & E)]; [|discriminate].
      destruct q; cbn in E; try discriminate. destruct (e_save e); [|discriminate]. injection E as -> ->. exact (G2 _ _ Hq).
    + intros c' sx Hc Hx. apply upd_in in Hc. destruct Hc as [->|Hc]; [|now apply (S2 c')]. cbn [c_smp set_smp] in Hx. injection Hx as <-. exact G1.
  - now apply (start_small w i ch e w' o).
  - destruct (finish_inv _ _ _ _ H) as (c & _ & [(_ & _ & ->)|(_ & _ & ->)]).
    + destruct HS as [S1 S2]. split; assumption.
    + apply on_conn_small; [reflexivity|]. destruct HS as [S1 S2]. split; assumption.
  - destruct (go_eval_inv _ _ _ _ H) as (i & k & c & _ & _ & -> & _). destruct HS as [S1 S2]. split; assumption.
  - destruct (go_end_inv _ _ _ _ _ H) as (i & k & v & _ & [(_ & _ & ->)|(_ & os & _ & Hc)]).
    + destruct HS as [S1 S2]. split; assumption.
    + destruct (chan_send_frame _ _ _ _ _ Hc) as (F1 & F2). destruct HS as [S1 S2]. split; [rewrite F1; exact S1|rewrite F2; exact S2].
  - apply (f_equal (fun x => match x with Some (Ret y) => y | _ => (w, []) end)) in H. destruct HS as [S1 S2].
    assert (E : bonds w' = bonds w /\ conns w' = conns w) by (unfold recv in H; destruct (ch_buf (chans w k)); injection H as <- <-; split; reflexivity).
    destruct E as (F1 & F2). split; [rewrite F1; exact S1|rewrite F2; exact S2].
  - destruct (leave k w) as [w1|] eqn:E; [|discriminate]. injection H as <- <-. destruct HS as [S1 S2].
    unfold leave in E. destruct (ch_wait (chans w k)); [discriminate|]. injection E as <-. split; assumption.
Qed.
Lemma run_small : forall t cap l w, run C (world0 t cap) l w -> (forall a b, find_bond a t = Some b -> fits b) -> Small w.
Proof.
  intros t cap l w H Ht. remember (world0 t cap) as w0 eqn:E0. induction H as [w|w l w1 a w2 o Hr IH He Hs]; subst w.
  - split; [exact Ht|intros c s []].
  - exact (step_small _ _ _ _ He Hs (IH eq_refl)).
Qed.
End Small.
