(** Subscriptions between two ends of this library: C109. *)
Require Import Verif.Base Verif.M_uuid Verif.M_attdb Verif.S_attdb Verif.P_attdb Verif.M_attsrv Verif.S_attsrv Verif.P_attsrv Verif.P_attsrv3.
Require Import Verif.M_attcli Verif.S_attcli Verif.M_gattcli Verif.S_gattcli Verif.S_e2e Verif.Props_attsrv Verif.P_attcli2 Verif.P_gattcli Verif.P_gattcli2 Verif.P_gattcli3 Verif.Props_gattcli Verif.P_e2e Verif.P_e2e2 Verif.P_e2e3 Verif.Props_e2e.

Ltac start FS := destruct FS as (NE & PL & SZ & rx & tx & S0).
(** Subscribing to what a characteristic offers succeeds, at any time; it registers the handler (if none was) and changes no other registration. *)
Theorem C109_subscribe : forall ss E s0 g c fc ind h, fresh_server ss s0 -> together ss (srv_peer E s0) g -> reported ss (profile_of ss) c fc -> offers c ind ->
  exists g', subscribe (srv_peer E s0) g fc ind (Some h) = Ret (g', COk tt) /\
    (registered g (gc_vh fc) ind = None -> registered g' (gc_vh fc) ind = Some h /\ forall vh k, (vh, k) <> (gc_vh fc, ind) -> registered g' vh k = registered g vh k).
Proof.
  intros ss E s0 g c fc ind h FS TG RP OF. start FS. pose proof (together_inv ss NE PL SZ E s0 rx tx S0 g TG) as I. pose proof (offers_notifying c ind OF) as N.
  destruct (where_is ss PL SZ c fc RP) as (_ & _ & _ & _ & _ & _ & _ & Wh). destruct (Wh N) as (z & CD & _). destruct (set_ok ss NE PL SZ E s0 g c fc z ind (Some h) I RP N CD (or_intror OF)) as (g' & H & _).
  assert (HS : subscribe (srv_peer E s0) g fc ind (Some h) = Ret (g', COk tt)) by (unfold subscribe; rewrite CD; exact H). exists g'. split; [exact HS|]. intro NR.
  destruct I as (_ & _ & IA & _). exact (subscribe_reg g _ fc ind (Some h) g' IA HS (or_intror NR)).
Qed.
Print Assumptions C109_subscribe.
(** Unsubscribing succeeds and removes the registration, no other; ClearSubscriptions succeeds and removes all that it visits. *)
Theorem C109_unsubscribe : forall ss E s0 g c fc ind, fresh_server ss s0 -> together ss (srv_peer E s0) g -> reported ss (profile_of ss) c fc -> notifying c = true ->
  exists g', subscribe (srv_peer E s0) g fc ind None = Ret (g', COk tt) /\ registered g' (gc_vh fc) ind = None /\ forall vh k, (vh, k) <> (gc_vh fc, ind) -> registered g' vh k = registered g vh k.
Proof.
  intros ss E s0 g c fc ind FS TG RP N. start FS. pose proof (together_inv ss NE PL SZ E s0 rx tx S0 g TG) as I.
  destruct (where_is ss PL SZ c fc RP) as (_ & _ & _ & _ & _ & _ & _ & Wh). destruct (Wh N) as (z & CD & _). destruct (set_ok ss NE PL SZ E s0 g c fc z ind None I RP N CD (or_introl eq_refl)) as (g' & H & _).
  assert (HS : subscribe (srv_peer E s0) g fc ind None = Ret (g', COk tt)) by (unfold subscribe; rewrite CD; exact H). exists g'. split; [exact HS|].
  destruct I as (_ & _ & IA & _). exact (subscribe_reg g _ fc ind None g' IA HS (or_introl eq_refl)).
Qed.
Print Assumptions C109_unsubscribe.
Theorem C109_clear : forall ss E s0 g ord, fresh_server ss s0 -> together ss (srv_peer E s0) g ->
  exists g', clear_subs (srv_peer E s0) g ord = Ret (g', COk tt) /\ (forall vh ind, In vh ord -> registered g' vh ind = None) /\ forall vh ind, ~ In vh ord -> registered g' vh ind = registered g vh ind.
Proof.
  intros ss E s0 g ord FS TG. start FS. pose proof (together_inv ss NE PL SZ E s0 rx tx S0 g TG) as I. destruct (clear_ok ss NE PL SZ E s0 ord g I) as (g' & H & _ & G). exists g'. split; [exact H|]. split.
  - intros vh ind IN. rewrite registered_aget, G. rewrite (proj2 (existsb_exists _ _)); [reflexivity|]. exists vh. split; [exact IN|apply Z.eqb_refl].
  - intros vh ind NI. rewrite !registered_aget, G. destruct (existsb (Z.eqb vh) ord) eqn:X; [|reflexivity]. exfalso. apply NI. apply existsb_exists in X. destruct X as (y & Y & Q). apply Z.eqb_eq in Q. now subst y.
Qed.
Print Assumptions C109_clear.
(** At every moment the server runs exactly one notifier of a kind for a characteristic if the client has a handler of that kind registered for
    it, and none otherwise. *)
Theorem C109_running_iff_registered : forall ss E s0 g c fc ind, fresh_server ss s0 -> together ss (srv_peer E s0) g -> reported ss (profile_of ss) c fc ->
  running (server_now E s0 g) ind (gc_h fc) = match registered g (gc_vh fc) ind with Some _ => 1 | None => 0 end%nat.
Proof.
  intros ss E s0 g c fc ind FS TG RP. start FS. destruct (together_inv ss NE PL SZ E s0 rx tx S0 g TG) as (_ & R & IA & _ & CF). destruct (table_good ss NE PL SZ) as [W T].
  destruct (where_is ss PL SZ c fc RP) as (_ & _ & _ & V & _). specialize (CF (ci_at c (gc_h fc))). cbn [ci_at ci_handle] in CF. rewrite <- V in CF.
  destruct (C22_running_iff_enabled _ _ (ci_at c (gc_h fc)) W R) as [R1 R2]. cbn [ci_at ci_handle] in R1, R2. unfold server_now. rewrite registered_aget.
  unfold ci_at in CF, R1, R2. rewrite CF in R1, R2. destruct (aget (g_subs g) (gc_vh fc)) as [s|] eqn:A.
  - rewrite (IA _ _ A) in R1, R2. destruct (bits_bits (sb_n s) (sb_i s)) as [B1 B2]. rewrite B1 in R1. rewrite B2 in R2. destruct ind; [rewrite R2; now destruct (sb_i s)|rewrite R1; now destruct (sb_n s)].
  - destruct ind; [rewrite R2; reflexivity|rewrite R1; reflexivity].
Qed.
Print Assumptions C109_running_iff_registered.
(** Every notifier of the server belongs to a characteristic that discovery reports: it sends on its value handle and runs its handler. *)
Theorem C109_notifiers : forall ss E s0 g n, fresh_server ss s0 -> together ss (srv_peer E s0) g -> In n (notifs (server_now E s0 g)) ->
  exists c fc, reported ss (profile_of ss) c fc /\ nt_char n = gc_h fc /\ nt_vh n = gc_vh fc /\ Some (nt_handler n) = (if nt_ind n then c_ih c else c_nh c).
Proof.
  intros ss E s0 g n FS TG I. start FS. destruct (together_inv ss NE PL SZ E s0 rx tx S0 g TG) as (_ & R & _). exact (notifier_reported ss NE PL SZ (server_now E s0 g) n (rs_reach _ _ R) I).
Qed.
Print Assumptions C109_notifiers.
(** What a running notifier sends is handed to the handler the client registered: the data, as far as it fits the server's buffer of n octets. *)
Theorem C109_delivered : forall ss E s0 g nt n data pdu, fresh_server ss s0 -> together ss (srv_peer E s0) g -> In nt (notifs (server_now E s0 g)) -> nt_open nt = true ->
  notify_pdu (if nt_ind nt then 29 else 27) n (nt_vh nt) data = Ret pdu ->
  exists g' h id, registered g (nt_vh nt) (nt_ind nt) = Some h /\ handle_notification g pdu = Ret (g', Some (h, id, firstn (n - 3) data)) /\ forall vh k, registered g' vh k = registered g vh k.
Proof.
  intros ss E s0 g nt n data pdu FS TG I OP NP. destruct (C109_notifiers ss E s0 g nt FS TG I) as (c & fc & RP & N1 & N2 & _).
  pose proof (C109_running_iff_registered ss E s0 g c fc (nt_ind nt) FS TG RP) as RR. start FS. destruct (where_is ss PL SZ c fc RP) as (_ & _ & H1 & V & VB & _).
  assert (RG : exists h, registered g (nt_vh nt) (nt_ind nt) = Some h).
  { rewrite N2. destruct (registered g (gc_vh fc) (nt_ind nt)) as [h|]; [now exists h|exfalso]. unfold running in RR. apply length_zero_iff_nil in RR.
    assert (X : In nt (filter (fun n => Bool.eqb (nt_ind n) (nt_ind nt) && (nt_char n =? gc_h fc) && nt_open n) (notifs (server_now E s0 g)))) by (apply filter_In; split; [exact I|]; rewrite Bool.eqb_reflx, OP, N1, Z.eqb_refl; reflexivity).
    rewrite RR in X. destruct X. }
  destruct RG as [h RG]. unfold notify_pdu in NP. destruct (Nat.ltb n 3); [discriminate|]. injection NP as <-.
  assert (D : de16 (u8 (nt_vh nt)) (u8 (nt_vh nt / 256)) = nt_vh nt) by (apply (de16_le16 (nt_vh nt)); lia).
  destruct (C31_dispatch g (if nt_ind nt then 29 else 27) (u8 (nt_vh nt)) (u8 (nt_vh nt / 256)) (firstn (n - 3) data)) as (g' & call & H & K & M).
  - destruct (nt_ind nt); [now right|now left].
  - rewrite D. intro Q. left. destruct (nt_ind nt); [congruence|discriminate Q].
  - rewrite D in M. assert (Q : ((if nt_ind nt then 29 else 27) =? 29) = nt_ind nt) by (destruct (nt_ind nt); reflexivity). rewrite Q, RG in M. destruct M as [id M]. exists g', h, id. split; [exact RG|].
    split; [rewrite <- M; exact H|exact K].
Qed.
Print Assumptions C109_delivered.

(** The device of C107's example: its second characteristic notifies; a client subscribes, is notified, and unsubscribes. *)
Example C109_hypotheses : fresh_server own_ss own_s.
Proof. destruct C107_hypotheses as (A & B & C & _). split; [exact A|]. split; [exact B|]. split; [exact C|]. exists 515, 23. reflexivity. Qed.
Definition own_fc : gchar := nth 1 (gv_chars (nth 1 (profile_of own_ss) (mkGV [] 0 0 []))) (mkGC [] 0 0 0 0 [] None).
Definition own_pdu : bytes := [27] ++ le16 (gc_vh own_fc) ++ [7; 8].
Example C109_example : exists g1 g2 g3 g4 id, together own_ss (srv_peer own_E own_s) g3 /\
  discover_profile 99 (srv_peer own_E own_s) false (new_gcl 23) = Ret (Some (g1, COk (profile_of own_ss))) /\
  subscribe (srv_peer own_E own_s) g1 own_fc false (Some 5%nat) = Ret (g2, COk tt) /\ running (server_now own_E own_s g2) false (gc_h own_fc) = 1%nat /\
  handle_notification g2 own_pdu = Ret (g3, Some (5%nat, id, [7; 8])) /\
  subscribe (srv_peer own_E own_s) g3 own_fc false None = Ret (g4, COk tt) /\ running (server_now own_E own_s g4) false (gc_h own_fc) = 0%nat.
Proof.
  assert (exists g1, discover_profile 99 (srv_peer own_E own_s) false (new_gcl 23) = Ret (Some (g1, COk (profile_of own_ss))) /\ exists g2, subscribe (srv_peer own_E own_s) g1 own_fc false (Some 5%nat) = Ret (g2, COk tt) /\ running (server_now own_E own_s g2) false (gc_h own_fc) = 1%nat /\
    exists g3 id, handle_notification g2 own_pdu = Ret (g3, Some (5%nat, id, [7; 8])) /\ exists g4, subscribe (srv_peer own_E own_s) g3 own_fc false None = Ret (g4, COk tt) /\ running (server_now own_E own_s g4) false (gc_h own_fc) = 0%nat) as (g1 & D & g2 & S & R & g3 & id & H & g4 & U & R4).
  { eexists. split; [vm_compute; reflexivity|]. eexists. split; [vm_compute; reflexivity|]. split; [vm_compute; reflexivity|]. eexists. eexists. split; [vm_compute; reflexivity|]. eexists. split; [vm_compute; reflexivity|vm_compute; reflexivity]. }
  exists g1, g2, g3, g4, id. split; [|split; [exact D|split; [exact S|split; [exact R|split; [exact H|split; [exact U|exact R4]]]]]].
  apply (tg_sub _ _ g2 (SIncoming own_pdu) g3 (COk (Some (5%nat, id, [7; 8])))); [|exact I|cbn [run_sop]; rewrite H; reflexivity].
  apply (tg_sub _ _ g1 (SSubscribe own_fc false 5%nat) g2 (COk None)); [| |cbn [run_sop]; rewrite S; reflexivity].
  - eapply tg_discover; [apply (tg_new _ _ 23); lia|exact D].
  - exists own_c2. split; [|discriminate]. exists 1%nat, 1%nat. eexists. eexists. split; [reflexivity|]. split; [reflexivity|]. split; reflexivity.
Qed.
