Require Import Verif.M_hci Verif.S_hci.
Require Import Verif.Base Verif.M_uuid Verif.S_uuid Verif.P_uuid Verif.M_advrep Verif.P_advrep2 Verif.M_tomap Verif.S_tomap Verif.P_tomap Verif.M_cmd Verif.P_cmd Verif.M_adv Verif.M_gap Verif.S_gap Verif.P_gap Verif.M_connapi Verif.S_connapi.

Lemma hexdigit_eq : forall d, 0 <= d < 16 -> hex_digit d = hexdigit d.
Proof. intros d L. assert (K : exists n, (n < 16)%nat /\ d = Z.of_nat n) by (exists (Z.to_nat d); lia). destruct K as (n & L2 & ->). do 16 (destruct n as [|n]; [reflexivity|]). lia. Qed.
Lemma two_eq : forall x, is_byte x -> hex_encode [x] = two x.
Proof.
  intros x X. unfold is_byte in X. unfold hex_encode, two. cbn [flat_map app].
  rewrite !hexdigit_eq; [reflexivity|apply Z.mod_pos_bound; lia|split; [apply Z.div_pos; lia|apply Z.div_lt_upper_bound; lia]].
Qed.
Lemma lower_two : forall x, is_byte x -> to_lower (hex_encode [x]) = two x.
Proof. intros x X. rewrite to_lower_hex; [now apply two_eq|]. constructor; [exact X|constructor]. Qed.
Lemma lower_app : forall a b, to_lower (a ++ b) = to_lower a ++ to_lower b.
Proof. intros. unfold to_lower. apply map_app. Qed.
Lemma lower_colon : forall b, to_lower (ch_colon :: b) = 58 :: to_lower b.
Proof. reflexivity. Qed.
Lemma addr_text : forall a, length a = 6%nat -> all_bytes a -> new_addr (hw_string (rev a)) = mac_text_of a.
Proof.
  intros a L B. do 7 (destruct a as [|? a]; try discriminate L).
  unfold all_bytes in B. repeat match goal with H : Forall is_byte (_ :: _) |- _ => apply Forall_cons_iff in H; destruct H end.
  unfold mac_text_of. cbn [rev app hw_string]. unfold new_addr. repeat (rewrite lower_app || rewrite lower_colon). rewrite !lower_two by assumption. reflexivity.
Qed.
Lemma pad6_len : forall b, length (pad6 b) = 6%nat.
Proof. intro b. unfold pad6. rewrite firstn_length, app_length, repeat_length. lia. Qed.
Lemma pad6_bytes : forall b, all_bytes b -> all_bytes (pad6 b).
Proof. intros b H. unfold pad6. apply Forall_firstn. apply Forall_app. split; [exact H|]. apply Forall_forall. intros x X. apply repeat_spec in X. subst. unfold is_byte. lia. Qed.
Lemma gfrom_bytes : forall b n c, all_bytes b -> gfrom b n = Ret c -> all_bytes c.
Proof. intros b n c H E. unfold gfrom in E. destruct (Nat.leb _ _); [|discriminate E]. injection E as <-. now apply Forall_skipn. Qed.
Lemma gle16_range : forall b z, all_bytes b -> gle16 b = Ret z -> 0 <= z < 65536.
Proof.
  intros b z H E. unfold gle16 in E. destruct b as [|x [|y b]]; try discriminate E. unfold all_bytes in H. apply Forall_cons_iff in H. destruct H as [X H]. apply Forall_cons_iff in H. destruct H as [Y _]. unfold is_byte in *.
  cbn in E. injection E as <-. unfold de16. lia.
Qed.
Lemma dec_conn_addr : forall b h r t a, all_bytes b -> dec_conn b = Ret (KConn h r t a) -> 0 <= h < 65536 /\ length a = 6%nat /\ all_bytes a.
Proof.
  intros b h r t a B E. unfold dec_conn in E. destruct (gidx b 1) as [st|]; [|discriminate E]. cbn [gbind] in E. destruct (negb (st =? 0)); [discriminate E|].
  destruct (gfrom b 6) as [x|] eqn:F; [|discriminate E]. cbn [gbind] in E. destruct (gfrom b 2) as [y|] eqn:F2; [|discriminate E]. cbn [gbind] in E.
  destruct (gle16 y) as [z|] eqn:GZ; [|discriminate E]. cbn [gbind] in E. destruct (gidx b 4) as [w|]; [|discriminate E]. cbn [gbind] in E. injection E as <- _ _ <-.
  split; [apply (gle16_range y); [apply (gfrom_bytes _ _ _ B F2)|exact GZ]|]. split; [apply pad6_len|apply pad6_bytes]. apply (gfrom_bytes _ _ _ B F).
Qed.
Lemma dec_addr : forall b h r t a, all_bytes b -> dec_pkt b = Ret (KConn h r t a) -> 0 <= h < 65536 /\ length a = 6%nat /\ all_bytes a.
Proof.
  intros b h r t a B E. unfold dec_pkt in E. destruct (gidx b 0) as [ty|]; [|discriminate E]. cbn [gbind] in E. destruct (gfrom b 1) as [p|] eqn:F; [|discriminate E]. cbn [gbind] in E.
  pose proof (gfrom_bytes _ _ _ B F) as BP. destruct (ty =? 2); [unfold dec_acl in E; destruct (gidx p 0); [|discriminate E]; cbn [gbind] in E; destruct (gidx p 1); discriminate E|].
  destruct (ty =? 4); [|discriminate E]. unfold dec_evt in E. destruct (gidx p 0) as [code|]; [|discriminate E]. cbn [gbind] in E. destruct (gidx p 1) as [pl|]; [|discriminate E]. cbn [gbind] in E.
  destruct (gfrom p 2) as [q|] eqn:G; [|discriminate E]. cbn [gbind] in E. pose proof (gfrom_bytes _ _ _ BP G) as BQ. destruct (negb _); [discriminate E|].
  destruct (code =? 62).
  - unfold dec_meta in E. destruct (gidx q 0) as [sub|]; [|discriminate E]. cbn [gbind] in E. destruct (sub =? 2); [discriminate E|]. destruct (sub =? 1); [now apply (dec_conn_addr q h r t a)|].
    destruct (sub =? 48); [|discriminate E]. unfold dec_refresh in E. destruct (gfrom q 1) as [x|]; [|discriminate E]. cbn [gbind] in E. destruct (gle16 x); [|discriminate E]. cbn [gbind] in E. destruct (gidx q 0); discriminate E.
  - destruct (_ || _)%bool; [discriminate E|]. destruct (code =? 5).
    { unfold dec_disc in E. destruct (gfrom q 1) as [x|]; [|discriminate E]. cbn [gbind] in E. destruct (gle16 x); [|discriminate E]. cbn [gbind] in E. destruct (gidx q 3); discriminate E. }
    destruct (code =? 19); [discriminate E|]. destruct (code =? 8); [|discriminate E]. unfold dec_enc in E. destruct (gfrom q 1) as [x|]; [|discriminate E]. cbn [gbind] in E. destruct (gle16 x); discriminate E.
Qed.
Lemma conns_addrs : forall l, (forall p, In (APkt p) l -> all_bytes p) -> Forall (fun x => 0 <= fst (fst x) < 65536 /\ length (snd x) = 6%nat /\ all_bytes (snd x)) (conns_of l).
Proof.
  induction l as [|a l IH]; intro H; [constructor|]. unfold conns_of. cbn [flat_map]. apply Forall_app. split; [|apply IH; intros p X; apply H; now right].
  unfold new_conns. destruct a; try constructor. destruct (dec_pkt b) as [e|] eqn:E; [|constructor]. destruct e; try constructor; [|constructor]. cbn [fst snd].
  apply (dec_addr b _ _ _ _ (H b (or_introl eq_refl)) E).
Qed.

Lemma pk_rssi : forall h, 0 <= h < 65536 -> packet "ReadRSSI" (field "Handle" (GInt h) none) = Ret (read_rssi_packet h).
Proof.
  intros h H. match goal with |- packet ?n ?fv = _ => let d := eval vm_compute in (find_cmd n) in match d with Some ?d => rewrite (packet_of n fv d [h mod 256; h / 256]) end end; try reflexivity.
  - unfold enc_struct. cbn [field String.eqb]. cbn. unfold u8. rewrite (Z.mod_small (h / 256)); [reflexivity|]. split; [apply Z.div_pos; lia|apply Z.div_lt_upper_bound; lia].
  - cbn. lia.
  - cbn. lia.
Qed.

(** the address stays as Init left it *)
Ltac ends := repeat match goal with
  | H : gbind ?x _ = Ret _ |- _ => let E := fresh in destruct x as [?|] eqn:E; [cbn [gbind] in H|discriminate H]
  | H : (let (_, _) := ?x in _) = Ret _ |- _ => destruct x
  | H : (match ?x with Some _ => _ | None => _ end) = Ret _ |- _ => destruct x
  | H : (if ?x then _ else _) = Ret _ |- _ => destruct x
  | H : Ret (_, _, _) = Ret (_, _, _) |- _ => injection H as <- <- <-
  | H : Ret (_, _) = Ret (_, _) |- _ => injection H as <- <-
  end.
Lemma set_addr_kept : forall (step : controller ctl) h k ad sr h' k' ok, set_advertisement step h k ad sr = Ret (h', k', ok) -> h_addr h' = h_addr h.
Proof. intros step h k ad sr h' k' ok E. unfold set_advertisement in E. ends; reflexivity. Qed.
Lemma adv_addr_kept : forall (step : controller ctl) h k h' k' ok, advertise step h k = Ret (h', k', ok) -> h_addr h' = h_addr h.
Proof. intros step h k h' k' ok E. unfold advertise in E. ends; reflexivity. Qed.
Lemma with_addr_kept : forall (step : controller ctl) h k ad sr h' k' ok, advertise_with step h k ad sr = Ret (h', k', ok) -> h_addr h' = h_addr h.
Proof.
  intros step h k ad sr h' k' ok E. unfold advertise_with in E. destruct (set_advertisement step h k ad sr) as [[[h1 k1] ok1]|] eqn:S1; [|discriminate E]. cbn [gbind] in E. apply set_addr_kept in S1.
  destruct ok1; [apply adv_addr_kept in E; congruence|injection E as <- <- <-; exact S1].
Qed.
Lemma hop_addr_kept : forall step h k o h' k' ok, run_hop step h k o = Ret (h', k', ok) -> h_addr h' = h_addr h.
Proof.
  intros step h k o h' k' ok E. destruct o as [c| |d| |a rnd| |b]; cbn [run_hop] in E.
  - destruct c; cbn [run_acall] in E; unfold field_call in E;
      try (match type of E with (let (_, _) := ?x in _) = _ => destruct x end; now apply with_addr_kept in E);
      try (match type of E with (match ?x with Some _ => _ | None => _ end) = _ => destruct x end; [now apply with_addr_kept in E|injection E as <- <- <-; reflexivity]).
    destruct (set_advertisement step (with_advp h p) k ad sr) as [[[h1 k1] ok1]|] eqn:S1; [|discriminate E]. cbn [gbind] in E. apply set_addr_kept in S1. cbn in S1.
    destruct ok1; [apply adv_addr_kept in E; congruence|injection E as <- <- <-; exact S1].
  - unfold stop_advertising in E. ends; reflexivity.
  - unfold scan in E. ends; reflexivity.
  - unfold stop_scanning in E. ends; reflexivity.
  - unfold dial in E. ends; reflexivity.
  - unfold peripheral_connected in E. destruct (h_enable h =? 1); ends; reflexivity.
  - unfold peripheral_disconnected in E. destruct (negb b); [|ends; reflexivity]. destruct (h_enable h =? 1); ends; reflexivity.
Qed.
Lemma lived_addr_kept : forall step h k l h' k', lived step h k l h' k' -> h_addr h' = h_addr h.
Proof. intros step h k l h' k' L. induction L as [|h0 k0 l h k o h' k' ok L IH O R]; [reflexivity|]. apply hop_addr_kept in R. congruence. Qed.
