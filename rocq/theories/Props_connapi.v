(** * C180, C181: what a connection says of itself *)
Require Import Verif.M_hci Verif.S_hci Verif.Props_hci.
Require Import Verif.Base Verif.M_uuid Verif.S_uuid Verif.P_uuid Verif.M_advrep Verif.P_advrep2 Verif.M_cmd Verif.P_cmd Verif.M_gap Verif.S_gap Verif.P_gap Verif.Props_gap Verif.M_connapi Verif.S_connapi Verif.P_connapi.

(** In every history of the host: RemoteAddr of the n-th connection is the usual text of the address in the n-th connection event. *)
Theorem C180_remote_address : forall smp l s, runs smp l s -> (forall p, In (APkt p) l -> all_bytes p) ->
  map remote_addr (objs s) = map (fun x => mac_text_of (snd x)) (conns_of l).
Proof.
  intros smp l s R B. pose proof (conns_addrs l B) as F. rewrite <- (C56_one_connection_per_event smp l s R) in F |- *. rewrite map_map. cbn [snd].
  apply map_ext_in. intros k IN. unfold remote_addr. rewrite Forall_forall in F. destruct (F (k_handle k, k_role k, k_addr k)) as (_ & L & A); [apply in_map_iff; now exists k|]. now apply addr_text.
Qed.
Print Assumptions C180_remote_address.
(** Two addresses have the same text exactly if they are the same. *)
Theorem C180_text_injective : forall a b, length a = 6%nat -> length b = 6%nat -> all_bytes a -> all_bytes b -> (mac_text_of a = mac_text_of b <-> a = b).
Proof.
  intros a b LA LB A B. split; [|intros ->; reflexivity]. rewrite <- !addr_text by assumption. intro E. apply hw_string_inj in E; try now apply all_bytes_rev.
  rewrite <- (rev_involutive a), <- (rev_involutive b). now f_equal.
Qed.
Print Assumptions C180_text_injective.
(** A device that was set up (by any options), whatever it has done since: LocalAddr of its connections is the text of its controller's address. *)
Theorem C180_local_address : forall step i opts l h k, willing step -> ident_ok i -> S_gap.after step i opts l h k -> local_addr h = mac_text_of (i_addr i).
Proof.
  intros step i opts l h k W IO (h0 & k0 & (O & h1 & ok1 & OP & IN) & L). apply lived_addr_kept in L.
  destruct (C111_set_up step (fresh i) opts W IO O) as (h2 & k2 & ok2 & R & _ & AD & _). rewrite OP in R. cbn [fst] in R. rewrite IN in R. injection R as <- _ _.
  unfold local_addr. rewrite L, AD. destruct IO as (L6 & B & _). now apply addr_text.
Qed.
Print Assumptions C180_local_address.
(** ReadRSSI of the n-th connection of a history asks for the handle in the n-th connection event, by one command; whatever the answer: a successful one gives its
    signed strength, everything else the value 127 and an error. *)
Theorem C180_read_rssi : forall smp l s n c hd role a, runs smp l s -> (forall p, In (APkt p) l -> all_bytes p) ->
  nth_error (objs s) n = Some c -> nth_error (conns_of l) n = Some (hd, role, a) ->
  forall K (step : K -> bytes -> K * option bytes) k, (forall b, snd (step k (read_rssi_packet hd)) = Some b -> all_bytes b) ->
  read_rssi step c k = Ret (fst (step k (read_rssi_packet hd)),
    match snd (step k (read_rssi_packet hd)) with
    | Some (status :: _ :: _ :: r :: _) => if status =? 0 then (signed_byte r, true) else (127, false)
    | _ => (127, false)
    end).
Proof.
  intros smp l s n c hd role a R B NC NE K step k HB.
  assert (EH : k_handle c = hd).
  { pose proof (C56_one_connection_per_event smp l s R) as M. rewrite <- M, nth_error_map, NC in NE. cbn in NE. congruence. }
  assert (RG : 0 <= hd < 65536).
  { pose proof (conns_addrs l B) as F. rewrite Forall_forall in F. destruct (F (hd, role, a) (nth_error_In _ _ NE)) as (X & _). exact X. }
  unfold read_rssi, ask. rewrite EH, (pk_rssi hd RG). cbn [gbind]. destruct (step k (read_rssi_packet hd)) as [k' r] eqn:ST. cbn [fst snd] in *. f_equal. f_equal.
  destruct r as [b|]; [|reflexivity]. specialize (HB b eq_refl).
  let d := eval vm_compute in (find_rp "ReadRSSIRP") in change (find_rp "ReadRSSIRP") with d. unfold send_result.
  destruct b as [|st b]; [reflexivity|]. destruct (st =? 0) eqn:S0; [apply Z.eqb_eq in S0; subst st|destruct b as [|? [|? [|? ?]]]; reflexivity].
  destruct b as [|b1 b]; [reflexivity|]. destruct b as [|b2 b]; [reflexivity|]. destruct b as [|x b]; [reflexivity|].
  cbn -[Z.mul Z.add Z.leb]. unfold all_bytes in HB. do 3 (apply Forall_cons_iff in HB; destruct HB as [_ HB]). apply Forall_cons_iff in HB. destruct HB as [X _]. unfold is_byte in X.
  unfold signed_byte. change (0 + 256 * 0 =? 0) with true. cbv iota.
  assert (V : (if 256 * 1 <=? 2 * (x + 256 * 0) then x + 256 * 0 - 256 * 1 else x + 256 * 0) = (if x <? 128 then x else x - 256)).
  { destruct (Z.leb_spec (256 * 1) (2 * (x + 256 * 0))); destruct (Z.ltb_spec x 128); lia. }
  now rewrite V.
Qed.
Print Assumptions C180_read_rssi.
(** ConnectionHandle is the low byte of the handle in the connection event: the handle itself exactly if that is below 256. *)
Theorem C180_connection_handle : forall smp l s, runs smp l s ->
  map connection_handle (objs s) = map (fun x => fst (fst x) mod 256) (conns_of l).
Proof.
  intros smp l s R. rewrite <- (C56_one_connection_per_event smp l s R), map_map. apply map_ext. intro k. cbn [fst]. unfold connection_handle. change 255 with (Z.ones 8). apply Z.land_ones. lia.
Qed.
Print Assumptions C180_connection_handle.

(** The connection event on the wire: LE Meta (0x3E), subevent 1, status 0, handle, role, address type, address; the address of a truncated event is filled with zeros. *)
Theorem C180_event_on_the_wire : forall n h0 h1 role ty a, n = 6 + Z.of_nat (length a) -> n < 256 ->
  conns_of [APkt ([4; 62; n; 1; 0; h0; h1; role; ty] ++ a)] = [(h0 + 256 * h1, role, firstn 6 (a ++ [0; 0; 0; 0; 0; 0]))].
Proof.
  intros n h0 h1 role ty a N LT. unfold conns_of. cbn [flat_map]. rewrite app_nil_r. unfold new_conns.
  assert (E : dec_pkt ([4; 62; n; 1; 0; h0; h1; role; ty] ++ a) = Ret (KConn (h0 + 256 * h1) role (Some ty) (firstn 6 (a ++ [0; 0; 0; 0; 0; 0])))); [|now rewrite E].
  change (dec_pkt ([4; 62; n; 1; 0; h0; h1; role; ty] ++ a)) with (if negb (n =? Z.of_nat (length ([1; 0; h0; h1; role; ty] ++ a))) then Ret KNothing else dec_conn ([1; 0; h0; h1; role; ty] ++ a)).
  rewrite app_length. cbn [length]. destruct (Z.eqb_spec n (Z.of_nat (6 + length a))) as [_|X]; [|lia]. reflexivity.
Qed.
Print Assumptions C180_event_on_the_wire.

Example C180_example : let s := Props_hci.after true session in
  map remote_addr (objs s) = map (fun x => mac_text_of (snd x)) (conns_of session) /\
  map (fun x => mac_text_of (snd x)) (conns_of session) = [[99;48;58;48;53;58;48;52;58;48;51;58;48;50;58;48;49]; [48;52;58;48;53;58;48;54;58;48;55;58;48;56;58;48;57]].
Proof. split; vm_compute; reflexivity. Qed.

(** * C181: refuted *)
(** Two connections that are open at the same time, with handles 1 and 257, have the same ConnectionHandle. *)
Theorem C181_handles_collide_refuted : exists l s c d, runs true l s /\ nth_error (objs s) 0 = Some c /\ nth_error (objs s) 1 = Some d /\
  k_handle c = 1 /\ k_handle d = 257 /\ k_done c = false /\ k_done d = false /\ M_hci.tab s 1 = Some 0%nat /\ M_hci.tab s 257 = Some 1%nat /\
  connection_handle c = connection_handle d /\ connection_handle d <> k_handle d.
Proof.
  set (l := [APkt (ev_connected 0 1 1 0 peerA 24 0 72 0); AAccept; APkt (ev_connected 0 257 1 0 peerB 24 0 72 0); AAccept]).
  exists l, (Props_hci.after true l). eexists. eexists. split; [apply possible_runs; vm_compute; reflexivity|]. split; [vm_compute; reflexivity|]. split; [vm_compute; reflexivity|].
  repeat (split; [vm_compute; reflexivity|]). vm_compute. discriminate.
Qed.
Print Assumptions C181_handles_collide_refuted.
