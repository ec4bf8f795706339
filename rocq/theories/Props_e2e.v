(** Both ends of this library talking to each other: C107 (discovery), C108 (reads and writes). *)
Require Import Verif.Base Verif.M_uuid Verif.M_attdb Verif.S_attdb Verif.P_attdb Verif.M_attsrv Verif.S_attsrv Verif.P_attsrv Verif.P_attsrv3.
Require Import Verif.M_attcli Verif.S_attcli Verif.M_gattcli Verif.S_gattcli Verif.S_e2e Verif.Props_attsrv Verif.P_attcli2 Verif.P_gattcli Verif.P_gattcli2 Verif.P_gattcli3 Verif.Props_gattcli Verif.P_e2e Verif.P_e2e2.

(** ---- C107 ---- *)
(** DiscoverProfile on a fresh client, connected to a device of this library in any state and with any handlers, returns the published services. *)
Theorem C107_profile : forall ss E s0 g force, server_of ss s0 -> usable (g_cli g) -> g_profile g = None -> forall fuel, table_size ss < Z.of_nat fuel ->
  exists g', discover_profile fuel (srv_peer E s0) force g = Ret (Some (g', COk (map full_svc (lay ss 1)))).
Proof.
  intros ss E s0 g force (NE & PL & SZ & R) U PR fuel F. destruct (C29_profile (srv_peer E s0) (lay ss 1) g force (e2e_serves ss NE PL SZ E s0 R) U PR fuel (lay_fits ss 1 fuel F)) as (g' & H & _).
  exists g'. exact H.
Qed.
Print Assumptions C107_profile.
(** ... that is: the same UUIDs, properties and descriptors in the same order ... *)
Theorem C107_same_outline : forall ss, map outline_found (map full_svc (lay ss 1)) = map outline ss.
Proof. intro ss. apply outline_lay. Qed.
Print Assumptions C107_same_outline.
(** ... and every characteristic with the handles at which the server has its value and its configuration descriptor. *)
Theorem C107_handles : forall ss s0 c fc, server_of ss s0 -> reported ss (map full_svc (lay ss 1)) c fc ->
  gc_uuid fc = c_uuid c /\ gc_prop fc = c_prop c /\
  (exists a, attr_at (snd (new_db ss 1)) (gc_vh fc) = Some a /\ a_typ a = c_uuid c /\ a_v a = c_value c /\ a_rh a = option_map AUser (c_rh c) /\ a_wh a = option_map AUser (c_wh c)) /\
  (notifying c = true -> exists z a ci, gc_cccd fc = Some (mkGD u_cccd z) /\ attr_at (snd (new_db ss 1)) z = Some a /\
     a_rh a = Some (ACccd ci) /\ a_wh a = Some (ACccd ci) /\ ci_vhandle ci = gc_vh fc /\ ci_prop ci = c_prop c /\ ci_nh ci = c_nh c /\ ci_ih ci = c_ih c).
Proof.
  intros ss s0 c fc (NE & PL & SZ & R) RP. destruct (where_is ss PL SZ c fc RP) as (A1 & A2 & _ & A3 & _ & _ & A4 & A5). split; [exact A1|]. split; [exact A2|]. split.
  - eexists. split; [exact A4|]. repeat split.
  - intro N. destruct (A5 N) as (z & B1 & _ & B2). exists z. eexists. eexists. split; [exact B1|]. split; [exact B2|]. split; [reflexivity|]. split; [reflexivity|]. cbn. split; [now rewrite A3|]. repeat split.
Qed.
Print Assumptions C107_handles.
Theorem C107_every_characteristic : forall ss s0 sv c, server_of ss s0 -> In sv ss -> In c (s_chars sv) -> exists fc, reported ss (map full_svc (lay ss 1)) c fc.
Proof. intros ss s0 sv c (NE & PL & SZ & R). now apply all_reported. Qed.
Print Assumptions C107_every_characteristic.

(** ---- C108 ---- *)
(** Reading a characteristic found by discovery calls its read handler, once, with offset 0; the caller gets what the handler wrote, as far as it
    fits the server's MTU, or the error status it set. *)
Theorem C108_read : forall ss E s0 c fc cl id, server_of ss s0 -> reported ss (map full_svc (lay ss 1)) c fc -> c_value c = None -> c_rh c = Some id -> usable cl ->
  let log := clog cl ++ [wire (ORead (gc_vh fc))] in
  exists cl', read (srv_peer E s0) cl (gc_vh fc) = Ret (cl', read_result (txlen (serve E s0 [] (clog cl)) - 1) (E log (CRead (gc_vh fc) 0))) /\
    srv_calls E s0 log = [CRead (gc_vh fc) 0] /\ clog cl' = log.
Proof.
  intros ss E s0 c fc cl id (NE & PL & SZ & R) RP CV RH U log. destruct (where_is ss PL SZ c fc RP) as (_ & _ & A1 & A2 & A3 & _ & A4 & _). destruct (table_good ss NE PL SZ) as [W T].
  pose proof (serve_reach E _ (clog cl) s0 [] R) as R1. pose proof (C19_read _ _ (E log) (gc_vh fc) W T R1 ltac:(lia)) as H. rewrite A4 in H. destruct H as (_ & _ & H). specialize (H id).
  cbn [val_attr a_v a_rh] in H. rewrite RH in H. specialize (H CV eq_refl).
  destruct (srv_answer E s0 (clog cl) (ORead (gc_vh fc)) _ _ _ H) as [P C].
  set (w := E log (CRead (gc_vh fc) 0)) in *. assert (AN : answers_op (ORead (gc_vh fc)) (read_answer 10 11 (gc_vh fc) (txlen (serve E s0 [] (clog cl)) - 1) w) = true).
  { unfold read_answer. destruct (final_status w =? 0); reflexivity. }
  destruct (read_at _ cl (gc_vh fc) _ P AN U) as (c' & _ & L & Q). exists c'. split; [|split; [exact C|exact L]]. rewrite Q. unfold read_answer, read_result. destruct (final_status w =? 0).
  - rewrite check_value by lia. reflexivity.
  - reflexivity.
Qed.
Print Assumptions C108_read.
(** A static value that fits is read as it was set; no handler is called. *)
Theorem C108_read_static : forall ss E s0 c fc cl v, server_of ss s0 -> reported ss (map full_svc (lay ss 1)) c fc -> c_value c = Some v ->
  (length v <= txlen (serve E s0 [] (clog cl)) - 1)%nat -> usable cl ->
  let log := clog cl ++ [wire (ORead (gc_vh fc))] in
  exists cl', read (srv_peer E s0) cl (gc_vh fc) = Ret (cl', COk v) /\ srv_calls E s0 log = [] /\ clog cl' = log.
Proof.
  intros ss E s0 c fc cl v (NE & PL & SZ & R) RP CV LV U log. destruct (where_is ss PL SZ c fc RP) as (_ & _ & A1 & A2 & A3 & _ & A4 & _). destruct (table_good ss NE PL SZ) as [W T].
  pose proof (serve_reach E _ (clog cl) s0 [] R) as R1. pose proof (C19_read _ _ (E log) (gc_vh fc) W T R1 ltac:(lia)) as H. rewrite A4 in H. destruct H as (H & _). specialize (H v CV LV).
  destruct (srv_answer E s0 (clog cl) (ORead (gc_vh fc)) _ _ _ H) as [P C]. destruct (read_at _ cl (gc_vh fc) _ P eq_refl U) as (c' & _ & L & Q).
  exists c'. split; [|split; [exact C|exact L]]. rewrite Q, check_value by lia. reflexivity.
Qed.
Print Assumptions C108_read_static.
(** A write that fits the client's MTU reaches the write handler, once, with exactly the value; it succeeds unless the handler left an error status,
    which the caller then gets. *)
Theorem C108_write : forall ss E s0 c fc cl v id, server_of ss s0 -> reported ss (map full_svc (lay ss 1)) c fc -> c_wh c = Some id -> ready cl -> Z.of_nat (length v) <= cmtu cl - 3 ->
  let log := clog cl ++ [wire (OWrite (gc_vh fc) v)] in
  exists cl', write (srv_peer E s0) cl (gc_vh fc) v = Ret (cl', write_result (E log (CWrite (gc_vh fc) v))) /\ srv_calls E s0 log = [CWrite (gc_vh fc) v] /\ clog cl' = log.
Proof.
  intros ss E s0 c fc cl v id (NE & PL & SZ & R) RP WH [U LN] LV log. destruct (where_is ss PL SZ c fc RP) as (_ & _ & A1 & A2 & A3 & _ & A4 & _). destruct (table_good ss NE PL SZ) as [W T].
  pose proof (serve_reach E _ (clog cl) s0 [] R) as R1. pose proof (C20_write_request _ _ (E log) (gc_vh fc) v W T R1 ltac:(lia)) as H. rewrite A4 in H. cbn [val_attr a_wh] in H. rewrite WH in H. cbn [option_map] in H.
  destruct (srv_answer E s0 (clog cl) (OWrite (gc_vh fc) v) _ _ _ H) as [P C]. set (w := E log (CWrite (gc_vh fc) v)) in *.
  assert (AN : answers_op (OWrite (gc_vh fc) v) (write_answer 18 19 (gc_vh fc) w) = true) by (unfold write_answer; destruct (final_status w =? 0); reflexivity).
  destruct (write_at _ cl (gc_vh fc) v _ P AN ltac:(lia) LV) as (c' & _ & L & Q). exists c'. split; [|split; [exact C|exact L]]. rewrite Q. unfold write_answer, write_result. destruct (final_status w =? 0); reflexivity.
Qed.
Print Assumptions C108_write.
(** The same without response, except that an empty value is not delivered (and nothing is reported back). *)
Theorem C108_write_command : forall ss E s0 c fc cl v id, server_of ss s0 -> reported ss (map full_svc (lay ss 1)) c fc -> c_wh c = Some id -> ready cl -> Z.of_nat (length v) <= cmtu cl - 3 -> v <> [] ->
  let log := clog cl ++ [wire (OWriteCmd (gc_vh fc) v)] in
  exists cl', write_command (srv_peer E s0) cl (gc_vh fc) v = Ret (cl', COk tt) /\ srv_calls E s0 log = [CWrite (gc_vh fc) v] /\ clog cl' = log.
Proof.
  intros ss E s0 c fc cl v id (NE & PL & SZ & R) RP WH [U LN] LV NV log. destruct (where_is ss PL SZ c fc RP) as (_ & _ & A1 & A2 & A3 & _ & A4 & _). destruct (table_good ss NE PL SZ) as [W T].
  pose proof (serve_reach E _ (clog cl) s0 [] R) as R1. pose proof (C20_write_command _ _ (E log) (gc_vh fc) v W T R1 ltac:(lia) NV) as H. rewrite A4 in H. cbn [val_attr a_wh] in H. rewrite WH in H. cbn [option_map] in H.
  assert (P : srv_peer E s0 log = Some [] /\ srv_calls E s0 log = [CWrite (gc_vh fc) v]).
  { unfold srv_peer, srv_calls, log in *. rewrite rev_unit, rev_involutive. change (wire (OWriteCmd (gc_vh fc) v)) with (req_handle 82 (gc_vh fc) v) in *. rewrite H. split; reflexivity. }
  destruct P as [P C]. destruct (command_at _ cl (gc_vh fc) v _ P ltac:(lia) LV) as (c' & _ & L & Q). exists c'. split; [exact Q|]. split; [exact C|exact L].
Qed.
Print Assumptions C108_write_command.
(** Operations that were not configured are refused with the right error. *)
Theorem C108_not_permitted : forall ss E s0 c fc cl v, server_of ss s0 -> reported ss (map full_svc (lay ss 1)) c fc -> ready cl -> Z.of_nat (length v) <= cmtu cl - 3 ->
  (c_value c = None -> c_rh c = None -> exists cl', read (srv_peer E s0) cl (gc_vh fc) = Ret (cl', CAtt 2)) /\
  (c_wh c = None -> exists cl', write (srv_peer E s0) cl (gc_vh fc) v = Ret (cl', CAtt 3)).
Proof.
  intros ss E s0 c fc cl v (NE & PL & SZ & R) RP [U LN] LV. destruct (where_is ss PL SZ c fc RP) as (_ & _ & A1 & A2 & A3 & _ & A4 & _). destruct (table_good ss NE PL SZ) as [W T].
  pose proof (serve_reach E _ (clog cl) s0 [] R) as R1. split.
  - intros CV RH. pose proof (C19_read _ _ (E (clog cl ++ [wire (ORead (gc_vh fc))])) (gc_vh fc) W T R1 ltac:(lia)) as H. rewrite A4 in H. destruct H as (_ & H & _). cbn [val_attr a_v a_rh] in H. rewrite RH in H. specialize (H CV eq_refl).
    destruct (srv_answer E s0 (clog cl) (ORead (gc_vh fc)) _ _ _ H) as [P _]. destruct (read_at _ cl (gc_vh fc) _ P eq_refl U) as (c' & _ & L & Q). exists c'. rewrite Q. reflexivity.
  - intros WH. pose proof (C20_write_request _ _ (E (clog cl ++ [wire (OWrite (gc_vh fc) v)])) (gc_vh fc) v W T R1 ltac:(lia)) as H. rewrite A4 in H. cbn [val_attr a_wh] in H. rewrite WH in H. cbn [option_map] in H.
    destruct (srv_answer E s0 (clog cl) (OWrite (gc_vh fc) v) _ _ _ H) as [P _]. destruct (write_at _ cl (gc_vh fc) v _ P eq_refl ltac:(lia) LV) as (c' & _ & L & Q). exists c'. rewrite Q. reflexivity.
Qed.
Print Assumptions C108_not_permitted.

(** A device with the default services and one of its own: a readable and writable characteristic with a long UUID, and one that notifies. *)
Definition own_c1 : char := mkChar u128 14 [] None (Some 1%nat) (Some 2%nat) None None 0 0.
Definition own_c2 : char := mkChar (uuid16 0x2A37) 16 [mkDesc (uuid16 0x2901) 2 (Some [7]) None None] None None None (Some 3%nat) None 0 0.
Definition own_ss : list service := [mkSvc (uuid16 0x1800) [mkChar (uuid16 0x2A00) 2 [] (Some [71; 111]) None None None None 0 0]; mkSvc (uuid16 0x180D) [own_c1; own_c2]].
Definition own_s : srv := mkSrv (snd (new_db own_ss 1)) 23 23 23 515 23 515 None [] [] [] [] [].
Definition own_E : list bytes -> env := fun _ c => match c with CRead _ _ => [WData [1; 2]; WData [3]] | CWrite _ [9] => [WStatus 13] | _ => [] end.
Example C107_hypotheses : server_of own_ss own_s.
Proof.
  split; [discriminate|]. split.
  - unfold own_ss. apply Forall_cons; [|apply Forall_cons; [|apply Forall_nil]]; (split; [now left|]); cbn [s_chars].
    + apply Forall_cons; [|apply Forall_nil]. split; [split; [now left|discriminate]|]. split; [reflexivity|apply Forall_nil].
    + apply Forall_cons; [|apply Forall_cons; [|apply Forall_nil]].
      * split; [split; [now right|discriminate]|]. split; [reflexivity|apply Forall_nil].
      * split; [split; [now left|discriminate]|]. split; [reflexivity|]. apply Forall_cons; [|apply Forall_nil]. split; [now left|discriminate].
  - split; [vm_compute; discriminate|]. apply (reach_init _ 515 23). reflexivity.
Qed.
Example C107_example : exists g g' g'' x, discover_profile 99 (srv_peer own_E own_s) false (new_gcl 23) = Ret (Some (g, COk (map full_svc (lay own_ss 1)))) /\
  read (srv_peer own_E own_s) (g_cli g) 6 = Ret (g', COk [1; 2; 3]) /\ write (srv_peer own_E own_s) (g_cli g) 6 [9] = Ret (g'', CAtt 13) /\
  reported own_ss (map full_svc (lay own_ss 1)) own_c1 x /\ gc_vh x = 6.
Proof.
  do 4 eexists. split; [vm_compute; reflexivity|]. split; [vm_compute; reflexivity|]. split; [vm_compute; reflexivity|]. split.
  - exists 1%nat, 0%nat. eexists. eexists. split; [reflexivity|]. split; [reflexivity|]. split; reflexivity.
  - reflexivity.
Qed.
