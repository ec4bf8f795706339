(** GATT client: C29 (discovery), C30 (long reads), C31 (subscriptions). *)
Require Import Verif.Base Verif.M_uuid Verif.S_uuid Verif.M_attdb Verif.S_attsrv Verif.M_attsrv Verif.M_attcli Verif.S_attcli Verif.M_gattcli Verif.S_gattcli
  Verif.P_uuid Verif.P_attcli Verif.P_attcli2 Verif.P_gattcli Verif.P_gattcli2 Verif.P_gattcli3.

(** ---- C29 ---- *)
(** DiscoverServices without a filter on a fresh client returns exactly the peer's services, in order, for every way the peer batches its
    answers and every unrelated PDU in between. *)
Theorem C29_services : forall p l g, svcs_from 1 l -> Forall (fun s => uuid_size (ds_uuid s)) l -> serves_services p l -> usable (g_cli g) -> g_profile g = None ->
  forall fuel, (length l < fuel)%nat -> exists g', discover_services fuel p None g = Ret (Some (g', COk (map found_svc l))) /\ g_profile g' = Some (map found_svc l).
Proof.
  intros p l g SF US SV U PR fuel F. destruct (svc_loop_ok p None l SF US SV fuel [] l (g_cli g) 1 [] eq_refl F U (or_introl (conj eq_refl eq_refl)) ltac:(lia)) as (c' & _ & R).
  unfold discover_services. rewrite PR, R. cbn [gbind]. rewrite (walk_all l 1 [] SF). cbn [app]. eexists. split; reflexivity.
Qed.
Print Assumptions C29_services.
(** [listed f u]: u is in the filter *)
Definition listed (f : list bytes) (u : bytes) : bool := existsb (beq_bytes u) f.
Lemma listed_iff : forall f u, listed f u = true <-> In u f.
Proof.
  intros f u. unfold listed. rewrite existsb_exists. split; [intros (x & I & E); apply beq_bytes_eq in E; now subst|intro I; exists u; split; [exact I|apply beq_bytes_refl]].
Qed.
Lemma contains_listed : forall f u, contains (Some f) u = listed f u.
Proof.
  intros f u. assert (H := contains_iff (Some f) u). assert (L := listed_iff f u). destruct (contains (Some f) u), (listed f u); try reflexivity; exfalso.
  - destruct (proj1 H eq_refl) as (l & E & I). injection E as <-. apply L in I. discriminate.
  - assert (X : true = true) by reflexivity. apply L in X. assert (Y : false = true) by (apply H; exists f; auto). discriminate.
Qed.
(** With a filter: the first matching services, at most as many as the filter has entries. *)
Theorem C29_services_filtered : forall p l g f, svcs_from 1 l -> Forall (fun s => uuid_size (ds_uuid s)) l -> serves_services p l -> usable (g_cli g) -> g_profile g = None ->
  forall fuel, (length l < fuel)%nat -> exists g', discover_services fuel p (Some f) g = Ret (Some (g', COk (firstn (length f) (map found_svc (filter (fun s => listed f (ds_uuid s)) l))))).
Proof.
  intros p l g f SF US SV U PR fuel F. destruct (svc_loop_ok p (Some f) l SF US SV fuel [] l (g_cli g) 1 [] eq_refl F U (or_introl (conj eq_refl eq_refl)) ltac:(lia)) as (c' & _ & R).
  unfold discover_services. rewrite PR, R. cbn [gbind]. rewrite (walk_filter f l 1 [] SF (or_intror eq_refl)). cbn [length app]. rewrite Nat.max_0_r.
  rewrite (filter_ext _ _ (fun s => contains_listed f (ds_uuid s))). eexists. reflexivity.
Qed.
Print Assumptions C29_services_filtered.
(** hence all matching services when the peer has no two services of the same UUID *)
Theorem C29_services_filtered_distinct : forall p l g f, svcs_from 1 l -> Forall (fun s => uuid_size (ds_uuid s)) l -> serves_services p l -> usable (g_cli g) -> g_profile g = None ->
  NoDup (map ds_uuid l) -> forall fuel, (length l < fuel)%nat ->
  exists g', discover_services fuel p (Some f) g = Ret (Some (g', COk (map found_svc (filter (fun s => listed f (ds_uuid s)) l)))).
Proof.
  intros p l g f SF US SV U PR ND fuel F. destruct (C29_services_filtered p l g f SF US SV U PR fuel F) as (g' & R). exists g'. rewrite R. do 4 f_equal. apply firstn_all2. rewrite map_length.
  rewrite <- (map_length ds_uuid). apply NoDup_incl_length.
  - clear - ND. induction l as [|s l IH]; cbn [map filter] in *; [constructor|]. apply NoDup_cons_iff in ND. destruct ND as [N1 N2]. destruct (listed f (ds_uuid s)); [|now apply IH]. cbn [map]. apply NoDup_cons; [|now apply IH].
    intro I. apply N1. apply in_map_iff in I. destruct I as (x & E & I). apply filter_In in I. apply in_map_iff. exists x. tauto.
  - intros u I. apply in_map_iff in I. destruct I as (x & E & I). apply filter_In in I. destruct I as [_ I]. apply listed_iff in I. congruence.
Qed.
Print Assumptions C29_services_filtered_distinct.
(** DiscoverCharacteristics: every characteristic of the service (that the filter admits) once, with properties, handles and the end of its range. *)
Theorem C29_characteristics : forall p flt c u h e l, 1 <= h -> e <= 65535 -> chars_from h e l -> Forall (fun x => uuid_size (dc_uuid x)) l -> Forall (fun x => dc_vh x < 65535) l ->
  serves_chars p h e l -> usable c -> forall fuel, (length l < fuel)%nat ->
  let found := filter (fun x => match flt with None => true | Some f => listed f (gc_uuid x) end) (found_chars e l) in
  exists c', discover_chars fuel p flt c (mkGV u h e []) = Ret (Some (c', mkGV u h e found, COk found)).
Proof.
  intros p flt c u h e l H E CF US VH SV U fuel F found.
  destruct (chr_loop_ok p flt h e [] l H E CF US VH SV fuel [] l c h eq_refl F U (or_introl (conj eq_refl eq_refl))) as (c1 & _ & R).
  replace (last_idx flt [] e []) with (@None nat) in R by reflexivity. cbn [kept_chars found_chars filter app] in R.
  assert (K : kept_chars flt e l = found). { unfold kept_chars, found. apply filter_ext. intro x. destruct flt; [apply contains_listed|reflexivity]. }
  rewrite K in R. unfold discover_chars. cbn [gv_endh gv_h gv_chars gv_uuid]. rewrite R. cbn [gbind]. eexists. reflexivity.
Qed.
Print Assumptions C29_characteristics.
(** DiscoverDescriptors: every descriptor of the characteristic (that the filter admits) once; the configuration descriptor is found whatever
    the filter. *)
Theorem C29_descriptors : forall p flt c u pr h vh e l, 0 <= vh -> vh < 65535 -> e <= 65535 -> descs_from (vh + 1) e l -> Forall desc_wf l -> Forall (fun d => dd_h d < 65535) l ->
  serves_descs p (vh + 1) e l -> usable c -> forall fuel, (length l < fuel)%nat ->
  let found := map found_desc (filter (fun x => match flt with None => true | Some f => listed f (dd_uuid x) end) l) in
  exists c', discover_descs fuel p flt c (mkGC u pr h vh e [] None) = Ret (Some (c', mkGC u pr h vh e found (last_cccd l None), COk found)).
Proof.
  intros p flt c u pr h vh e l V0 V E CF US VH SV U fuel F found.
  destruct (dsc_loop_ok p flt (vh + 1) e [] None l ltac:(lia) E CF US VH SV fuel [] l c (vh + 1) eq_refl F U (or_introl (conj eq_refl eq_refl))) as (c1 & _ & R).
  cbn [kept_descs last_cccd filter map app] in R.
  assert (K : kept_descs flt l = found). { unfold kept_descs, found. f_equal. apply filter_ext. intro x. destruct flt; [apply contains_listed|reflexivity]. }
  rewrite K in R. unfold discover_descs. cbn [gc_endh gc_vh gc_descs gc_cccd gc_uuid gc_prop gc_h]. replace (u16 (vh + 1)) with (vh + 1) by (unfold u16; rewrite Z.mod_small; lia). rewrite R. cbn [gbind]. eexists. reflexivity.
Qed.
Print Assumptions C29_descriptors.
(** DiscoverProfile on a fresh client returns the peer's whole database. *)
Theorem C29_profile : forall p l g force, serves p l -> usable (g_cli g) -> g_profile g = None -> forall fuel, fits fuel l ->
  exists g', discover_profile fuel p force g = Ret (Some (g', COk (map full_svc l))) /\ g_profile g' = Some (map full_svc l).
Proof.
  intros p l g force (SF & SS & SV) U PR fuel [F1 F2]. unfold discover_profile. rewrite PR.
  assert (US : Forall (fun s => uuid_size (ds_uuid s)) l) by (eapply Forall_impl; [|exact SV]; intros s S; exact (proj1 S)).
  destruct (svc_loop_ok p None l SF US SS fuel [] l (g_cli g) 1 [] eq_refl F1 U (or_introl (conj eq_refl eq_refl)) ltac:(lia)) as (c1 & SC1 & R).
  unfold discover_services. rewrite PR, R. cbn [gbind]. rewrite (walk_all l 1 [] SF). cbn [app gbind with_profile with_cli g_cli].
  destruct (profile_svcs_ok p l fuel c1 1 ltac:(lia) SF SV F2 (usable_same _ _ SC1 U)) as (c2 & SC2 & R2). rewrite R2. cbn [gbind]. eexists. split; reflexivity.
Qed.
Print Assumptions C29_profile.
(** and the cached profile afterwards, without any traffic, unless told to start over *)
Theorem C29_cached : forall fuel p g l, g_profile g = Some l -> discover_profile fuel p false g = Ret (Some (g, COk l)).
Proof. intros fuel p g l E. unfold discover_profile. now rewrite E. Qed.
Print Assumptions C29_cached.

(** A concrete peer: two services, the second with a 128-bit UUID, two characteristics and a configuration descriptor; answers one entry at a time. *)
Definition u128 : bytes := [1;2;3;4;5;6;7;8;9;10;11;12;13;14;15;16].
Definition ex_db : list dsvc :=
  [ mkDS 1 3 (uuid16 0x1800) [mkDC 2 2 3 (uuid16 0x2A00) []];
    mkDS 10 65535 u128 [mkDC 11 16 12 u128 [mkDD 13 (uuid16 0x2902)]; mkDC 14 2 15 (uuid16 0x2A01) []] ].
Definition ex_entry {A} (op : Z) (st : Z) (h : A -> Z) (fmt : A -> Z) (enc : A -> bytes) (l : list A) : bytes :=
  match filter (fun x => st <=? h x) l with [] => [1; op; 0; 0; 10] | x :: _ => [op + 1; fmt x] ++ enc x end.
Definition ex_answer (req : bytes) : bytes :=
  match req with
  | [16; a; b; _; _; _; _] => ex_entry 16 (de16 a b) ds_h (fun s => Z.of_nat (4 + length (ds_uuid s))) svc_entry ex_db
  | [8; a; b; e1; e2; _; _] => ex_entry 8 (de16 a b) dc_h (fun s => Z.of_nat (5 + length (dc_uuid s))) chr_entry (filter (fun x => dc_h x <=? de16 e1 e2) (flat_map ds_chars ex_db))
  | [4; a; b; e1; e2] => ex_entry 4 (de16 a b) dd_h (fun d => if Nat.eqb (length (dd_uuid d)) 16 then 2 else 1) dsc_entry (filter (fun x => dd_h x <=? de16 e1 e2) (flat_map dc_descs (flat_map ds_chars ex_db)))
  | _ => [1; 0; 0; 0; 6]
  end.
(** every answer comes after a stray notification *)
Definition ex_peer : peer := fun log => Some [[27; 9; 0]; ex_answer (last log [])].
Lemma ex_says : forall log o, answers_op o [27; 9; 0] = false -> answers_op o (ex_answer (wire o)) = true -> says ex_peer log o (ex_answer (wire o)).
Proof.
  intros log o N A. unfold says, ex_peer. eexists. split; [reflexivity|]. rewrite last_last. cbn [before find]. rewrite N, A. split; [|reflexivity]. intros [Q|[]]. discriminate.
Qed.
Ltac batch_nil := left; split; [reflexivity|do 2 eexists; reflexivity].
Ltac batch_one := right; match goal with |- exists now later n, ?l = _ /\ _ => let l' := eval vm_compute in l in change l with l'; match l' with ?x :: ?r => exists [x], r end end;
  eexists; split; [reflexivity|split; [discriminate|split; [apply Forall_cons; [reflexivity|apply Forall_nil]|reflexivity]]].
Ltac ex_step := eexists; split; [apply ex_says; vm_compute; reflexivity|unfold group_answer, type_answer, info_answer, batch; first [batch_nil|batch_one]].
Example C29_example_serves : serves ex_peer ex_db.
Proof.
  split; [cbn; lia|]. split.
  - intros log st [->|[<-|[<-|[]]]] L; cbn in L; try lia; ex_step.
  - apply Forall_cons; [|apply Forall_cons; [|apply Forall_nil]].
    + split; [now left|]. split; [cbn; lia|]. split; [apply Forall_cons; [split; [now left|unfold is_byte; cbn; lia]|apply Forall_nil]|]. split; [apply Forall_cons; [cbn; lia|apply Forall_nil]|]. split.
      * intros log st [->|[<-|[]]] L; cbn in L; try lia; ex_step.
      * cbn [serves_all_descs ds_chars]. split; [exact I|]. split; [apply Forall_nil|]. split; [apply Forall_nil|]. split; [cbn; lia|]. split; [|exact I].
        intros log st [->|[]] L; cbn in L; lia.
    + split; [now right|]. split; [cbn; lia|]. split; [apply Forall_cons; [split; [now right|unfold is_byte; cbn; lia]|apply Forall_cons; [split; [now left|unfold is_byte; cbn; lia]|apply Forall_nil]]|].
      split; [apply Forall_cons; [cbn; lia|apply Forall_cons; [cbn; lia|apply Forall_nil]]|]. split.
      * intros log st [->|[<-|[<-|[]]]] L; cbn in L; try lia; ex_step.
      * cbn [serves_all_descs ds_chars]. split; [cbn; lia|]. split; [apply Forall_cons; [now left|apply Forall_nil]|]. split; [apply Forall_cons; [cbn; lia|apply Forall_nil]|]. split; [cbn; lia|]. split.
        { intros log st [->|[<-|[]]] L; cbn in L; try lia; ex_step. }
        split; [exact I|]. split; [apply Forall_nil|]. split; [apply Forall_nil|]. split; [cbn; lia|]. split; [|exact I].
        intros log st [->|[]] L; ex_step.
Qed.
Example C29_example : exists g', discover_profile 9 ex_peer false (new_gcl 23) = Ret (Some (g', COk (map full_svc ex_db))).
Proof.
  destruct (C29_profile ex_peer ex_db (new_gcl 23) false C29_example_serves) with (fuel := 9%nat) as (g' & E & _); [|reflexivity| |exists g'; exact E].
  - unfold usable. vm_compute. lia.
  - split; [cbn; lia|]. intros s [<-|[<-|[]]]; (split; [cbn; lia|]); intros c H; cbn in H; repeat (destruct H as [<-|H]; [cbn; lia|]); destruct H.
Qed.

(** Where the full statement fails. *)
(** Rediscovery (force) appends to the old profile: every service twice, and its characteristics twice. *)
Theorem C86_rediscovery_refuted : exists g1 g2 r, discover_profile 9 ex_peer false (new_gcl 23) = Ret (Some (g1, COk (map full_svc ex_db))) /\
  discover_profile 9 ex_peer true g1 = Ret (Some (g2, COk r)) /\ map gv_h r = [1; 10; 1; 10] /\ map (fun s => map gc_h (gv_chars s)) r = [[2; 2]; [11; 14; 11; 14]; [2]; [11; 14]].
Proof. do 3 eexists. split; [vm_compute; reflexivity|]. split; [vm_compute; reflexivity|]. split; vm_compute; reflexivity. Qed.
(** A discovery that failed leaves an empty profile, which the next call returns as a success. *)
Theorem C86_after_failure_refuted : exists g1, discover_profile 9 (fun _ => Some []) false (new_gcl 23) = Ret (Some (g1, CFail)) /\
  forall fuel p, discover_profile fuel p false g1 = Ret (Some (g1, COk [])).
Proof. eexists. split; [vm_compute; reflexivity|]. intros fuel p. reflexivity. Qed.
(** A filter of two UUIDs, a peer with the first one twice: the second one is not found. *)
Definition dup_peer : peer := fun _ => Some [[17; 6; 1; 0; 2; 0; 0; 24; 3; 0; 4; 0; 0; 24; 5; 0; 255; 255; 1; 24]].
Theorem C87_filter_refuted : exists g, discover_services 9 dup_peer (Some [uuid16 0x1800; uuid16 0x1801]) (new_gcl 23) =
  Ret (Some (g, COk [mkGV (uuid16 0x1800) 1 2 []; mkGV (uuid16 0x1800) 3 4 []])).
Proof. eexists. vm_compute. reflexivity. Qed.
(** A characteristic value (a descriptor) at handle 0xFFFF: the next request starts at 0, which a conforming peer (the client itself) refuses. *)
Definition top_peer : peer := fun log => match last log [] with 8 :: 0 :: 0 :: _ => Some [[1; 8; 0; 0; 1]] | _ => Some [[9; 7; 254; 255; 2; 255; 255; 0; 42]] end.
Theorem C87_last_handle_refuted :
  (exists c s, discover_chars 9 top_peer None (new_client 23) (mkGV (uuid16 0x1800) 65533 65535 []) = Ret (Some (c, s, CAtt 1))) /\
  (forall p, discover_descs 9 p None (new_client 23) (mkGC (uuid16 0x2A00) 2 65534 65535 65535 [] None) = Ret (Some (new_client 23, mkGC (uuid16 0x2A00) 2 65534 65535 65535 [] None, CArg))).
Proof. split; [do 2 eexists; vm_compute; reflexivity|]. intro p. reflexivity. Qed.
(** A peer that reports a service ending before it starts is asked forever. *)
Theorem C88_no_termination_refuted : forall fuel, discover_services fuel (fun _ => Some [[17; 6; 1; 0; 0; 0; 0; 24]]) None (new_gcl 23) = Ret None.
Proof.
  set (p := fun _ : list bytes => Some [[17; 6; 1; 0; 0; 0; 0; 24]]).
  assert (L : forall fuel c acc, usable c -> svc_loop fuel p None c 1 acc = Ret None).
  { induction fuel as [|fuel IH]; intros c acc U; [reflexivity|]. cbn [svc_loop].
    destruct (ask_group p c 1 65535 (uuid16 0x2800) [17; 6; 1; 0; 0; 0; 0; 24]) as (c' & SC & R); [|lia|now left|unfold usable in U; cbn; lia|].
    - eexists. split; [reflexivity|]. split; [|reflexivity]. intros [].
    - change u_primary with (uuid16 0x2800). rewrite R. clear R.
      set (k := check _ _). vm_compute in k. subst k. cbn [gbind].
      assert (E : svc_entries (length [1; 0; 0; 0; 0; 24]) None (Z.to_nat 6) [1; 0; 0; 0; 0; 24] 1 acc = Ret (acc ++ [mkGV [0; 24] 1 0 []], 1, false)).
      { destruct acc; reflexivity. }
      rewrite E. cbn [gbind]. apply IH. eapply usable_same; eassumption. }
  intro fuel. unfold discover_services. rewrite L; [reflexivity|]. unfold usable. vm_compute. lia.
Qed.
(** A response whose entries are shorter than a handle range crashes the process. *)
Theorem C88_short_entry_refuted : discover_services 9 (fun _ => Some [[17; 2; 1; 0]]) None (new_gcl 23) = Panic /\
  discover_chars 9 (fun _ => Some [[9; 2; 1; 0]]) None (new_client 23) (mkGV (uuid16 0x1800) 1 9 []) = Panic.
Proof. split; vm_compute; reflexivity. Qed.
Print Assumptions C86_rediscovery_refuted.
Print Assumptions C86_after_failure_refuted.
Print Assumptions C87_filter_refuted.
Print Assumptions C87_last_handle_refuted.
Print Assumptions C88_no_termination_refuted.
Print Assumptions C88_short_entry_refuted.

(** ---- C30 ---- *)
(** The whole value, whatever its length (including multiples of MTU-1), when the client's idea of the MTU is that of the connection. *)
Theorem C30_long_read : forall p c h v mtu, usable c -> cmtu c = mtu -> 2 <= mtu -> Z.of_nat (length v) < 65536 -> serves_value p h v mtu ->
  forall fuel, (length v < fuel)%nat -> exists c', read_long fuel p c h = Ret (Some (c', COk v)).
Proof.
  intros p c h v mtu U CM M LV SV fuel F. unfold read_long.
  destruct (ask_read p c h _ (proj1 SV (clog c)) ltac:(unfold usable in U; lia)) as (c1 & SC & R). rewrite R, check_value by lia. cbn [gbind].
  destruct (long_loop_ok p h v mtu M LV SV fuel c1 0 (usable_same _ _ SC U)) with (buf := firstn (Z.to_nat (mtu - 1)) v) (rd := firstn (Z.to_nat (mtu - 1)) v) as (c2 & _ & E).
  - destruct SC as (_ & X & _). lia.
  - lia.
  - lia.
  - cbn [Nat.add]. now rewrite firstn_len.
  - reflexivity.
  - exists c2. exact E.
Qed.
Print Assumptions C30_long_read.
(** a peer holding v at handle 3 *)
Definition val_peer (v : bytes) (mtu : Z) : peer := fun log =>
  match last log [] with
  | [10; 3; 0] => Some [11 :: firstn (Z.to_nat (mtu - 1)) v]
  | [12; 3; 0; a; b] => Some [13 :: firstn (Z.to_nat (mtu - 1)) (skipn (Z.to_nat (de16 a b)) v)]
  | _ => Some [[1; 0; 0; 0; 6]]
  end.
Lemma val_serves : forall v mtu, Z.of_nat (length v) < 65536 -> serves_value (val_peer v mtu) 3 v mtu.
Proof.
  intros v mtu L. split.
  - intro log. eexists. split; [unfold val_peer; rewrite last_last; reflexivity|]. split; [intros []|reflexivity].
  - intros log off O. eexists. split; [unfold val_peer; rewrite last_last; cbn [wire op_code le16 app]; reflexivity|]. unfold says. cbn [before find answers_op op_code].
    replace (_ || _) with true by reflexivity. rewrite de16_le16 by lia. split; [intros []|reflexivity].
Qed.
Example C30_example : forall v, Z.of_nat (length v) < 65536 -> exists c', read_long (S (length v)) (val_peer v 23) (new_client 23) 3 = Ret (Some (c', COk v)).
Proof. intros v L. apply (C30_long_read _ _ _ _ 23); [unfold usable; vm_compute; lia|reflexivity|lia|exact L|now apply val_serves|lia]. Qed.
(** The client sets its MTU to the server's receive MTU even when it announced less itself: the server (sending at most the smaller one)
    seems to be done after the first part, and the value is cut off without an error. *)
Theorem C89_smaller_announced_refuted : exists c1, exchange_mtu (fun _ => Some [[3; 100; 0]]) (new_client 23) 50 = Ret (c1, COk 100) /\
  forall v, Z.of_nat (length v) < 65536 -> (49 < length v)%nat -> exists c2, read_long 9 (val_peer v 50) c1 3 = Ret (Some (c2, COk (firstn 49 v))) /\ firstn 49 v <> v.
Proof.
  eexists. split; [vm_compute; reflexivity|]. intros v L V. set (c1 := mkCli _ _ _ _).
  assert (U : usable c1) by (unfold usable; vm_compute; lia).
  destruct (ask_read (val_peer v 50) c1 3 _ (proj1 (val_serves v 50 L) (clog c1)) ltac:(unfold usable in U; lia)) as (c2 & SC & R).
  exists c2. unfold read_long. rewrite R, check_value by lia. cbn [gbind]. cbn [long_loop]. change (Z.to_nat (50 - 1)) with 49%nat. rewrite firstn_length_le by lia.
  destruct SC as (_ & -> & _). split; [reflexivity|]. intro E. assert (X := f_equal (@length Z) E). rewrite firstn_length_le in X by lia. lia.
Qed.
Print Assumptions C89_smaller_announced_refuted.

(** ---- C31 ---- *)
(** Any history of subscribe, unsubscribe, clear and incoming PDUs in which no call failed: what the peer was last told to send for a
    characteristic is what handlers are registered for. *)
Theorem C31_in_sync : forall chs g, distinct chs -> shist chs g -> forall ch d, In ch chs -> gc_cccd ch = Some d ->
  peer_config (clog (g_cli g)) (gd_h d) = bits (registered g (gc_vh ch) false) (registered g (gc_vh ch) true).
Proof.
  intros chs g DI H ch d I C. destruct (inv_shist chs g DI H) as (_ & _ & S). rewrite (S ch d I C), !registered_aget. destruct (aget (g_subs g) (gc_vh ch)); reflexivity.
Qed.
Print Assumptions C31_in_sync.
(** A successful first subscription registers the handler; unsubscribing removes it; both leave every other registration alone. *)
Theorem C31_subscribe : forall g p ch ind h g', ahist g -> subscribe p g ch ind h = Ret (g', COk tt) -> (h = None \/ registered g (gc_vh ch) ind = None) ->
  registered g' (gc_vh ch) ind = h /\ forall vh k, (vh, k) <> (gc_vh ch, ind) -> registered g' vh k = registered g vh k.
Proof.
  intros g p ch ind h g' AH H HN. assert (I := inv_ahist g AH). unfold subscribe in H. destruct (gc_cccd ch) as [d|] eqn:CD; [|discriminate].
  assert (B := entry_bits g (gc_vh ch) (gd_h d) I). set (s0 := entry g (gc_vh ch) (gd_h d)) in *.
  assert (R0 : forall k, registered g (gc_vh ch) k = of_kind s0 k) by (intro k; rewrite registered_aget; unfold s0, entry; destruct (aget (g_subs g) (gc_vh ch)); [reflexivity|destruct k; reflexivity]).
  rewrite R0 in HN. destruct (kind_dec h s0 ind) as [K|K].
  - rewrite set_handlers_same in H by assumption. injection H as <-. split.
    + rewrite registered_aget. cbn [with_subs g_subs]. rewrite aget_aset, Z.eqb_refl. fold s0. change (of_kind s0 ind = h). destruct HN as [-> |N]; [now apply K|rewrite N; symmetry; now apply K].
    + intros vh k NE. rewrite !registered_aget. cbn [with_subs g_subs]. rewrite aget_aset. destruct (vh =? gc_vh ch) eqn:Q; [|reflexivity]. apply Z.eqb_eq in Q. subst vh. fold s0. rewrite <- registered_aget. symmetry. apply R0.
  - rewrite set_handlers_write in H by assumption. cbv zeta in H. fold s0 in H. destruct (write _ _ _ _) as [[c' r]|]; [|discriminate]. cbn [gbind] in H.
    assert (r = COk tt) by (injection H as _ H; exact H). subst r. injection H as <-. split.
    + rewrite registered_aget. cbn [with_subs with_cli g_subs]. rewrite aget_aset, Z.eqb_refl. unfold with_kind. destruct ind; reflexivity.
    + intros vh k NE. rewrite !registered_aget. cbn [with_subs with_cli g_subs]. rewrite !aget_aset. destruct (vh =? gc_vh ch) eqn:Q; [|reflexivity]. apply Z.eqb_eq in Q. subst vh. rewrite <- registered_aget, R0.
      unfold with_kind, of_kind. destruct ind, k; cbn; try reflexivity; exfalso; now apply NE.
Qed.
Print Assumptions C31_subscribe.
(** A successful ClearSubscriptions that visits every registration leaves none. *)
Theorem C31_clear : forall chs g p ord g', distinct chs -> shist chs g -> (forall vh ind, registered g vh ind <> None -> In vh ord) -> clear_subs p g ord = Ret (g', COk tt) ->
  (forall vh ind, registered g' vh ind = None) /\ (forall ch d, In ch chs -> gc_cccd ch = Some d -> peer_config (clog (g_cli g')) (gd_h d) = 0).
Proof.
  intros chs g p ord g' DI SH VA H. destruct (inv_s_clear chs p ord g g' (COk tt) DI (inv_shist chs g DI SH) H eq_refl) as [(I & O & C) N].
  assert (M : forall ord g g' vh, clear_subs p g ord = Ret (g', COk tt) -> aget (g_subs g) vh = None -> aget (g_subs g') vh = None).
  { clear. induction ord as [|k ord IH]; intros g g' vh H E; cbn [clear_subs] in H; [injection H as <-; exact E|]. destruct (aget (g_subs g) k) as [s|]; [|eapply IH; eassumption].
    destruct (write _ _ _ _) as [[c' x]|]; [|discriminate]. cbn [gbind] in H. destruct x; try discriminate. eapply IH; [exact H|]. cbn [with_subs g_subs]. rewrite aget_adel, E. now destruct (vh =? k). }
  assert (KEEP : forall ord g g' vh s, clear_subs p g ord = Ret (g', COk tt) -> aget (g_subs g') vh = Some s -> aget (g_subs g) vh = Some s).
  { clear. induction ord as [|k ord IH]; intros g g' vh s H E; cbn [clear_subs] in H; [injection H as <-; exact E|]. destruct (aget (g_subs g) k) as [t|]; [|eapply IH; eassumption].
    destruct (write _ _ _ _) as [[c' x]|]; [|discriminate]. cbn [gbind] in H. destruct x; try discriminate. apply (IH _ _ vh s) in H; [|exact E]. cbn [with_subs g_subs] in H. rewrite aget_adel in H. destruct (vh =? k); [discriminate|exact H]. }
  assert (Z : forall vh ind, registered g' vh ind = None).
  { intros vh ind. destruct (registered g' vh ind) as [h|] eqn:E; [|reflexivity]. exfalso. rewrite registered_aget in E. destruct (aget (g_subs g') vh) as [s|] eqn:A; [|discriminate].
    assert (IN : In vh ord). { apply (VA vh ind). rewrite registered_aget, (KEEP _ _ _ _ _ H A), E. discriminate. } rewrite (N vh IN) in A. discriminate. }
  split; [exact Z|]. intros ch d IN CD. rewrite (C ch d IN CD). assert (Z1 := Z (gc_vh ch) false). assert (Z2 := Z (gc_vh ch) true). rewrite registered_aget in Z1, Z2.
  destruct (aget (g_subs g') (gc_vh ch)); [|reflexivity]. now rewrite Z1, Z2.
Qed.
Print Assumptions C31_clear.
(** An incoming notification (indication) calls the handler registered for notifications (indications) of exactly its handle, with its value,
    or none; the registrations do not change. *)
Theorem C31_dispatch : forall g op a b v, (op = 27 \/ op = 29) -> let vh := de16 a b in let ind := op =? 29 in
  (ind = true -> registered g vh true <> None \/ registered g vh false = None) ->
  exists g' call, handle_notification g (op :: a :: b :: v) = Ret (g', call) /\ (forall k i, registered g' k i = registered g k i) /\
    match registered g vh ind with None => call = None | Some h => exists id, call = Some (h, id, v) end.
Proof.
  intros g op a b v OP vh ind HI. unfold handle_notification. cbn [r16 gfrom gslice gle16 gidx nth_error]. 
  assert (E : r16 (op :: a :: b :: v) 1 = Ret vh) by reflexivity. rewrite E. cbn [gbind].
  rewrite !registered_aget in HI. rewrite registered_aget. destruct (aget (g_subs g) vh) as [s|] eqn:A.
  - assert (F : gfrom (op :: a :: b :: v) 3 = Ret v) by (rewrite gfrom_ok by (cbn; lia); reflexivity). rewrite F. cbn [gbind gidx nth_error]. eexists. eexists. split; [reflexivity|]. split.
    + intros k i. rewrite !registered_aget. cbn [with_subs g_subs]. rewrite aget_aset. destruct (k =? vh) eqn:Q; [|reflexivity]. apply Z.eqb_eq in Q. subst k. rewrite A. destruct i; reflexivity.
    + fold ind. destruct ind.
      * destruct (sb_i s) as [h|]; [eexists; reflexivity|]. destruct (HI eq_refl) as [X|X]; [congruence|]. now rewrite X.
      * destruct (sb_n s) as [h|]; [eexists; reflexivity|reflexivity].
  - eexists. eexists. split; [reflexivity|]. split; [reflexivity|]. destruct ind; reflexivity.
Qed.
Print Assumptions C31_dispatch.
(** examples *)
Definition ex_ch : gchar := mkGC (uuid16 0x2A00) 16 2 3 4 [] (Some (mkGD (uuid16 0x2902) 4)).
Definition yes : peer := fun _ => Some [[19]].
Definition no : peer := fun _ => Some [[1; 18; 4; 0; 3]].
Example C31_example : exists g, shist [ex_ch] g /\ distinct [ex_ch] /\ registered g 3 false = Some 7%nat /\ registered g 3 true = Some 8%nat /\ peer_config (clog (g_cli g)) 4 = 3.
Proof.
  assert (S0 : shist [ex_ch] (new_gcl 23)) by (apply sh_new; lia).
  assert (S1 : exists g, run_sop yes (new_gcl 23) (SSubscribe ex_ch false 7) = Ret (g, COk None)) by (eexists; vm_compute; reflexivity). destruct S1 as (g1 & S1).
  assert (H1 := sh_step [ex_ch] _ yes (SSubscribe ex_ch false 7) _ _ S0 (or_introl eq_refl) S1). vm_compute in S1. injection S1 as <-.
  eexists. split; [eapply (sh_step _ _ yes (SSubscribe ex_ch true 8) _ None); [exact H1|now left|vm_compute; reflexivity]|].
  split; [|vm_compute; auto]. split; [apply Forall_cons; [cbn; lia|apply Forall_nil]|]. intros a b da db [<-|[]] [<-|[]] A B. rewrite A in B. injection B as <-. tauto.
Qed.
(** Where the full statement fails. *)
(** A failed write for one kind drops the handlers of both, while the peer still sends the other kind. *)
Theorem C90_failed_write_refuted : exists g1 g2, subscribe yes (new_gcl 23) ex_ch false (Some 7%nat) = Ret (g1, COk tt) /\ registered g1 3 false = Some 7%nat /\
  subscribe no g1 ex_ch true (Some 8%nat) = Ret (g2, CAtt 3) /\ registered g2 3 false = None /\ peer_config (firstn 1 (clog (g_cli g2))) 4 = 1.
Proof. do 2 eexists. split; [vm_compute; reflexivity|]. split; [reflexivity|]. split; [vm_compute; reflexivity|]. split; reflexivity. Qed.
(** Subscribing again with another handler succeeds without effect. *)
Theorem C90_resubscribe_refuted : exists g1 g2, subscribe yes (new_gcl 23) ex_ch false (Some 7%nat) = Ret (g1, COk tt) /\ subscribe yes g1 ex_ch false (Some 8%nat) = Ret (g2, COk tt) /\ registered g2 3 false = Some 7%nat.
Proof. do 2 eexists. split; [vm_compute; reflexivity|]. split; [vm_compute; reflexivity|]. reflexivity. Qed.
(** An indication with only a notification handler registered calls that one. *)
Theorem C90_indication_refuted : exists g1 g2, subscribe yes (new_gcl 23) ex_ch false (Some 7%nat) = Ret (g1, COk tt) /\ handle_notification g1 [29; 3; 0; 5] = Ret (g2, Some (7%nat, 0, [5])).
Proof. do 2 eexists. split; [vm_compute; reflexivity|]. vm_compute. reflexivity. Qed.
(** A notification without a whole handle crashes the process. *)
Theorem C90_short_refuted : forall g a, handle_notification g [27; a] = Panic.
Proof. intros g a. reflexivity. Qed.
Print Assumptions C90_failed_write_refuted.
Print Assumptions C90_resubscribe_refuted.
Print Assumptions C90_indication_refuted.
Print Assumptions C90_short_refuted.
