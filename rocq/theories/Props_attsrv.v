(** Properties C12..C24: the ATT server.  [reach d s]: s is a state of a server with table d after any requests and handler behaviours;
    [handle s e r]: the server in state s handles PDU r with user handlers behaving as e; result Panic = Go run-time panic. *)
Require Import Verif.Base Verif.M_uuid Verif.M_attdb Verif.S_attdb Verif.P_attdb Verif.M_attsrv Verif.S_attsrv Verif.P_attsrv Verif.P_attsrv2 Verif.P_attsrv3
  Verif.P_attsrv4 Verif.P_attsrv5 Verif.P_attsrv6 Verif.P_attsrv7 Verif.P_attsrv8 Verif.M_ind Verif.P_ind.

(** ---- a concrete table: service 1; characteristic 2/3 (read, notify) with CCCD 4; characteristic 5/6 (write); 7/8 static, 30 bytes;
    9/10 static, 5 bytes, indicate, CCCD 11 ---- *)
Definition ex_c1 := mkChar (uuid16 0x2A37) 18 [] None (Some 5%nat) None (Some 1%nat) None 0 0.
Definition ex_c2 := mkChar (uuid16 0x2A39) 12 [] None None (Some 7%nat) None None 0 0.
Definition ex_c3 := mkChar (uuid16 0x2A38) 2 [] (Some (repeat 7 30)) None None None None 0 0.
Definition ex_c4 := mkChar (uuid16 0x2A3A) 34 [] (Some [1; 2; 3; 4; 5]) None None None (Some 2%nat) 0 0.
Definition ex_svcs := [mkSvc (uuid16 0x180D) [ex_c1; ex_c2; ex_c3; ex_c4]].
Definition ex_db := snd (new_db ex_svcs 1).
Definition ex_s := mkSrv ex_db 23 23 23 515 23 515 None [] [] [] [] [].
Definition ex_e : env := fun _ => [].
Lemma ex_table : wf_db ex_db /\ table_ok ex_db.
Proof.
  apply api_table_ok; [lia|cbn; lia|cbn; lia|]. repeat constructor.
Qed.
Lemma ex_reach : reach ex_db ex_s.
Proof. apply (reach_init ex_db 515 23). reflexivity. Qed.
Lemma ex_reach_s : reach_supported ex_db ex_s.
Proof. apply (rs_init ex_db 515 23). reflexivity. Qed.

(** ---- C12 ---- *)
(** After any history of PDUs, every PDU sent in answer to any request other than Prepare Write is at most as long as the client MTU in
    force (23 before an exchange). *)
Theorem C12_response_fits : forall d rx tx s0 hist s outs calls e r s' o cs,
  new_server d rx tx = Some s0 -> loop_run s0 hist = Ret (s, outs, calls) -> Forall (fun x => all_bytes (snd x)) hist ->
  loop_pdu s e r = Ret (s', o, cs) -> hd 0 r <> 22 ->
  Forall (fun p => Z.of_nat (length p) <= fold_left mtu_after (map snd hist) 23) o.
Proof.
  assert (G : forall hist s0 s outs calls, loop_run s0 hist = Ret (s, outs, calls) -> Z.of_nat (txlen s) = fold_left mtu_after (map snd hist) (Z.of_nat (txlen s0)) /\ (23 <= txlen s0 -> 23 <= txlen s)%nat).
  { induction hist as [|[e r] hist IH]; intros s0 s outs calls H; cbn [loop_run] in H; [injection H as <- _ _; split; auto|].
    destruct (loop_pdu s0 e r) as [[[s1 o1] c1]|] eqn:L; [|discriminate]. cbn [gbind] in H. destruct (loop_run s1 hist) as [[[s2 o2] c2]|] eqn:R; [|discriminate]. cbn [gbind] in H. injection H as <- _ _.
    destruct (IH _ _ _ _ R) as [I1 I2]. cbn [map snd fold_left].
    assert (T : Z.of_nat (txlen s1) = mtu_after (Z.of_nat (txlen s0)) r /\ (23 <= txlen s0 -> 23 <= txlen s1)%nat).
    { assert (A : Z.of_nat (txlen s1) = mtu_after (Z.of_nat (txlen s0)) r).
      { unfold loop_pdu in L. assert (N : s1 = s0 /\ (exists t, r = 30 :: t) \/ exists o c, handle s0 e r = Ret (s1, o, c)).
        { destruct r as [|x t]; [right|]. { destruct (handle s0 e []) as [[[? ?] ?]|]; [|discriminate]. cbn [gbind] in L. injection L as <- _ _. eauto. }
          destruct (Z.eq_dec x 30) as [->|X]; [injection L as <- _ _; left; eauto|right].
          assert (L' : (let! (s', p, cs) := handle s0 e (x :: t) in Ret (s', match p with Some (x :: l) => [x :: l] | _ => [] end, cs)) = Ret (s1, o1, c1)).
          { destruct x as [|q|q]; try exact L. do 5 (destruct q as [q|q|]; try exact L). now elim X. }
          destruct (handle s0 e (x :: t)) as [[[? ?] ?]|]; [|discriminate]. cbn [gbind] in L'. injection L' as <- _ _. eauto. }
        destruct N as [(-> & t & ->)|(o & c & E)]; [reflexivity|]. now apply handle_env in E. }
      split; [exact A|]. intro M. assert (23 <= mtu_after (Z.of_nat (txlen s0)) r); [|lia].
      destruct r as [|op t]; [cbn; lia|]. destruct (Z.eq_dec op 2) as [->|]; [|rewrite mtu_after_other by assumption; lia].
      unfold mtu_after. destruct t as [|a [|b [|? ?]]]; try lia. destruct (23 <=? de16 a b) eqn:?; lia. }
    destruct T as [T1 T2]. rewrite <- T1. split; [exact I1|auto]. }
  intros d rx tx s0 hist s outs calls e r s' o cs HN HR _ HL N.
  destruct (G hist s0 s outs calls HR) as [TX M].
  assert (T0 : txlen s0 = 23%nat) by (unfold new_server in HN; destruct (_ || _); [discriminate|]; injection HN as <-; reflexivity).
  rewrite T0 in TX, M. change (Z.of_nat 23) with 23 in TX. rewrite <- TX.
  destruct r as [|op t]; [injection HL as _ <- _; constructor|]. cbn [hd] in N.
  destruct (Z.eq_dec op 30) as [->|X]; [injection HL as _ <- _; constructor|].
  assert (L' : (let! (s', p, cs) := handle s e (op :: t) in Ret (s', match p with Some (x :: l) => [x :: l] | _ => [] end, cs)) = Ret (s', o, cs)).
  { unfold loop_pdu in HL. destruct op as [|q|q]; try exact HL. do 5 (destruct q as [q|q|]; try exact HL). now elim X. }
  destruct (handle s e (op :: t)) as [[[s1 p] c]|] eqn:E; [|discriminate]. cbn [gbind] in L'. injection L' as _ <- _.
  destruct p as [p|]; [|constructor]. assert (LP := handle_len s e op t s1 p c ltac:(lia) E N). destruct p; [constructor|]. constructor; [lia|constructor].
Qed.
Print Assumptions C12_response_fits.
Example C12_example : exists s outs cs, loop_run ex_s [(ex_e, [2; 100; 0]); (ex_e, [8; 1; 0; 255; 255; 3; 40])] = Ret (s, outs, cs) /\ outs = [[3; 3; 2]; [9; 7; 2; 0; 18; 3; 0; 55; 42; 5; 0; 12; 6; 0; 57; 42; 7; 0; 2; 8; 0; 56; 42; 9; 0; 34; 10; 0; 58; 42]].
Proof. eexists _, _, _. vm_compute. split; reflexivity. Qed.
(** A Prepare Write answer echoes the request, so it is as long as the request (at least an error response). *)
Theorem C12_prepare_echo : forall s e t s' p cs, handle s e (22 :: t) = Ret (s', Some p, cs) -> (length p <= Nat.max 5 (1 + length t))%nat.
Proof.
  intros s e t s' p cs H. unfold handle in H. cbn [Z.eqb Pos.eqb] in H. destruct (h_prepare s (22 :: t)) as [[s1 q]|] eqn:E; [|discriminate]. cbn [gbind] in H. injection H as _ <- _.
  apply prepare_len in E. exact E.
Qed.
Print Assumptions C12_prepare_echo.
(** The MTU of the connection is min(client, 515 the server announced); a client announcing more gets longer PDUs. *)
Theorem C72_above_own_limit_refuted : exists s s' outs cs, reach ex_db s /\
  loop_run ex_s [(ex_e, [2; 88; 2])] = Ret (s, [[3; 3; 2]], []) /\
  loop_pdu s (fun _ => [WData (repeat 9 599)]) [10; 3; 0] = Ret (s', outs, cs) /\ exists p, outs = [p] /\ 515 < Z.of_nat (length p).
Proof.
  assert (H : exists s, handle ex_s ex_e [2; 88; 2] = Ret (s, Some [3; 3; 2], []) /\ txlen s = 600%nat) by (eexists; vm_compute; split; reflexivity).
  destruct H as (s & H & _). exists s. unfold ex_e in H. vm_compute in H. injection H as <-. eexists _, _, _. split.
  - eapply (reach_step ex_db ex_s ex_e [2; 88; 2]); [exact ex_reach|repeat constructor; unfold is_byte; lia|vm_compute; reflexivity].
  - split; [vm_compute; reflexivity|]. split; [vm_compute; reflexivity|]. eexists. split; [reflexivity|]. vm_compute. reflexivity.
Qed.
Print Assumptions C72_above_own_limit_refuted.
(** A Prepare Write received at the default MTU may be longer than it (the reader accepts 515 bytes); so is its answer. *)
Theorem C72_prepare_over_mtu_refuted : exists r s' p, handle ex_s ex_e r = Ret (s', Some p, []) /\ (txlen ex_s < length p)%nat.
Proof. exists ([22; 6; 0; 0; 0] ++ repeat 1 40). eexists _, _. split; [vm_compute; reflexivity|]. apply Nat.ltb_lt. vm_compute. reflexivity. Qed.
Print Assumptions C72_prepare_over_mtu_refuted.

(** ---- C13 ---- *)
(** Exactly the PDUs described by [crash_pdu] make the server panic, in every reachable state, for every table whose configuration
    descriptors belong to characteristics configured through the API. *)
Theorem C13_crashes_exactly_on : forall d s e r, wf_db d -> table_ok d -> reach d s -> all_bytes r ->
  (handle s e r = Panic <-> crash_pdu d (txlen s) (prep s) (prepdata s) r).
Proof. intros d s e r W T R B. apply handle_panic; auto. now apply reach_sinv. Qed.
Print Assumptions C13_crashes_exactly_on.
(** So every other PDU is handled. *)
Theorem C13_no_crash_partial : forall d s e r, wf_db d -> table_ok d -> reach d s -> all_bytes r ->
  ~ crash_pdu d (txlen s) (prep s) (prepdata s) r -> exists x, handle s e r = Ret x.
Proof.
  intros d s e r W T R B N. destruct (handle s e r) as [x|] eqn:E; [eauto|]. exfalso. apply N. now apply (C13_crashes_exactly_on d s e r W T R B).
Qed.
Print Assumptions C13_no_crash_partial.
(** Tables published from API-configured services satisfy the hypotheses. *)
Theorem C13_api_tables : forall ss base, 1 <= base -> base + table_size ss <= 65536 -> 0 < table_size ss -> Forall (fun s => Forall api_char (s_chars s)) ss ->
  wf_db (snd (new_db ss base)) /\ table_ok (snd (new_db ss base)).
Proof. exact api_table_ok. Qed.
Print Assumptions C13_api_tables.
Example C13_example : exists x, handle ex_s ex_e [18; 4; 0; 1; 0] = Ret x. Proof. eexists. vm_compute. reflexivity. Qed.
(** Witnesses against the full property, each from a fresh connection to the example table. *)
Theorem C13_long_static_read_refuted : handle ex_s ex_e [10; 8; 0] = Panic /\ handle ex_s ex_e [12; 8; 0; 0; 0] = Panic.
Proof. split; vm_compute; reflexivity. Qed.
Theorem C13_short_prepare_refuted : handle ex_s ex_e [22] = Panic /\ handle ex_s ex_e [22; 6; 0] = Panic.
Proof. split; vm_compute; reflexivity. Qed.
Theorem C13_execute_nothing_queued_refuted : handle ex_s ex_e [24; 1] = Panic.
Proof. vm_compute. reflexivity. Qed.
Theorem C13_short_cccd_write_refuted : handle ex_s ex_e [18; 4; 0; 1] = Panic /\ handle ex_s ex_e [82; 4; 0; 1] = Panic.
Proof. split; vm_compute; reflexivity. Qed.
Theorem C13_group_read_refuted : handle ex_s ex_e [16; 9; 0; 255; 255; 0; 40] = Panic.
Proof. vm_compute. reflexivity. Qed.
Print Assumptions C13_group_read_refuted.

(** ---- C14 ---- *)
Theorem C14_one_answer : forall s e op t s' o cs, loop_pdu s e (op :: t) = Ret (s', o, cs) -> op <> 82 -> op <> 30 -> exists p, o = [p] /\ answers (op :: t) p.
Proof.
  intros s e op t s' o cs H N82 N30.
  assert (L' : (let! (s', p, cs) := handle s e (op :: t) in Ret (s', match p with Some (x :: l) => [x :: l] | _ => [] end, cs)) = Ret (s', o, cs)).
  { unfold loop_pdu in H. destruct op as [|q|q]; try exact H. do 5 (destruct q as [q|q|]; try exact H). now elim N30. }
  destruct (handle s e (op :: t)) as [[[s1 p] c]|] eqn:E; [|discriminate]. cbn [gbind] in L'. injection L' as _ <- _.
  apply handle_answers in E. destruct E as [[C _]|[_ (q & -> & A)]]; [contradiction|]. exists q. split; [|exact A].
  destruct q; [|reflexivity]. exfalso. destruct A as (? & ? & _ & [(_ & ? & Q)|(? & ? & Q & _)]); discriminate Q.
Qed.
Print Assumptions C14_one_answer.
Theorem C14_commands_silent : forall s e t s' o cs, loop_pdu s e (82 :: t) = Ret (s', o, cs) \/ loop_pdu s e (30 :: t) = Ret (s', o, cs) -> o = [].
Proof.
  intros s e t s' o cs [H|H].
  - unfold loop_pdu in H. destruct (handle s e (82 :: t)) as [[[s1 p] c]|] eqn:E; [|discriminate]. cbn [gbind] in H. injection H as _ <- _.
    apply handle_answers in E. destruct E as [[_ ->]|[N _]]; [reflexivity|now elim N].
  - injection H as _ <- _. reflexivity.
Qed.
Print Assumptions C14_commands_silent.
Example C14_example : exists s', loop_pdu ex_s ex_e [18; 99; 0; 1] = Ret (s', [[1; 18; 99; 0; 1]], []). Proof. eexists. vm_compute. reflexivity. Qed.
(** Commands other than Write Command (Signed Write Command, unknown commands) are answered, which the property forbids. *)
Theorem C73_signed_write_answered_refuted : exists s', loop_pdu ex_s ex_e [210; 6; 0; 1] = Ret (s', [[1; 210; 0; 0; 6]], []).
Proof. eexists. vm_compute. reflexivity. Qed.
Print Assumptions C73_signed_write_answered_refuted.

(** ---- C15 ---- *)
Theorem C15_find_information : forall d s e st en, wf_db d -> table_ok d -> reach d s -> ok_range st en ->
  Forall (fun a => uuid_size (a_typ a)) (db_attrs d) ->
  handle s e (req_range 4 st en []) = Ret (s, Some (match find_info_spec (txlen s) (between d st en) with Some p => p | None => error_pdu 4 st 10 end), []).
Proof.
  intros d s e st en W T R OR U. destruct (reach_sinv d s W T R) as (D & M & _). subst d.
  unfold handle, req_range. cbn [app Z.eqb Pos.eqb]. fold (req_range 4 st en []). change (4 :: le16 st ++ le16 en ++ []) with (req_range 4 st en []).
  rewrite (find_info_ok s st en W M OR U). reflexivity.
Qed.
Print Assumptions C15_find_information.
Theorem C15_bad_range : forall s e st en, 0 <= st < 65536 -> 0 <= en < 65536 -> st = 0 \/ en < st ->
  handle s e (req_range 4 st en []) = Ret (s, Some (error_pdu 4 st 1), []).
Proof.
  intros s e st en Hs He Hb. unfold handle, req_range. cbn [app Z.eqb Pos.eqb]. change (4 :: le16 st ++ le16 en ++ []) with (req_range 4 st en []).
  unfold h_find_info. rewrite req_range_len. change (negb (Nat.eqb (5 + length (@nil Z)) 5)) with false. cbv iota. rewrite req_range_st, req_range_en by lia. cbn [gbind].
  replace ((st =? 0) || (st >? en)) with true by lia. cbn [gbind]. reflexivity.
Qed.
Print Assumptions C15_bad_range.
Example C15_example : handle ex_s ex_e (req_range 4 2 6 []) = Ret (ex_s, Some [5; 1; 2; 0; 3; 40; 3; 0; 55; 42; 4; 0; 2; 41; 5; 0; 3; 40; 6; 0; 57; 42], []).
Proof. vm_compute. reflexivity. Qed.

(** ---- C16 ---- *)
(** the value the server reads for an attribute (static, or what its handler produced) and its error status *)
Theorem C16_read_by_type : forall d s e st en ty, wf_db d -> table_ok d -> reach d s -> ok_range st en -> uuid_size ty ->
  exists cs, handle s e (req_range 8 st en ty) = Ret (s, Some (match filter (has_type ty) (between d st en) with
       | [] => error_pdu 8 st 10
       | a :: rest => if fst (rbt_val s e a) =? 0 then read_by_type_spec (txlen s) (a, snd (rbt_val s e a)) (map (rbt_opt s e) rest)
                      else err_rsp 8 st (fst (rbt_val s e a))
       end), cs).
Proof.
  intros d s e st en ty W T R OR U. destruct (reach_sinv d s W T R) as (D & M & _). subst d.
  destruct (read_by_type_ok s e st en ty W M OR U) as (cs & E). exists cs. unfold handle. unfold req_range at 1. cbn [app Z.eqb Pos.eqb]. rewrite E. reflexivity.
Qed.
Print Assumptions C16_read_by_type.
(** what [rbt_val] is, in terms of the table and the handler *)
Theorem C16_value_static : forall s e a v, a_v a = Some v -> rbt_val s e a = (0, v).
Proof. intros s e a v H. unfold rbt_val. now rewrite H. Qed.
Theorem C16_value_handler : forall s e a i b, a_v a = None -> a_rh a = Some (AUser i) -> e (CRead (a_h a) 0) = [WData b] -> (length b <= txlen s - 2)%nat -> rbt_val s e a = (0, b).
Proof.
  intros s e a i b V H E L. unfold rbt_val, att_read. rewrite V, H, E. cbn [run_wops length]. rewrite Nat.sub_0_r, ltb_false by exact L. reflexivity.
Qed.
Print Assumptions C16_value_handler.
Theorem C16_bad_range : forall s e st en ty, uuid_size ty -> 0 <= st < 65536 -> 0 <= en < 65536 -> st = 0 \/ en < st ->
  handle s e (req_range 8 st en ty) = Ret (s, Some (error_pdu 8 st 1), []).
Proof.
  intros s e st en ty U Hs He Hb. unfold handle. unfold req_range at 1. cbn [app Z.eqb Pos.eqb].
  unfold h_read_by_type. rewrite req_range_len. unfold uuid_size in U. replace (negb (Nat.eqb (5 + length ty) 7) && negb (Nat.eqb (5 + length ty) 21)) with false by lia.
  rewrite req_range_st, req_range_en by lia. cbn [gbind].
  replace ((st =? 0) || (st >? en)) with true by lia. cbn [gbind]. reflexivity.
Qed.
Print Assumptions C16_bad_range.

(** ---- C17 ---- *)
(** A range that starts at a published service yields that service and the services following it directly, in order, with their groups; all
    have the same UUID size, and the response ends only where it is full, the range or the table ends, the UUID size changes, or behind a
    service that has characteristics. *)
Theorem C17_from_a_service : forall s e before sv after en base, 1 <= base -> base + table_size (before ++ sv :: after) <= 65536 ->
  Forall oks (before ++ sv :: after) -> Forall (fun x => Forall api_char (s_chars x)) (before ++ sv :: after) ->
  reach (snd (new_db (before ++ sv :: after) base)) s ->
  let st := base + table_size before in st <= en <= 65535 ->
  let d := (4 + length (s_uuid sv))%nat in let k := Nat.min ((txlen s - 2) / d) (S (group_run (length (s_uuid sv)) (Z.to_nat (en - st)) (s_chars sv) after)) in
  handle s e (req_range 16 st en u_primary) = Ret (s, Some ([17; Z.of_nat d] ++ flat_map range_entry (firstn k (service_ranges (sv :: after) st))), []) /\
  (1 <= k)%nat /\ Forall (fun x => length (s_uuid x) = length (s_uuid sv)) (firstn k (sv :: after)).
Proof.
  intros s e before sv after en base B SZ F A R st HR d k.
  assert (P0 : 0 < table_size (before ++ sv :: after)).
  { unfold table_size, table_types. rewrite flat_map_app, app_length. cbn [flat_map]. rewrite app_length. unfold svc_types. cbn [length]. lia. }
  destruct (api_table_ok (before ++ sv :: after) base B SZ P0 A) as [W T]. destruct (reach_sinv _ s W T R) as (D & M & _).
  destruct (group_services s before sv after en base u_primary B SZ F D M (or_introl eq_refl) HR) as (E & K1 & K2). split; [|split; [exact K1|exact K2]].
  unfold handle. unfold req_range at 1. cbn [app Z.eqb Pos.eqb]. fold st in E. rewrite E. reflexivity.
Qed.
Print Assumptions C17_from_a_service.
Example C17_run : group_run 2 100 [] [new_service (uuid16 0x1234); mkSvc (uuid16 0x1235) [new_char (uuid16 0x2A19)]; new_service (uuid16 0x1236)] = 2%nat.
Proof. reflexivity. Qed.
(** A range without attributes gives Attribute Not Found, an invalid one Invalid Handle. *)
Theorem C17_none : forall d s e st en ty, wf_db d -> table_ok d -> reach d s -> ok_range st en -> uuid_size ty -> between d st en = [] ->
  handle s e (req_range 16 st en ty) = Ret (s, Some (error_pdu 16 st 10), []).
Proof.
  intros d s e st en ty W T R OR U BW. destruct (reach_sinv d s W T R) as (D & M & _). subst d. unfold handle. unfold req_range at 1. cbn [app Z.eqb Pos.eqb].
  unfold h_read_by_group. rewrite req_range_len. unfold uuid_size in U. replace (negb (Nat.eqb (5 + length ty) 7) && negb (Nat.eqb (5 + length ty) 21)) with false by lia.
  unfold ok_range in OR. rewrite req_range_st, req_range_en by lia. cbn [gbind]. replace ((st =? 0) || (st >? en)) with false by lia. replace (Nat.ltb (txlen s) 6) with false by (symmetry; apply Nat.ltb_ge; lia).
  rewrite db_subrange_spec by (auto; lia). change (filter _ _) with (between (s_db s) st en). rewrite BW. reflexivity.
Qed.
Print Assumptions C17_none.
Theorem C17_bad_range : forall s e st en ty, uuid_size ty -> 0 <= st < 65536 -> 0 <= en < 65536 -> st = 0 \/ en < st ->
  handle s e (req_range 16 st en ty) = Ret (s, Some (error_pdu 16 st 1), []).
Proof.
  intros s e st en ty U Hs He Hb. unfold handle. unfold req_range at 1. cbn [app Z.eqb Pos.eqb].
  unfold h_read_by_group. rewrite req_range_len. unfold uuid_size in U. replace (negb (Nat.eqb (5 + length ty) 7) && negb (Nat.eqb (5 + length ty) 21)) with false by lia.
  rewrite req_range_st, req_range_en by lia. cbn [gbind].
  replace ((st =? 0) || (st >? en)) with true by lia. cbn [gbind]. reflexivity.
Qed.
Print Assumptions C17_bad_range.
Example C17_example : handle ex_s ex_e (req_range 16 1 65535 u_primary) = Ret (ex_s, Some [17; 6; 1; 0; 255; 255; 13; 24], []).
Proof. vm_compute. reflexivity. Qed.
(** The group type is never looked at, and a range starting inside a service reports a characteristic declaration as a service. *)
Theorem C74_group_type_ignored_refuted : handle ex_s ex_e (req_range 16 1 65535 (uuid16 0x2803)) = Ret (ex_s, Some [17; 6; 1; 0; 255; 255; 13; 24], []).
Proof. vm_compute. reflexivity. Qed.
Theorem C74_not_a_service_refuted : handle ex_s ex_e (req_range 16 7 7 u_primary) = Ret (ex_s, Some [17; 9; 7; 0; 8; 0; 2; 8; 0; 56; 42], []).
Proof. vm_compute. reflexivity. Qed.
Theorem C74_inside_a_service_refuted : handle ex_s ex_e (req_range 16 2 65535 u_primary) = Ret (ex_s, Some (error_pdu 16 2 6), []).
Proof. vm_compute. reflexivity. Qed.
Print Assumptions C74_inside_a_service_refuted.

(** ---- C18 ---- *)
Theorem C18_find_by_type_value : forall d s e st en ty val, wf_db d -> table_ok d -> reach d s -> ok_range st en -> 0 <= ty < 65536 ->
  (forall a, In a (between d st en) -> has_type (uuid16 ty) a = true -> a_v a <> None) ->
  handle s e (req_range 6 st en (le16 ty ++ val)) = Ret (s, Some (match find_by_type_spec (txlen s) (between d st en) (uuid16 ty) val with Some p => p | None => error_pdu 6 st 10 end), []).
Proof.
  intros d s e st en ty val W T R OR HT HS. destruct (reach_sinv d s W T R) as (D & M & _). subst d.
  assert (E := find_by_type_ok s st en ty val W M OR HT HS). unfold handle. unfold req_range at 1. cbn [app Z.eqb Pos.eqb].
  change (6 :: le16 st ++ le16 en ++ le16 ty ++ val) with (req_range 6 st en (le16 ty ++ val)). rewrite E. reflexivity.
Qed.
Print Assumptions C18_find_by_type_value.
Example C18_example : handle ex_s ex_e (req_range 6 1 65535 (le16 0x2800 ++ [13; 24])) = Ret (ex_s, Some [7; 1; 0; 255; 255], []).
Proof. vm_compute. reflexivity. Qed.
(** An attribute of the type with a read handler makes the whole request fail; entries for attributes that are not groups end at 0. *)
Theorem C75_dynamic_value_refuted : handle ex_s (fun _ => [WData [7]]) (req_range 6 1 65535 (le16 0x2A37 ++ [7])) = Ret (ex_s, Some (error_pdu 6 1 1), []).
Proof. vm_compute. reflexivity. Qed.
Theorem C75_end_zero_refuted : handle ex_s ex_e (req_range 6 1 65535 (le16 0x2A3A ++ [1; 2; 3; 4; 5])) = Ret (ex_s, Some [7; 10; 0; 0; 0], []).
Proof. vm_compute. reflexivity. Qed.
Print Assumptions C75_end_zero_refuted.

(** ---- C19 ---- *)
Lemma run_wops_accepted : forall n l buf st, (length buf <= n)%nat ->
  run_wops (Some n) l buf st = (buf ++ accepted (n - length buf) l, fold_left (fun st o => match o with WStatus x => x mod 256 | WData _ => st end) l st).
Proof.
  intros n l. induction l as [|[b|x] l IH]; intros buf st H; cbn [run_wops accepted fold_left].
  - now rewrite app_nil_r.
  - destruct (Nat.leb (length b) (n - length buf)) eqn:E.
    + apply Nat.leb_le in E. rewrite ltb_false by lia. rewrite IH by (rewrite app_length; lia). rewrite app_length, <- app_assoc.
      now replace (n - (length buf + length b))%nat with (n - length buf - length b)%nat by lia.
    + apply Nat.leb_gt in E. rewrite (proj2 (Nat.ltb_lt _ _)) by lia. now apply IH.
  - apply IH. exact H.
Qed.
Lemma accepted_len : forall l room, (length (accepted room l) <= room)%nat.
Proof.
  induction l as [|[b|x] l IH]; intros room; cbn [accepted]; [cbn; lia| |apply IH].
  destruct (Nat.leb (length b) room) eqn:E; [|apply IH]. apply Nat.leb_le in E. rewrite app_length. specialize (IH (room - length b)%nat). lia.
Qed.
Lemma final_status_byte : forall l, 0 <= final_status l < 256.
Proof.
  intros l. unfold final_status. assert (G : forall st, 0 <= st < 256 -> 0 <= fold_left (fun st o => match o with WStatus x => x mod 256 | WData _ => st end) l st < 256).
  { induction l as [|[b|x] l IH]; intros st H; cbn [fold_left]; [exact H|apply IH; exact H|apply IH; apply Z.mod_pos_bound; lia]. }
  apply G. lia.
Qed.
(** Read: a static value that fits is returned; a handler is called once, with offset 0, and what it wrote (as far as it fits)
    is returned, or the error status it set, whatever the handler does. *)
Theorem C19_read : forall d s e h, wf_db d -> table_ok d -> reach d s -> 0 <= h < 65536 ->
  match attr_at d h with
  | None => handle s e (req_handle 10 h []) = Ret (s, Some (error_pdu 10 h 1), [])
  | Some a =>
      (forall v, a_v a = Some v -> (length v <= txlen s - 1)%nat -> handle s e (req_handle 10 h []) = Ret (s, Some (11 :: v), [])) /\
      (a_v a = None -> a_rh a = None -> handle s e (req_handle 10 h []) = Ret (s, Some (error_pdu 10 h 2), [])) /\
      (forall i, a_v a = None -> a_rh a = Some (AUser i) ->
         handle s e (req_handle 10 h []) = Ret (s, Some (read_answer 10 11 h (txlen s - 1) (e (CRead h 0))), [CRead h 0]))
  end.
Proof.
  intros d s e h W T R Hh. destruct (reach_sinv d s W T R) as (D & M & _). subst d.
  assert (E : handle s e (req_handle 10 h []) = let! (p, cs) := h_read s e (req_handle 10 h []) in Ret (s, Some p, cs)) by reflexivity. rewrite E. clear E.
  unfold h_read. change (negb (Nat.eqb (length (req_handle 10 h [])) 3)) with false. cbv iota. rewrite (ltb_false (txlen s) 1) by lia.
  rewrite req_handle_h by exact Hh. cbn [gbind]. rewrite attr_at_db by exact W. cbn [gbind]. destruct (attr_at (s_db s) h) as [a|] eqn:A; [|reflexivity].
  assert (AH : a_h a = h) by now apply attr_at_in in A.
  split; [|split].
  - intros v V L. rewrite V, rsp_of_ok by (cbn [length]; lia). reflexivity.
  - intros V RH. rewrite V. unfold att_read. rewrite RH. reflexivity.
  - intros i V RH. rewrite V. unfold att_read, read_answer. rewrite RH, AH, run_wops_accepted by (cbn [length]; lia). cbn [length]. rewrite Nat.sub_0_r. cbn [app].
    change (fold_left _ (e (CRead h 0)) 0) with (final_status (e (CRead h 0))). pose proof (final_status_byte (e (CRead h 0))) as FB.
    destruct (final_status (e (CRead h 0)) =? 0); cbn [negb gbind].
    + rewrite rsp_of_ok by (cbn [length]; pose proof (accepted_len (e (CRead h 0)) (txlen s - 1)); lia). reflexivity.
    + rewrite err_rsp_pdu by (unfold is_byte; lia). reflexivity.
Qed.
Print Assumptions C19_read.
(** Read Blob on an attribute with a handler passes the offset to the handler, once. *)
Theorem C19_read_blob_handler : forall d s e h off, wf_db d -> table_ok d -> reach d s -> 0 <= h < 65536 -> 0 <= off < 65536 ->
  match attr_at d h with
  | None => handle s e (req_handle 12 h (le16 off)) = Ret (s, Some (error_pdu 12 h 1), [])
  | Some a =>
      (a_v a = None -> a_rh a = None -> handle s e (req_handle 12 h (le16 off)) = Ret (s, Some (error_pdu 12 h 2), [])) /\
      (forall i, a_v a = None -> a_rh a = Some (AUser i) ->
         handle s e (req_handle 12 h (le16 off)) = Ret (s, Some (read_answer 12 13 h (txlen s - 1) (e (CRead h off))), [CRead h off]))
  end.
Proof.
  intros d s e h off W T R Hh Ho. destruct (reach_sinv d s W T R) as (D & M & _). subst d.
  assert (E : handle s e (req_handle 12 h (le16 off)) = let! (p, cs) := h_read_blob s e (req_handle 12 h (le16 off)) in Ret (s, Some p, cs)) by reflexivity. rewrite E. clear E.
  unfold h_read_blob. change (negb (Nat.eqb (length (req_handle 12 h (le16 off))) 5)) with false. cbv iota. rewrite req_handle_h by exact Hh. cbn [gbind].
  rewrite attr_at_db by exact W. cbn [gbind]. destruct (attr_at (s_db s) h) as [a|] eqn:A; [|reflexivity]. rewrite (ltb_false (txlen s) 1) by lia.
  assert (R3 : r16 (req_handle 12 h (le16 off)) 3 = Ret off) by (change (gle16 (le16 off) = Ret off); unfold gle16, le16; now rewrite de16_le16).
  assert (AH : a_h a = h) by now apply attr_at_in in A.
  split.
  - intros V RH. rewrite V, R3. cbn [gbind]. unfold att_read. rewrite RH. reflexivity.
  - intros i V RH. rewrite V, R3. cbn [gbind]. unfold att_read, read_answer. rewrite RH, AH, run_wops_accepted by (cbn [length]; lia). cbn [length]. rewrite Nat.sub_0_r. cbn [app].
    change (fold_left _ (e (CRead h off)) 0) with (final_status (e (CRead h off))). pose proof (final_status_byte (e (CRead h off))) as FB.
    destruct (final_status (e (CRead h off)) =? 0); cbn [negb gbind].
    + rewrite rsp_of_ok by (cbn [length]; pose proof (accepted_len (e (CRead h off)) (txlen s - 1)); lia). reflexivity.
    + rewrite err_rsp_pdu by (unfold is_byte; lia). reflexivity.
Qed.
Print Assumptions C19_read_blob_handler.
Example C19_example : handle ex_s (fun c => match c with CRead 3 0 => [WData [60]] | _ => [] end) (req_handle 10 3 []) = Ret (ex_s, Some [11; 60], [CRead 3 0]).
Proof. vm_compute. reflexivity. Qed.
(** Read Blob of a static value ignores the offset; a static value longer than MTU-1 cannot be read at all (C13). *)
Theorem C76_blob_offset_ignored_refuted : handle ex_s ex_e (req_handle 12 10 (le16 3)) = Ret (ex_s, Some [13; 1; 2; 3; 4; 5], []).
Proof. vm_compute. reflexivity. Qed.
Theorem C76_not_truncated_refuted : handle ex_s ex_e (req_handle 10 8 []) = Panic.
Proof. vm_compute. reflexivity. Qed.
Print Assumptions C76_not_truncated_refuted.

(** ---- C20 ---- *)
Lemma run_wops_none : forall l buf st, snd (run_wops None l buf st) = fold_left (fun st o => match o with WStatus x => x mod 256 | WData _ => st end) l st.
Proof. induction l as [|[b|x] l IH]; intros buf st; cbn [run_wops fold_left snd]; [reflexivity|apply IH|apply IH]. Qed.
Lemma write_status : forall l, snd (run_wops None l [] 0) = final_status l.
Proof. intro l. apply run_wops_none. Qed.
(** Write Request: the handler is called once with exactly the value; the response is positive unless the handler left an error status, which is
    then reported, whatever the handler does. *)
Theorem C20_write_request : forall d s e h v, wf_db d -> table_ok d -> reach d s -> 0 <= h < 65536 ->
  match attr_at d h with
  | None => handle s e (req_handle 18 h v) = Ret (s, Some (error_pdu 18 h 1), [])
  | Some a =>
      match a_wh a with
      | None => handle s e (req_handle 18 h v) = Ret (s, Some (error_pdu 18 h 3), [])
      | Some (AUser _) => handle s e (req_handle 18 h v) = Ret (s, Some (write_answer 18 19 h (e (CWrite h v))), [CWrite h v])
      | Some (ACccd _) => forall s' o cs, handle s e (req_handle 18 h v) = Ret (s', o, cs) -> cs = []
      end
  end.
Proof.
  intros d s e h v W T R Hh. destruct (reach_sinv d s W T R) as (D & M & _). subst d.
  assert (E : handle s e (req_handle 18 h v) = let! (s', p, cs) := h_write s e (req_handle 18 h v) in Ret (s', Some p, cs)) by reflexivity. rewrite E. clear E.
  unfold h_write. change (Nat.ltb (length (req_handle 18 h v)) 3) with false. cbv iota. rewrite req_handle_h by exact Hh. cbn [gbind].
  rewrite attr_at_db by exact W. cbn [gbind]. destruct (attr_at (s_db s) h) as [a|] eqn:A; [|reflexivity]. rewrite req_handle_rest. cbn [gbind].
  assert (AH : a_h a = h) by now apply attr_at_in in A. unfold att_write. destruct (a_wh a) as [[i|ci]|].
  - cbn [gbind]. rewrite AH, write_status. unfold write_answer. destruct (final_status _ =? 0); [reflexivity|]. rewrite err_rsp_pdu by apply final_status_byte. reflexivity.
  - intros s' o cs H. destruct (cccd_write s ci v) as [[s1 st]|]; [|discriminate]. cbn [gbind] in H. now injection H as _ _ <-.
  - reflexivity.
Qed.
Print Assumptions C20_write_request.
Theorem C20_write_command : forall d s e h v, wf_db d -> table_ok d -> reach d s -> 0 <= h < 65536 -> v <> [] ->
  match attr_at d h with
  | None => handle s e (req_handle 82 h v) = Ret (s, None, [])
  | Some a =>
      match a_wh a with
      | None => handle s e (req_handle 82 h v) = Ret (s, None, [])
      | Some (AUser _) => handle s e (req_handle 82 h v) = Ret (s, None, [CWrite h v])
      | Some (ACccd _) => forall s' o cs, handle s e (req_handle 82 h v) = Ret (s', o, cs) -> cs = []
      end
  end.
Proof.
  intros d s e h v W T R Hh NV. destruct (reach_sinv d s W T R) as (D & M & _). subst d.
  assert (E : handle s e (req_handle 82 h v) = let! (s', cs) := h_write_cmd s e (req_handle 82 h v) in Ret (s', None, cs)) by reflexivity. rewrite E. clear E.
  unfold h_write_cmd. replace (Nat.leb (length (req_handle 82 h v)) 3) with false by (destruct v; [now elim NV|reflexivity]). rewrite req_handle_h by exact Hh. cbn [gbind].
  rewrite attr_at_db by exact W. cbn [gbind]. destruct (attr_at (s_db s) h) as [a|] eqn:A; [|reflexivity]. rewrite req_handle_rest. cbn [gbind].
  assert (AH : a_h a = h) by now apply attr_at_in in A. unfold att_write. destruct (a_wh a) as [[i|ci]|].
  - cbn [gbind]. rewrite AH. reflexivity.
  - intros s' o cs H. destruct (cccd_write s ci v) as [[s1 st]|]; [|discriminate]. cbn [gbind] in H. now injection H as _ _ <-.
  - reflexivity.
Qed.
Print Assumptions C20_write_command.
Example C20_example : handle ex_s ex_e (req_handle 18 6 [1; 2]) = Ret (ex_s, Some [19], [CWrite 6 [1; 2]]). Proof. vm_compute. reflexivity. Qed.
(** A Write Command with an empty value is dropped, although the attribute is writable. *)
Theorem C77_empty_command_refuted : handle ex_s ex_e (req_handle 82 6 []) = Ret (ex_s, None, []).
Proof. vm_compute. reflexivity. Qed.
Print Assumptions C77_empty_command_refuted.

(** ---- C21 ---- *)
(** parts of a long write (offset, bytes); what they assemble to *)
Definition assemble (parts : list (Z * bytes)) : bytes :=
  fold_left (fun acc p => firstn (Z.to_nat (fst p)) acc ++ snd p ++ skipn (Z.to_nat (fst p) + length (snd p)) acc) parts [].
Fixpoint sequential (from : Z) (parts : list (Z * bytes)) : Prop :=
  match parts with [] => True | (o, v) :: r => o = from /\ sequential (from + Z.of_nat (length v)) r end.
Definition prepares (h : Z) (parts : list (Z * bytes)) : list (env * bytes) := map (fun p => (ex_e, req_handle 22 h (le16 (fst p) ++ snd p))) parts.
Lemma assemble_sequential : forall parts acc, sequential (Z.of_nat (length acc)) parts ->
  fold_left (fun acc p => firstn (Z.to_nat (fst p)) acc ++ snd p ++ skipn (Z.to_nat (fst p) + length (snd p)) acc) parts acc = acc ++ flat_map snd parts.
Proof.
  induction parts as [|[o v] parts IH]; intros acc H; [cbn; now rewrite app_nil_r|]. destruct H as [-> H]. cbn [fold_left flat_map fst snd].
  rewrite Nat2Z.id, firstn_all, skipn_all2, app_nil_r by lia. rewrite IH by (rewrite app_length, Nat2Z.inj_add; exact H). now rewrite <- app_assoc.
Qed.
Lemma loop_cons : forall s e r t s1 p cs, r <> [] -> hd 0 r <> 30 -> handle s e r = Ret (s1, Some p, cs) -> p <> [] ->
  loop_run s ((e, r) :: t) = let! (s2, o2, c2) := loop_run s1 t in Ret (s2, p :: o2, cs ++ c2).
Proof.
  intros s e r t s1 p cs NR N H NP. cbn [loop_run]. assert (L : loop_pdu s e r = Ret (s1, [p], cs)).
  { unfold loop_pdu. destruct r as [|x r]; [now elim NR|]. cbn [hd] in N. assert (G : (let! (s', q, c) := handle s e (x :: r) in Ret (s', match q with Some (y :: l) => [y :: l] | _ => [] end, c)) = Ret (s1, [p], cs)).
    { rewrite H. cbn [gbind]. destruct p; [now elim NP|reflexivity]. }
    destruct x as [|q|q]; try exact G. do 5 (destruct q as [q|q|]; try exact G). now elim N. }
  rewrite L. reflexivity.
Qed.
(** Queuing sequential parts for one attribute and executing delivers the assembled value once; cancelling delivers nothing; both empty the queue. *)
Theorem C21_queued_write : forall d s h a i parts, wf_db d -> table_ok d -> reach d s -> 0 <= h < 65536 -> attr_at d h = Some a -> a_wh a = Some (AUser i) ->
  prep s = None -> parts <> [] -> Forall (fun p => 0 <= fst p < 65536) parts -> sequential 0 parts ->
  exists s1 outs, loop_run s (prepares h parts) = Ret (s1, outs, []) /\ outs = map (fun p => req_handle 23 h (le16 (fst p) ++ snd p)) parts /\
  (forall e, exists s2 p, handle s1 e [24; 1] = Ret (s2, Some p, [CWrite h (assemble parts)]) /\ prep s2 = None /\ p = write_answer 24 25 0 (e (CWrite h (assemble parts)))) /\
  (forall e, exists s2, handle s1 e [24; 0] = Ret (s2, Some [25], []) /\ prep s2 = None).
Proof.
  intros d s h a i parts W T R Hh A WH PN NE FO SQ. destruct (reach_sinv d s W T R) as (D & M & _). subst d.
  assert (AH : a_h a = h) by now apply attr_at_in in A.
  assert (G : forall parts s0 acc, wf_db (s_db s0) -> s_db s0 = s_db s -> prep s0 = Some a -> prepdata s0 = acc -> Forall (fun p => 0 <= fst p < 65536) parts ->
    exists s1, loop_run s0 (prepares h parts) = Ret (s1, map (fun p => req_handle 23 h (le16 (fst p) ++ snd p)) parts, []) /\ prep s1 = Some a /\ prepdata s1 = acc ++ flat_map snd parts).
  { clear - A WH Hh. induction parts as [|[o v] parts IH]; intros s0 acc W D P PD FO.
    - exists s0. cbn. split; [reflexivity|]. split; [exact P|]. now rewrite app_nil_r.
    - inversion FO as [|? ? F1 F2]; subst. cbn [fst] in F1.
      assert (HP : handle s0 ex_e (req_handle 22 h (le16 o ++ v)) = Ret (set_prep s0 (Some a) (prepdata s0 ++ v), Some (req_handle 23 h (le16 o ++ v)), [])).
      { change (handle s0 ex_e (req_handle 22 h (le16 o ++ v))) with (let! (s', p) := h_prepare s0 (req_handle 22 h (le16 o ++ v)) in Ret (s', Some p, @nil call)).
        rewrite (prepare_user s0 h a o v W Hh F1) by (rewrite ?D; congruence). rewrite P. reflexivity. }
      destruct (IH (set_prep s0 (Some a) (prepdata s0 ++ v)) (prepdata s0 ++ v) W D eq_refl eq_refl F2) as (s1 & L & P1 & P2).
      exists s1. cbn [prepares map fst snd]. rewrite (fun t a b c => loop_cons _ _ _ t _ _ _ a b HP c) by first [discriminate | cbn; lia]. unfold prepares in L. rewrite L. cbn [gbind app]. split; [reflexivity|]. split; [exact P1|].
      rewrite P2. cbn [flat_map snd]. now rewrite app_assoc. }
  destruct parts as [|[o v] parts]; [now elim NE|]. apply Forall_cons_iff in FO as [F1 F2]. cbn [fst] in F1.
  assert (HP : handle s ex_e (req_handle 22 h (le16 o ++ v)) = Ret (set_prep s (Some a) v, Some (req_handle 23 h (le16 o ++ v)), [])).
  { change (handle s ex_e (req_handle 22 h (le16 o ++ v))) with (let! (s', p) := h_prepare s (req_handle 22 h (le16 o ++ v)) in Ret (s', Some p, @nil call)).
    rewrite (prepare_user s h a o v W Hh F1) by congruence. rewrite PN. reflexivity. }
  destruct (G parts (set_prep s (Some a) v) v W eq_refl eq_refl eq_refl F2) as (s1 & L & P1 & P2).
  assert (AS : assemble ((o, v) :: parts) = v ++ flat_map snd parts) by (unfold assemble; rewrite assemble_sequential by exact SQ; reflexivity).
  exists s1. eexists. split.
  - cbn [prepares map fst snd]. rewrite (fun t a b c => loop_cons _ _ _ t _ _ _ a b HP c) by first [discriminate | cbn; lia]. unfold prepares in L. rewrite L. cbn [gbind app]. reflexivity.
  - split; [reflexivity|]. split.
    + intro e. change (handle s1 e [24; 1]) with (let! (s', p, cs) := h_execute s1 e [24; 1] in Ret (s', Some p, cs)). unfold h_execute. cbn [length Nat.ltb Nat.leb gidx nth_error gbind Z.eqb Pos.eqb].
      rewrite P1, WH. unfold att_write. rewrite WH. cbn [gbind]. rewrite P2, AH, <- AS. rewrite write_status. eexists _, _. split; [reflexivity|]. split; [reflexivity|]. unfold write_answer. destruct (final_status _ =? 0); [reflexivity|]. rewrite err_rsp_pdu by apply final_status_byte. reflexivity.
    + intro e. eexists. split; [reflexivity|]. reflexivity.
Qed.
Print Assumptions C21_queued_write.
Example C21_example : exists s1 s2, loop_run ex_s (prepares 6 [(0, [1; 2; 3]); (3, [4])]) = Ret (s1, [[23; 6; 0; 0; 0; 1; 2; 3]; [23; 6; 0; 3; 0; 4]], []) /\
  handle s1 ex_e [24; 1] = Ret (s2, Some [25], [CWrite 6 [1; 2; 3; 4]]).
Proof. eexists _, _. split; vm_compute; reflexivity. Qed.
(** The offset of a part is ignored ... *)
Theorem C78_offset_ignored_refuted : exists s1 s2, loop_run ex_s (prepares 6 [(0, [1; 2; 3]); (0, [9])]) = Ret (s1, [[23; 6; 0; 0; 0; 1; 2; 3]; [23; 6; 0; 0; 0; 9]], []) /\
  handle s1 ex_e [24; 1] = Ret (s2, Some [25], [CWrite 6 [1; 2; 3; 9]]) /\ assemble [(0, [1; 2; 3]); (0, [9])] = [9; 2; 3].
Proof. eexists _, _. split; [vm_compute; reflexivity|]. split; [vm_compute; reflexivity|reflexivity]. Qed.
Print Assumptions C78_offset_ignored_refuted.
(** ... and parts queued for a second attribute are delivered to the first one. *)
Definition ex2_db := snd (new_db [mkSvc (uuid16 0x180D) [ex_c2; mkChar (uuid16 0x2A40) 12 [] None None (Some 8%nat) None None 0 0]] 1).
Definition ex2_s := mkSrv ex2_db 23 23 23 515 23 515 None [] [] [] [] [].
Theorem C78_two_attributes_refuted : exists s1 outs s2, loop_run ex2_s (prepares 3 [(0, [1])] ++ prepares 5 [(0, [2])]) = Ret (s1, outs, []) /\
  handle s1 ex_e [24; 1] = Ret (s2, Some [25], [CWrite 3 [1; 2]]).
Proof. eexists _, _, _. split; vm_compute; reflexivity. Qed.
Print Assumptions C78_two_attributes_refuted.

(** ---- C22 ---- *)
(** While clients ask only for what the characteristics support: exactly one notifier (indicator) runs per characteristic whose notify
    (indicate) bit is set on this connection, none otherwise. *)
Theorem C22_running_iff_enabled : forall d s ci, wf_db d -> reach_supported d s ->
  running s false (ci_handle ci) = (if Z.testbit (config s ci) 0 then 1 else 0)%nat /\
  running s true (ci_handle ci) = (if Z.testbit (config s ci) 1 then 1 else 0)%nat.
Proof.
  intros d s ci W R. destruct (reach_rsinv d s W R) as (_ & [RN RI] & _). split; [eapply st_running; apply RN|eapply st_running; apply RI].
Qed.
Print Assumptions C22_running_iff_enabled.
(** Reading the descriptor gives the configuration value; 0 on a fresh connection. *)
Theorem C22_read : forall d s e h a ci, wf_db d -> table_ok d -> reach d s -> 0 <= h < 65536 -> attr_at d h = Some a -> a_v a = None -> a_rh a = Some (ACccd ci) ->
  handle s e (req_handle 10 h []) = Ret (s, Some (11 :: le16 (config s ci)), []).
Proof.
  intros d s e h a ci W T R Hh A V RH. destruct (reach_sinv d s W T R) as (D & M & _). subst d.
  change (handle s e (req_handle 10 h [])) with (let! (p, cs) := h_read s e (req_handle 10 h []) in Ret (s, Some p, cs)).
  unfold h_read. change (negb (Nat.eqb (length (req_handle 10 h [])) 3)) with false. cbv iota. rewrite (ltb_false (txlen s) 1) by lia.
  rewrite req_handle_h by exact Hh. cbn [gbind]. rewrite attr_at_db by exact W. cbn [gbind]. rewrite A, V. unfold att_read. rewrite RH. unfold cccd_read, config. cbn [run_wops].
  rewrite ltb_false by (cbn [length]; rewrite le16_length; lia). cbn [app]. change (negb (0 =? 0)) with false. cbv iota. rewrite rsp_of_ok by (rewrite le16_length; cbn [length]; lia). reflexivity.
Qed.
Print Assumptions C22_read.
Theorem C22_initially_zero : forall d rx tx s ci, new_server d rx tx = Some s -> config s ci = 0.
Proof. intros d rx tx s ci H. unfold new_server in H. destruct (_ || _); [discriminate|]. injection H as <-. reflexivity. Qed.
(** A write request that is answered positively sets the configuration value of that characteristic, and of no other; one answered with an
    error leaves them all. *)
Theorem C22_write : forall d s e h a ci x y t, wf_db d -> table_ok d -> reach d s -> 0 <= h < 65536 -> attr_at d h = Some a -> a_wh a = Some (ACccd ci) ->
  exists s' p, handle s e (req_handle 18 h (x :: y :: t)) = Ret (s', Some p, []) /\
  ((p = [19] /\ config s' ci = de16 x y) \/ (p = error_pdu 18 h 14 /\ config s' ci = config s ci)) /\
  forall ci', ci_handle ci' <> ci_handle ci -> config s' ci' = config s ci'.
Proof.
  intros d s e h a ci x y t W T R Hh A WH. destruct (reach_sinv d s W T R) as (D & M & N & P). subst d.
  change (handle s e (req_handle 18 h (x :: y :: t))) with (let! (s', p, cs) := h_write s e (req_handle 18 h (x :: y :: t)) in Ret (s', Some p, cs)).
  unfold h_write. change (Nat.ltb (length (req_handle 18 h (x :: y :: t))) 3) with false. cbv iota. rewrite req_handle_h by exact Hh. cbn [gbind].
  rewrite attr_at_db by exact W. cbn [gbind]. rewrite A, req_handle_rest. cbn [gbind]. unfold att_write. rewrite WH.
  assert (CI : ci_ok ci). { unfold table_ok in T. rewrite Forall_forall in T. destruct (attr_at_in _ _ _ A) as [IA _]. exact (T a IA ci WH). }
  destruct (cccd_write_ok s ci (x :: y :: t) N CI ltac:(cbn; lia)) as (s' & st & E & _ & C). rewrite E. cbn [gbind]. exists s'. eexists. split; [reflexivity|].
  apply cccd_write_st in E. change (config s') with (fun c => ccc_of (cccs s') (ci_handle c)). change (config s) with (fun c => ccc_of (cccs s) (ci_handle c)). cbv beta. cbn [nth] in C. split.
  - rewrite C, Z.eqb_refl. destruct E as [->| ->]; [left; split; reflexivity|right; split; reflexivity].
  - intros ci' Q. rewrite C. replace (ci_handle ci' =? ci_handle ci) with false by lia. reflexivity.
Qed.
Print Assumptions C22_write.
(** Requests that are not writes to configuration descriptors leave every configuration value. *)
Theorem C22_others_leave_it : forall d s e r s' o cs ci, wf_db d -> table_ok d -> reach d s -> all_bytes r -> handle s e r = Ret (s', o, cs) ->
  (hd 0 r = 18 \/ hd 0 r = 82 -> forall h v a, 0 <= h < 65536 -> r = req_handle (hd 0 r) h v -> attr_at d h = Some a -> ~ is_cccd (a_wh a)) ->
  (hd 0 r = 24 -> forall a, prep s = Some a -> ~ is_cccd (a_wh a)) -> config s' ci = config s ci.
Proof.
  intros d s e r s' o cs ci W T R B H HW HX. destruct (reach_sinv d s W T R) as (D & M & N & P). subst d.
  destruct r as [|op t]; [injection H as <- _ _; reflexivity|]. cbn [hd] in HW, HX. unfold config.
  assert (AW : forall a v s1 st c, ~ is_cccd (a_wh a) -> att_write s e a v = Ret (s1, st, c) -> cccs s1 = cccs s).
  { intros a v s1 st c NC E. unfold att_write in E. destruct (a_wh a) as [[i|ci0]|]; [injection E as <- _ _; reflexivity| |injection E as <- _ _; reflexivity]. exfalso. apply NC. now exists ci0. }
  refine (handle_op (fun x => ccc_of (cccs (fst (fst x))) (ci_handle ci) = ccc_of (cccs s) (ci_handle ci)) s e op t _ _ _ _ _ _ _ _ _ _ _ _ _ H); cbn [fst]; try reflexivity.
  - intros _ s1 p G. apply h_mtu_inv in G. destruct G as [(-> & _)|(? & ? & _ & _ & -> & _)]; reflexivity.
  - intros -> s1 p c G. unfold h_write in G. destruct (Nat.ltb _ 3) eqn:L; [injection G as <- _ _; reflexivity|]. destruct t as [|x [|y t]]; try discriminate L. rewrite r16_1 in G. cbn [gbind] in G.
    rewrite attr_at_db in G by exact W. cbn [gbind] in G. destruct (attr_at (s_db s) (de16 x y)) as [a|] eqn:A; [|injection G as <- _ _; reflexivity].
    rewrite gfrom_ok in G by (cbn [length]; lia). cbn [gbind skipn] in G. destruct (att_write s e a t) as [[[s2 st] c2]|] eqn:E; [|discriminate]. cbn [gbind] in G. injection G as <- _ _.
    inversion B as [|? ? _ B1]; subst. inversion B1 as [|? ? Ba B2]; subst. inversion B2 as [|? ? Bb _]; subst.
    rewrite (AW a t s2 st c2); [reflexivity| |exact E]. apply (HW (or_introl eq_refl) (de16 x y) t a); [now apply de16_range|now apply req_handle_of|exact A].
  - intros -> s1 c G. unfold h_write_cmd in G. destruct (Nat.leb _ 3) eqn:L; [injection G as <- _; reflexivity|]. destruct t as [|x [|y t]]; try discriminate L. rewrite r16_1 in G. cbn [gbind] in G.
    rewrite attr_at_db in G by exact W. cbn [gbind] in G. destruct (attr_at (s_db s) (de16 x y)) as [a|] eqn:A; [|injection G as <- _; reflexivity].
    rewrite gfrom_ok in G by (cbn [length]; lia). cbn [gbind skipn] in G. destruct (att_write s e a t) as [[[s2 st] c2]|] eqn:E; [|discriminate]. cbn [gbind] in G. injection G as <- _.
    inversion B as [|? ? _ B1]; subst. inversion B1 as [|? ? Ba B2]; subst. inversion B2 as [|? ? Bb _]; subst.
    rewrite (AW a t s2 st c2); [reflexivity| |exact E]. apply (HW (or_intror eq_refl) (de16 x y) t a); [now apply de16_range|now apply req_handle_of|exact A].
  - intros -> s1 p G. unfold h_prepare in G. destruct (r16 _ 1) as [hh|]; [|discriminate]. cbn [gbind] in G. destruct (Nat.ltb _ 3); [injection G as <- _; reflexivity|].
    destruct (db_at _ _) as [[a|]|]; [| |discriminate]; cbn [gbind] in G; [|injection G as <- _; reflexivity]. destruct (a_wh a); [|injection G as <- _; reflexivity].
    destruct (gfrom _ 5); [|discriminate]. cbn [gbind] in G. destruct (r16 _ 3); [|discriminate]. cbn [gbind] in G. injection G as <- _. destruct (prep s); reflexivity.
  - intros -> s1 p c G. unfold h_execute in G. destruct (Nat.ltb _ 2); [injection G as <- _ _; reflexivity|]. destruct (gidx _ 1) as [f|]; [|discriminate]. cbn [gbind] in G.
    destruct (f =? 0); [injection G as <- _ _; reflexivity|]. destruct (f =? 1); [|injection G as <- _ _; reflexivity].
    destruct (prep s) as [a|] eqn:PS; [|discriminate]. destruct (a_wh a) eqn:WH; [|injection G as <- _ _; reflexivity].
    destruct (att_write s e a (prepdata s)) as [[[s2 st] c2]|] eqn:E; [|discriminate]. cbn [gbind] in G. injection G as <- _ _. cbn [set_prep cccs].
    rewrite (AW a (prepdata s) s2 st c2); [reflexivity| |exact E]. now apply HX.
Qed.
Print Assumptions C22_others_leave_it.
(** When the connection ends every notifier is closed. *)
Theorem C22_closed_at_end : forall d s l, wf_db d -> reach_supported d s -> cleanup s (cccs s) = Ret l -> forall n, In n l -> nt_open n = false.
Proof. intros d s l W R H. destruct (reach_rsinv d s W R) as (_ & RS & _). now apply (cleanup_closes s). Qed.
Print Assumptions C22_closed_at_end.
(** Whatever was received, every notifier ever started sends on the value handle of a characteristic of the table and runs the handler
    configured there for its kind. *)
Theorem C22_own_handler : forall d s n, wf_db d -> table_ok d -> reach d s -> In n (notifs s) ->
  exists a ci, In a (db_attrs d) /\ a_wh a = Some (ACccd ci) /\ nt_char n = ci_handle ci /\ nt_vh n = ci_vhandle ci /\ Some (nt_handler n) = (if nt_ind n then ci_ih ci else ci_nh ci).
Proof. intros d s n W T R I. pose proof (reach_ft d s W T R) as F. rewrite Forall_forall in F. exact (F n I). Qed.
Print Assumptions C22_own_handler.
Example C22_example : exists s1 s2, handle ex_s ex_e [18; 4; 0; 1; 0] = Ret (s1, Some [19], []) /\ running s1 false 2 = 1%nat /\ handle s1 ex_e [18; 4; 0; 0; 0] = Ret (s2, Some [19], []) /\ running s2 false 2 = 0%nat.
Proof. eexists _, _. repeat split; vm_compute; reflexivity. Qed.
Example C22_example_supported : asks_supported ex_db [18; 4; 0; 1; 0].
Proof.
  split.
  - intros op h x y t a ci _ Hh E A WH. assert (h = 4 /\ x = 1 /\ y = 0). { unfold req_handle, le16 in E. cbn [app] in E. injection E as _ E1 E2 -> -> _. split; [|auto]. rewrite <- (de16_le16 h Hh). rewrite <- E1, <- E2. reflexivity. }
    destruct H as (-> & -> & ->). vm_compute in A. injection A as <-. vm_compute in WH. injection WH as <-. split; vm_compute; [reflexivity|discriminate].
  - intros h t a Hh E. unfold req_handle in E. discriminate E.
Qed.
(** A client asking for both on a notify-only characteristic gets an error but leaves a running notifier; the configuration still reads 0
    and the next enabling write starts a second one. *)
Theorem C79_leak_refuted : exists s1 s2, handle ex_s ex_e [18; 4; 0; 3; 0] = Ret (s1, Some [1; 18; 4; 0; 14], []) /\ running s1 false 2 = 1%nat /\ ccc_of (cccs s1) 2 = 0 /\
  handle s1 ex_e [18; 4; 0; 1; 0] = Ret (s2, Some [19], []) /\ running s2 false 2 = 2%nat.
Proof. eexists _, _. repeat split; vm_compute; reflexivity. Qed.
Print Assumptions C79_leak_refuted.

(** ---- C23 ---- *)
Theorem C23_exchange : forall d s e m, wf_db d -> table_ok d -> reach d s -> 0 <= m < 65536 ->
  exists s' p, handle s e ([2] ++ le16 m) = Ret (s', Some p, []) /\
  (m < 23 -> s' = s /\ p = error_pdu 2 0 4) /\
  (23 <= m -> p = [3] ++ le16 515 /\ Z.of_nat (txlen s') = m /\ txlen s' = notlen s' /\ txlen s' = indlen s' /\ rxmtu s' = 515).
Proof.
  intros d s e m W T R Hm. destruct (reach_sinv d s W T R) as (D & M & _).
  change (handle s e ([2] ++ le16 m)) with (let! (s', p) := h_mtu s ([2] ++ le16 m) in Ret (s', Some p, @nil call)). unfold h_mtu.
  change (negb (Nat.eqb (length ([2] ++ le16 m)) 3)) with false. cbv iota. change (r16 ([2] ++ le16 m) 1) with (Ret (de16 (u8 m) (u8 (m / 256)))). rewrite de16_le16 by exact Hm. cbn [gbind].
  destruct (m <? 23) eqn:E; cbn [gbind].
  - eexists _, _. split; [reflexivity|]. split; [intros _; split; reflexivity|lia].
  - rewrite (ltb_false (txlen s) 3) by lia. cbn [gbind]. eexists _, _. split; [reflexivity|]. split; [lia|]. intros _. cbn [set_mtu txlen notlen indlen rxmtu]. split; [reflexivity|]. split; [lia|]. repeat split.
Qed.
Print Assumptions C23_exchange.
(** The transmit limit at any time is the client MTU of the last acceptable exchange, 23 before. *)
Theorem C23_history : forall d rx tx s0 e r s' o cs, new_server d rx tx = Some s0 -> txlen s0 = 23%nat /\
  (forall s, handle s e r = Ret (s', o, cs) -> Z.of_nat (txlen s') = mtu_after (Z.of_nat (txlen s)) r).
Proof.
  intros d rx tx s0 e r s' o cs H. split; [unfold new_server in H; destruct (_ || _); [discriminate|]; injection H as <-; reflexivity|].
  intros s E. now apply handle_env in E.
Qed.
Print Assumptions C23_history.
Example C23_example : exists s', handle ex_s ex_e [2; 185; 0] = Ret (s', Some [3; 3; 2], []) /\ txlen s' = 185%nat. Proof. eexists. split; vm_compute; reflexivity. Qed.
(** It is not capped by the server's own limit. *)
Theorem C80_not_min_refuted : exists s', handle ex_s ex_e [2; 88; 2] = Ret (s', Some ([3] ++ le16 515), []) /\ txlen s' = 600%nat. Proof. eexists. split; vm_compute; reflexivity. Qed.
Print Assumptions C80_not_min_refuted.

(** ---- C24 ---- *)
(** Notification (27) and indication (29) PDUs: opcode, handle, the longest prefix of the data that fits. *)
Theorem C24_prefix : forall op n h data, (3 <= n)%nat -> exists p k, notify_pdu op n h data = Ret p /\ p = [op] ++ le16 h ++ firstn k data /\
  (length p <= n)%nat /\ (firstn k data = data \/ length p = n).
Proof.
  intros op n h data H. unfold notify_pdu. rewrite ltb_false by exact H. eexists _, (n - 3)%nat. split; [reflexivity|]. split; [reflexivity|].
  cbn [app length]. rewrite app_length, le16_length, firstn_length. split; [lia|]. destruct (Nat.leb (length data) (n - 3)) eqn:E; [left; apply firstn_all2; lia|right; lia].
Qed.
Print Assumptions C24_prefix.
(** the buffers used have the size of the client MTU in force: never below 23 *)
Theorem C24_buffer_sizes : forall d s, wf_db d -> table_ok d -> reach d s -> (23 <= notlen s)%nat /\ notlen s = txlen s /\ indlen s = txlen s.
Proof.
  intros d s W T R. destruct (reach_sinv d s W T R) as (_ & M & _).
  assert (E : txlen s = notlen s /\ notlen s = indlen s).
  { clear M. induction R as [rx tx s H|s e r s' o cs R IH B H].
    - unfold new_server in H. destruct (_ || _); [discriminate|]. injection H as <-. split; reflexivity.
    - apply (handle_env _ _ _ _ _ _ H). exact IH. }
  lia.
Qed.
Print Assumptions C24_buffer_sizes.
(** At any time, in every interleaving of any number of callers with confirmations and timeouts, at most one indication that was sent is
    neither confirmed, timed out nor ended by the connection. *)
Theorem C24_one_outstanding : forall n t s, iruns (iinit n) t s -> 0 <= outstanding t <= 1.
Proof. exact outstanding_le_1. Qed.
Print Assumptions C24_one_outstanding.
Example C24_example : exists s, iruns (iinit 2) [ESend 0; EConfirmed 0; ESend 1] s.
Proof.
  assert (R := ir_nil (iinit 2)).
  assert (R1 := ir_step _ _ _ _ _ R (i_acquire 0 [Idle; Idle] 0 eq_refl)). assert (R2 := ir_step _ _ _ _ _ R1 (i_send 0 [Got; Idle] 0 eq_refl)).
  assert (R3 := ir_step _ _ _ _ _ R2 (i_select 0 [Sent; Idle] 0 eq_refl)). assert (R4 := ir_step _ _ _ _ _ R3 (i_confirm 0 [Waiting; Idle] 0 eq_refl)).
  assert (R5 := ir_step _ _ _ _ _ R4 (i_acquire 0 [Idle; Idle] 1 eq_refl)). assert (R6 := ir_step _ _ _ _ _ R5 (i_send 0 [Idle; Got] 1 eq_refl)).
  eexists. exact R6.
Qed.
(** A confirmation that arrives before the caller has reached its select is dropped: the peer confirmed, the caller times out. *)
Theorem C81_confirmation_lost_refuted : exists s, iruns (iinit 1) [ESend 0; EDropped; ETimeout 0] s.
Proof.
  assert (R := ir_nil (iinit 1)).
  assert (R1 := ir_step _ _ _ _ _ R (i_acquire 0 [Idle] 0 eq_refl)). assert (R2 := ir_step _ _ _ _ _ R1 (i_send 0 [Got] 0 eq_refl)).
  assert (N : ~ In Waiting (upd (upd [Idle] 0 Got) 0 Sent)) by (cbn; intros [E|[]]; discriminate E).
  assert (R3 := ir_step _ _ _ _ _ R2 (i_spurious 0 _ N)). assert (R4 := ir_step _ _ _ _ _ R3 (i_select 0 [Sent] 0 eq_refl)).
  assert (R5 := ir_step _ _ _ _ _ R4 (i_timeout 0 [Waiting] 0 eq_refl)). eexists. exact R5.
Qed.
Print Assumptions C81_confirmation_lost_refuted.
