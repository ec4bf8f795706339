(** Attribute client: C25 (requests and responses), C26 (crashes). *)
Require Import Verif.Base Verif.M_attsrv Verif.M_attcli Verif.S_attcli Verif.P_attcli Verif.P_attcli2.

Definition peer_bytes (p : peer) : Prop := forall log inc, p log = Some inc -> Forall all_bytes inc.
(** examples: a peer answering every request the same way *)
Definition always (inc : list bytes) : peer := fun _ => Some inc.
Definition ex_c : cli := new_client 23.

(** ---- C25 ---- *)
(** Every operation that expects a response: bad arguments are refused without sending anything; otherwise exactly the PDU of the operation is
    sent (Prepare Write excepted, see below), each unrelated PDU is rejected, and the result is that of the first answer; no answer is an error. *)
Theorem C25_result : forall p c o c' r, typed o -> requests o -> peer_bytes p -> run_op p c o = Ret (c', r) ->
  (~ args_ok c o /\ c' = c /\ r = CArg) \/
  (args_ok c o /\
   match p (clog c ++ [actual c o]) with
   | None => clog c' = clog c /\ r = CFail
   | Some inc => clog c' = clog c ++ [actual c o] ++ map reject (before o inc) /\
       match find (answers_op o) inc with None => r = CFail | Some rsp => result_of o rsp r end
   end).
Proof.
  intros p c o c' r T R B H.
  assert (D : args_ok c o \/ ~ args_ok c o) by (destruct o; cbn [args_ok]; lia). destruct D as [A|A].
  2:{ left. rewrite run_op_args in H by assumption. injection H as <- <-. auto. }
  right. split; [exact A|]. destruct (Nat.ltb (length (ctx c)) (length (wire o))) eqn:L; [rewrite run_op_short in H by (try assumption; lia); discriminate|].
  rewrite run_op_spec in H by (try assumption; lia).
  assert (LG : clog (announced c o) = clog c) by (destruct o; reflexivity).
  unfold after in H. rewrite LG in H. destruct (p (clog c ++ [actual c o])) as [inc|] eqn:P.
  - destruct (before_cases o inc); [|destruct o; discriminate H]. set (c1 := mkCli _ _ _ _) in H. assert (C1 : clog c1 = clog c ++ [actual c o] ++ map reject (before o inc)) by reflexivity. clearbody c1.
    destruct (find (answers_op o) inc) as [rsp|] eqn:F.
    + destruct (find_nonempty _ _ _ F) as (x & t & -> & X). assert (BT : is_byte (hd 0 t)).
      { apply find_some in F. destruct F as [F _]. assert (Q := B _ _ P). rewrite Forall_forall in Q. apply Q in F. inversion F as [|? ? _ F2]; subst. destruct F2; cbn; [unfold is_byte; lia|assumption]. }
      destruct (decode_spec o x t R BT X) as [[E _]|[_ (r0 & E & RES)]]; rewrite E in H; [destruct o; discriminate H|]. cbn [gbind] in H.
      assert (Q : clog c' = clog c1 /\ r = r0).
      { destruct o; cbn [finish] in H; try (injection H as <- <-; split; reflexivity). cbn [gbind] in H.
        destruct r0 as [[]|e| | |]; try (injection H as <- <-; split; reflexivity). destruct (_ =? _); injection H as <- <-; split; reflexivity. }
      destruct Q as [Q ->]. split; [congruence|exact RES].
    + assert (Q : c' = c1 /\ r = CFail) by (destruct o; cbn in H; injection H as <- <-; split; reflexivity). destruct Q as [-> ->]. split; [congruence|reflexivity].
  - set (c1 := mkCli _ _ _ _) in H. assert (Q : c' = c1 /\ r = CFail) by (destruct o; cbn in H; injection H as <- <-; split; reflexivity). destruct Q as [-> ->]. split; reflexivity.
Qed.
Print Assumptions C25_result.
(** All but Prepare Write send exactly the specified request. *)
Theorem C25_wire : forall c o, match o with OPrepare _ _ v => v = [] | _ => True end -> actual c o = wire o.
Proof. intros c [] H; try reflexivity. cbn [actual wire op_code]. rewrite H. reflexivity. Qed.
(** Write Command sends exactly its PDU. *)
Theorem C25_write_command : forall p c h v c' r, run_op p c (OWriteCmd h v) = Ret (c', r) ->
  (~ args_ok c (OWriteCmd h v) /\ c' = c /\ r = CArg) \/
  (args_ok c (OWriteCmd h v) /\ (p (clog c ++ [wire (OWriteCmd h v)]) = None /\ clog c' = clog c /\ r = CFail \/
                                 p (clog c ++ [wire (OWriteCmd h v)]) <> None /\ clog c' = clog c ++ [wire (OWriteCmd h v)] /\ r = COk VUnit)).
Proof.
  intros p c h v c' r H. cbn [run_op args_ok wire op_code] in *. unfold write_command in H. destruct (Z.of_nat (length v) >? cmtu c - 3) eqn:E.
  - left. injection H as <- <-. split; [lia|auto].
  - right. split; [lia|]. destruct (Nat.ltb (length (ctx c)) (3 + length v)) eqn:L; [rewrite build_panic in H by lia; discriminate|].
    rewrite (build_ok (ctx c) (3 + length v) _ (82 :: le16 h ++ v)) in H; [|lia|reflexivity|intros b Lb; rewrite (f_write 82 h v b 0) by lia; rewrite skipn_all2 by lia; now rewrite app_nil_r].
    cbn [gbind] in H. unfold send_cmd in H. destruct (p (clog c ++ [82 :: le16 h ++ v])) as [i|] eqn:P; cbn in H; injection H as <- <-; [right; split; [intro X; change (p (clog c ++ [82 :: le16 h ++ v]) = None) in X; congruence|split; reflexivity]|left; split; [exact P|split; reflexivity]].
Qed.
Print Assumptions C25_write_command.
Example C25_example : exists c', run_op (always [[28]; [11; 1; 2; 3]]) ex_c (ORead 7) = Ret (c', COk (VBytes [1; 2; 3])) /\ clog c' = [[10; 7; 0]; [1; 28; 0; 0; 6]].
Proof. eexists. split; vm_compute; reflexivity. Qed.
Example C25_example_error : exists c', run_op (always [[1; 18; 9; 0; 3]]) ex_c (OWrite 9 [1]) = Ret (c', CAtt 3). Proof. eexists. vm_compute. reflexivity. Qed.
Example C25_example_list : exists c', run_op (always [[17; 6; 1; 0; 5; 0; 0; 24]]) ex_c (OReadByGroup 1 65535 [0; 40]) = Ret (c', COk (VList 6 [1; 0; 5; 0; 0; 24])). Proof. eexists. vm_compute. reflexivity. Qed.
(** Prepare Write does not send the value: zeros of a new buffer, or bytes of an earlier request. *)
Theorem C82_prepare_value_refuted : exists c', run_op (always [[23; 7; 0; 0; 0; 1; 2; 3]]) ex_c (OPrepare 7 0 [1; 2; 3]) = Ret (c', COk (VPrep 7 0 [1; 2; 3])) /\
  clog c' = [[22; 7; 0; 0; 0; 0; 0; 0]] /\ wire (OPrepare 7 0 [1; 2; 3]) = [22; 7; 0; 0; 0; 1; 2; 3].
Proof. eexists. split; [|split]; vm_compute; reflexivity. Qed.
Print Assumptions C82_prepare_value_refuted.
Theorem C82_prepare_leaks_refuted : exists c1 c2, run_op (always [[19]]) ex_c (OWrite 9 [41; 42; 43; 44; 45]) = Ret (c1, COk VUnit) /\
  run_op (always [[23; 7; 0; 0; 0]]) c1 (OPrepare 7 0 [1; 2; 3]) = Ret (c2, COk (VPrep 7 0 [])) /\ clog c2 = [[18; 9; 0; 41; 42; 43; 44; 45]; [22; 7; 0; 0; 0; 43; 44; 45]].
Proof. eexists _, _. split; [|split]; vm_compute; reflexivity. Qed.
Print Assumptions C82_prepare_leaks_refuted.
(** Signed Write overwrites the value by the signature. *)
Theorem C82_signed_value_refuted : exists c', run_op (always []) ex_c (OSigned 7 [1; 2] (repeat 170 12)) = Ret (c', COk VUnit) /\
  clog c' = [[210; 7; 0] ++ repeat 170 12 ++ [0; 0]] /\ wire (OSigned 7 [1; 2] (repeat 170 12)) = [210; 7; 0; 1; 2] ++ repeat 170 12.
Proof. eexists. split; [|split]; vm_compute; reflexivity. Qed.
Print Assumptions C82_signed_value_refuted.
(** A Write Response with a body, and an unknown Find Information format, are accepted. *)
Theorem C83_write_length_refuted : exists c', run_op (always [[19; 1; 2; 3]]) ex_c (OWrite 9 [1]) = Ret (c', COk VUnit). Proof. eexists. vm_compute. reflexivity. Qed.
Theorem C83_format_refuted : exists c', run_op (always [[5; 9; 1; 0; 2; 3; 4]]) ex_c (OFindInfo 1 9) = Ret (c', COk (VList 9 [1; 0; 2; 3; 4])). Proof. eexists. vm_compute. reflexivity. Qed.
Print Assumptions C83_write_length_refuted.
Print Assumptions C83_format_refuted.

(** ---- C26 ---- *)
(** Exactly when an operation panics. *)
Theorem C26_crashes_exactly_when : forall p c o, typed o -> peer_bytes p -> (run_op p c o = Panic <-> crash p c o).
Proof.
  intros p c o T B. assert (D : args_ok c o \/ ~ args_ok c o) by (destruct o; cbn [args_ok]; lia). destruct D as [A|A].
  2:{ rewrite run_op_args by assumption. split; [discriminate|]. intros [A' _]. contradiction. }
  assert (G : requests o -> run_op p c o = Panic <-> (length (ctx c) < length (wire o))%nat \/
     exists inc, p (clog c ++ [actual c o]) = Some inc /\ (In [] (before o inc) \/ exists rsp, find (answers_op o) inc = Some rsp /\ zero_entries o rsp)).
  { intro R. destruct (Nat.ltb (length (ctx c)) (length (wire o))) eqn:L.
    { rewrite run_op_short by (try assumption; lia). split; [intros _; left; lia|reflexivity]. }
    rewrite run_op_spec by (try assumption; lia).
    assert (LG : clog (announced c o) = clog c) by (destruct o; reflexivity).
    assert (FP : forall x, finish o x = Panic <-> x = Panic).
    { intro x. destruct o; cbn [finish]; try reflexivity. destruct x as [[c1 [[]|e| | |]]|]; cbn [gbind]; try (split; [discriminate|intro Q; discriminate Q]); [|tauto]. destruct (_ =? _); split; discriminate. }
    rewrite FP. unfold after. rewrite LG. destruct (p (clog c ++ [actual c o])) as [inc|] eqn:P.
    - destruct (before_cases o inc) as [F|F].
      + assert (NI : ~ In [] (before o inc)) by (intro I; rewrite Forall_forall in F; apply F in I; now apply I).
        destruct (find (answers_op o) inc) as [rsp|] eqn:FD.
        * destruct (find_nonempty _ _ _ FD) as (x & t & -> & X). assert (BT : is_byte (hd 0 t)).
          { apply find_some in FD. destruct FD as [FD _]. assert (Q := B _ _ P). rewrite Forall_forall in Q. apply Q in FD. inversion FD as [|? ? _ F2]; subst. destruct F2; cbn; [unfold is_byte; lia|assumption]. }
          destruct (decode_spec o x t R BT X) as [[E Z]|[Z (r0 & E & _)]]; rewrite E; cbn [gbind].
          -- split; [intros _; right; exists inc; split; [reflexivity|]; right; eauto|reflexivity].
          -- split; [discriminate|]. intros [C|(i & I & [C|(rsp & C & ZZ)])]; [lia|injection I as <-; contradiction|injection I as <-; rewrite FD in C; injection C as <-; contradiction].
        * split; [discriminate|]. intros [C|(i & I & [C|(rsp & C & ZZ)])]; [lia|injection I as <-; contradiction|injection I as <-; rewrite FD in C; discriminate].
      + split; [intros _; right; exists inc; auto|reflexivity].
    - split; [discriminate|]. intros [C|(i & I & _)]; [lia|discriminate]. }
  unfold crash. destruct o; try (rewrite (G I); tauto).
  - cbn [run_op args_ok] in *. unfold write_command. replace (Z.of_nat (length v) >? cmtu c - 3) with false by lia. destruct (Nat.ltb (length (ctx c)) (3 + length v)) eqn:L.
    + rewrite build_panic by lia. cbn. split; [intros _; split; [exact A|lia]|reflexivity].
    + rewrite (build_ok (ctx c) (3 + length v) _ (82 :: le16 h ++ v)); [|lia|reflexivity|intros b Lb; rewrite (f_write 82 h v b 0) by lia; rewrite skipn_all2 by lia; now rewrite app_nil_r].
      cbn [gbind]. unfold send_cmd. clear G. destruct (p _); cbn; (split; [discriminate|lia]).
  - cbn [run_op args_ok typed] in *. unfold signed_write. replace (Z.of_nat (length v) >? cmtu c - 15) with false by lia. destruct (Nat.ltb (length (ctx c)) (15 + length v)) eqn:L.
    + rewrite build_panic by lia. cbn. split; [intros _; split; [exact A|lia]|reflexivity].
    + unfold build. rewrite gslice_ok by lia. cbn [gbind]. assert (F := f_write 210 h v (firstn (15 + length v - 0) (skipn 0 (ctx c))) 12 ltac:(rewrite firstn_length, skipn_length; lia)).
      destruct (put8 0 210 _) as [b1|]; [cbn [gbind] in *|discriminate]. destruct (put16 1 h b1) as [b2|]; [cbn [gbind] in *|discriminate]. rewrite F. cbn [gbind].
      unfold putn. rewrite (proj2 (Nat.leb_le _ _)) by (cbn [length]; rewrite app_length, le16_length; lia). cbn [gbind]. unfold send_cmd. clear G; destruct (p _); unfold cmap; cbn [gbind]; (split; [intro Q; discriminate Q|intros [_ Q]; lia]).
  - cbn [run_op]. unfold execute_write, transact, build, gslice. split; [intros _; tauto|intros _].
    destruct (ctx c) as [|x t]; [reflexivity|]. reflexivity.
Qed.
Print Assumptions C26_crashes_exactly_when.
(** So, with a peer that never announces an MTU below 23, never sends empty PDUs and no entries of length 0, no operation but Execute Write panics. *)
Lemma creach_fits : forall c, creach c -> Z.of_nat (length (ctx c)) = cmtu c /\ 23 <= cmtu c.
Proof.
  intros c H. induction H as [m M|c p o c' r H IH R V].
  - cbn [new_client ctx cmtu]. rewrite repeat_length. lia.
  - destruct IH as [F M].
    assert (TR : forall A n f (ok : bytes -> go (cres A)) p c c' r, transact p c n f ok = Ret (c', r) -> (forall b b', f b = Ret b' -> length b' = length b) -> length (ctx c') = length (ctx c) /\ cmtu c' = cmtu c).
    { clear. intros A n f ok p c c' r H K. unfold transact in H. destruct (build (ctx c) n f) as [[req tx']|] eqn:E; [|discriminate]. cbn [gbind] in H.
      assert (L : length tx' = length (ctx c)).
      { unfold build in E. unfold gslice in E. destruct (Nat.leb 0 n && Nat.leb n (length (ctx c)))%bool eqn:G; [|discriminate]. cbn [gbind] in E. destruct (f _) as [b'|] eqn:FE; [|discriminate]. cbn [gbind] in E. injection E as <- <-.
        apply K in FE. rewrite app_length, FE, firstn_length, skipn_length, skipn_length. lia. }
      unfold send_req in H. destruct (gidx req 0) as [op|]; [|discriminate]. cbn [gbind] in H. destruct (p (clog c ++ [req])) as [inc|].
      - destruct (await op inc _) as [[l' r']|]; [|discriminate]. cbn [gbind] in H. destruct r' as [b|]; [|injection H as <- _; cbn; auto]. destruct (check b ok) as [x|]; [|discriminate]. cbn [gbind] in H. injection H as <- _. cbn. auto.
      - cbn [gbind] in H. injection H as <- _. cbn. auto. }
    assert (SC : forall c n f p c' r, (let! (req, tx') := build (ctx c) n f in send_cmd p c tx' req) = Ret (c', r) -> (forall b b', f b = Ret b' -> length b' = length b) -> length (ctx c') = length (ctx c) /\ cmtu c' = cmtu c).
    { clear. intros c n f p c' r H K. unfold build, gslice in H. destruct (Nat.leb 0 n && Nat.leb n (length (ctx c)))%bool eqn:G; [|discriminate]. cbn [gbind] in H. destruct (f _) as [b'|] eqn:FE; [|discriminate]. cbn [gbind] in H.
      apply K in FE. unfold send_cmd in H. destruct (p _); injection H as <- _; cbn [ctx cmtu]; rewrite app_length, FE, firstn_length, !skipn_length; lia. }
    assert (CM : forall A (f : A -> cval) x c' r, cmap f x = Ret (c', r) -> exists r0, x = Ret (c', r0) /\ r = lift f r0).
    { clear. intros A f [[c1 r1]|] c' r H; [|discriminate]. cbn in H. injection H as <- <-. now exists r1. }
    destruct o; cbn [run_op] in R; apply CM in R; destruct R as (r0 & R & ->).
    + unfold exchange_mtu in R. destruct (_ || _); [injection R as <- _; auto|]. set (c0 := mkCli _ _ _ _) in R. destruct (transact p c0 _ _ _) as [[c1 r1]|] eqn:E; [|discriminate]. cbn [gbind] in R.
      apply TR in E; [|lens]. change (length (ctx c0)) with (length (ctx c)) in E. change (cmtu c0) with (cmtu c) in E. destruct r1 as [v|e| | |]; try (injection R as <- _; lia).
      destruct (Z.of_nat (length (ctx c1)) =? v) eqn:Q; injection R as <- <-; [lia|]. cbn [ctx cmtu]. specialize (V v eq_refl). rewrite repeat_length. lia.
    + unfold find_information in R. destruct (_ || _); [injection R as <- _; auto|]. apply TR in R; [lia|lens].
    + unfold read_by_type in R. destruct (_ || _); [injection R as <- _; auto|]. apply TR in R; [lia|lens].
    + unfold read in R. apply TR in R; [lia|lens].
    + unfold read_blob in R. apply TR in R; [lia|lens].
    + unfold read_multiple in R. destruct (_ || _); [injection R as <- _; auto|]. apply TR in R; [lia|lens].
    + unfold read_by_group_type in R. destruct (_ || _); [injection R as <- _; auto|]. apply TR in R; [lia|lens].
    + unfold write in R. destruct (_ >? _); [injection R as <- _; auto|]. apply TR in R; [lia|lens].
    + unfold write_command in R. destruct (_ >? _); [injection R as <- _; auto|]. apply SC in R; [lia|lens].
    + unfold signed_write in R. destruct (_ >? _); [injection R as <- _; auto|]. apply SC in R; [lia|lens].
    + unfold prepare_write in R. destruct (_ >? _); [injection R as <- _; auto|]. apply TR in R; [lia|lens].
    + unfold execute_write in R. apply TR in R; [lia|lens].
Qed.
Theorem C26_no_crash_partial : forall p c o, creach c -> typed o -> peer_bytes p -> (forall f, o <> OExecute f) ->
  (forall log inc r, p log = Some inc -> In r inc -> r <> [] /\ ~ zero_entries o r) -> exists x, run_op p c o = Ret x.
Proof.
  intros p c o C T B NE OK. destruct (run_op p c o) as [x|] eqn:E; [eauto|]. exfalso. destruct (creach_fits c C) as [F M].
  apply C26_crashes_exactly_when in E; [|assumption|assumption]. destruct E as [A E].
  assert (G : ~ ((length (ctx c) < length (wire o))%nat \/ exists inc, p (clog c ++ [actual c o]) = Some inc /\ (In [] (before o inc) \/ exists rsp, find (answers_op o) inc = Some rsp /\ zero_entries o rsp))).
  { intros [L|(inc & P & [I|(rsp & FD & Z)])].
    - rewrite wire_len in L. destruct o; cbn [args_ok] in A; try lia; now apply (NE f).
    - refine (proj1 (OK _ _ [] P _) eq_refl). clear - I. induction inc as [|r t IH]; [destruct I|]. cbn [before] in I. destruct (answers_op o r); [destruct I|]. destruct I as [I|I]; [now left|right; now apply IH].
    - apply find_some in FD. destruct FD as [FD _]. exact (proj2 (OK _ _ rsp P FD) Z). }
  destruct o; try (apply G; exact E); cbn [args_ok] in A; try lia. now apply (NE f).
Qed.
Print Assumptions C26_no_crash_partial.
Example C26_example : creach ex_c /\ exists c' , run_op (always [[9; 4; 3; 0; 1; 2]]) ex_c (OReadByType 1 9 [3; 40]) = Ret (c', COk (VList 4 [3; 0; 1; 2])).
Proof. split; [apply cr_new; lia|]. eexists. vm_compute. reflexivity. Qed.
(** Witnesses: entries of length 0, an empty PDU, Execute Write, an MTU response below 3, and the peer raising the connection's MTU. *)
Theorem C26_zero_length_refuted : run_op (always [[9; 0; 1; 2]]) ex_c (OReadByType 1 9 [3; 40]) = Panic /\ run_op (always [[17; 0; 1; 2]]) ex_c (OReadByGroup 1 9 [0; 40]) = Panic.
Proof. split; vm_compute; reflexivity. Qed.
Theorem C26_execute_refuted : forall p c f, run_op p c (OExecute f) = Panic.
Proof. intros p c f. cbn [run_op]. unfold execute_write, transact, build, gslice. destruct (ctx c) as [|x t]; reflexivity. Qed.
Theorem C26_small_mtu_refuted : exists c', run_op (always [[3; 0; 0]]) ex_c (OMtu 515) = Ret (c', COk (VMtu 0)) /\ forall p h, run_op p c' (ORead h) = Panic.
Proof. eexists. split; [vm_compute; reflexivity|]. intros p h. reflexivity. Qed.
(** the server side of the same connection sets the connection's MTU (server.go:234) but not the client's buffer *)
Theorem C26_peer_mtu_refuted : forall p, run_op p (mkCli (ctx ex_c) 100 23 []) (OWrite 9 (repeat 1 40)) = Panic.
Proof. intro p. vm_compute. reflexivity. Qed.
Print Assumptions C26_zero_length_refuted.
Print Assumptions C26_execute_refuted.
Print Assumptions C26_small_mtu_refuted.
Print Assumptions C26_peer_mtu_refuted.
