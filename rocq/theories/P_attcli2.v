(** Every operation in one form: arguments, request, answer. *)
Require Import Verif.Base Verif.M_attsrv Verif.M_attcli Verif.S_attcli Verif.P_attcli.

Definition lift {A} (f : A -> cval) (r : cres A) : cres cval :=
  match r with COk a => COk (f a) | CAtt e => CAtt e | CArg => CArg | CInvalid => CInvalid | CFail => CFail end.
Lemma cmap_after : forall A (f : A -> cval) p c o req tx' k,
  cmap f (after p c o req tx' k) = after p c o req tx' (fun r => let! x := k r in Ret (lift f x)).
Proof.
  intros A f p c o req tx' k. unfold cmap, after. destruct (p (clog c ++ [req])) as [inc|]; [|reflexivity]. destruct (before_cases o inc); [|reflexivity].
  destruct (find (answers_op o) inc) as [r|]; [|reflexivity]. destruct (k r) as [x|]; [|reflexivity]. destruct x; reflexivity.
Qed.
Definition decode (o : cop) (r : bytes) : go (cres cval) :=
  match o with
  | OMtu _ => let! x := check r (fun r => if negb (Nat.eqb (length r) 3) then Ret CInvalid else let! v := r16 r 1 in Ret (COk v)) in Ret (lift VMtu x)
  | OFindInfo _ _ => let! x := check r (fun r => if Nat.ltb (length r) 6 then Ret CInvalid else
       let! f := gidx r 1 in
       if (f =? 1) && negb (Nat.eqb ((length r - 2) mod 4) 0) then Ret CInvalid
       else if (f =? 2) && negb (Nat.eqb ((length r - 2) mod 18) 0) then Ret CInvalid
       else let! d := gfrom r 2 in Ret (COk (f, d))) in Ret (lift (fun x => VList (fst x) (snd x)) x)
  | OReadByType _ _ _ | OReadByGroup _ _ _ => let! x := check r data_list in Ret (lift (fun x => VList (fst x) (snd x)) x)
  | ORead _ | OReadBlob _ _ | OReadMultiple _ => let! x := check r (fun r => let! v := gfrom r 1 in Ret (COk v)) in Ret (lift VBytes x)
  | OPrepare _ _ _ => let! x := check r (fun r => if Nat.ltb (length r) 5 then Ret CInvalid else
       let! h' := r16 r 1 in let! o' := r16 r 3 in let! d := gfrom r 5 in Ret (COk (h', o', d))) in Ret (lift (fun x => VPrep (fst (fst x)) (snd (fst x)) (snd x)) x)
  | _ => let! x := check r (fun _ => Ret (COk tt)) in Ret (lift (fun _ => VUnit) x)
  end.
Definition announced (c : cli) (o : cop) : cli := match o with OMtu m => mkCli (ctx c) (cmtu c) m (clog c) | _ => c end.
Definition finish (o : cop) (x : go (cli * cres cval)) : go (cli * cres cval) :=
  match o with
  | OMtu _ => let! (c', r) := x in
      match r with COk (VMtu v) => if Z.of_nat (length (ctx c')) =? v then Ret (c', r) else Ret (mkCli (repeat 0 (Z.to_nat v)) v (cserved c') (clog c'), r) | _ => Ret (c', r) end
  | _ => x
  end.
Lemma wire_len : forall o, length (wire o) = match o with OMtu _ | ORead _ => 3 | OFindInfo _ _ | OReadBlob _ _ => 5 | OReadByType _ _ u | OReadByGroup _ _ u => 5 + length u
  | OReadMultiple hs => 1 + length hs * 2 | OWrite _ v | OWriteCmd _ v => 3 + length v | OSigned _ v s => 3 + length v + length s | OPrepare _ _ v => 5 + length v | OExecute _ => 2 end%nat.
Proof. intros []; cbn [wire length]; rewrite ?app_length, ?le16_length, ?flat_le16_length; lia. Qed.

Lemma run_op_spec : forall p c o, requests o -> args_ok c o -> (length (wire o) <= length (ctx c))%nat ->
  run_op p c o = finish o (after p (announced c o) o (actual c o) (actual c o ++ skipn (length (wire o)) (ctx c)) (decode o)).
Proof.
  intros p c o R A L. rewrite wire_len in *. destruct o; try contradiction; cbn [run_op finish announced actual wire op_code decode args_ok] in *.
  - unfold exchange_mtu. rewrite (proj2 (orb_false_iff _ _)) by lia. rewrite (transact_spec _ p (mkCli (ctx c) (cmtu c) m (clog c)) _ _ _ (OMtu m) (le16 m) _ (build_ok _ 3 _ (2 :: le16 m) L eq_refl (f_mtu 2 m))) by reflexivity.
    match goal with |- context [after ?p ?c ?o ?q ?t (fun r => check r ?ok)] => assert (E : after p c o q t (decode (OMtu m)) = cmap VMtu (after p c o q t (fun r => check r ok))) by (symmetry; apply cmap_after) end.
    cbn [op_code] in E. match goal with |- _ = gbind ?x _ => replace x with (cmap VMtu (after p (mkCli (ctx c) (cmtu c) m (clog c)) (OMtu m) (2 :: le16 m) ((2 :: le16 m) ++ skipn 3 (ctx c)) (fun r => check r (fun r0 => if negb (Nat.eqb (length r0) 3) then Ret CInvalid else let! v := r16 r0 1 in Ret (COk v))))) by (symmetry; exact E) end. clear E. cbn [op_code ctx]. destruct (after _ _ _ _ _ _) as [[c' [v|e| | |]]|]; cbn; try reflexivity. destruct (Z.of_nat (length (ctx c')) =? v); reflexivity.
  - unfold find_information. rewrite (proj2 (orb_false_iff _ _)) by lia.
    rewrite (transact_spec _ _ _ _ _ _ (OFindInfo st en) (le16 st ++ le16 en) _ (build_ok _ 5 _ (4 :: le16 st ++ le16 en) L eq_refl (fun b H => eq_trans (f_range 4 st en b 0 H) ltac:(rewrite skipn_all2 by lia; rewrite app_nil_r; reflexivity)))) by reflexivity.
    apply cmap_after.
  - unfold read_by_type. rewrite (proj2 (orb_false_iff _ _)) by (unfold uuid_len_ok; lia).
    rewrite (transact_spec _ _ _ _ _ _ (OReadByType st en u) (le16 st ++ le16 en ++ u) _ (build_ok _ _ _ (8 :: le16 st ++ le16 en ++ u) L eq_refl (f_range_u 8 st en u))) by reflexivity. apply cmap_after.
  - unfold read. rewrite (transact_spec _ _ _ _ _ _ (ORead h) (le16 h) _ (build_ok _ 3 _ (10 :: le16 h) L eq_refl (f_mtu 10 h))) by reflexivity. apply cmap_after.
  - unfold read_blob.
    rewrite (transact_spec _ _ _ _ _ _ (OReadBlob h off) (le16 h ++ le16 off) _ (build_ok _ 5 _ (12 :: le16 h ++ le16 off) L eq_refl (fun b H => eq_trans (f_range 12 h off b 0 H) ltac:(rewrite skipn_all2 by lia; rewrite app_nil_r; reflexivity)))) by reflexivity.
    apply cmap_after.
  - unfold read_multiple. rewrite (proj2 (orb_false_iff _ _)) by lia.
    rewrite (transact_spec _ _ _ _ _ _ (OReadMultiple hs) (flat_map le16 hs) _ (build_ok _ _ _ (14 :: flat_map le16 hs) L ltac:(cbn [length]; rewrite flat_le16_length; lia) (f_multi hs))) by reflexivity. apply cmap_after.
  - unfold read_by_group_type. rewrite (proj2 (orb_false_iff _ _)) by (unfold uuid_len_ok; lia).
    rewrite (transact_spec _ _ _ _ _ _ (OReadByGroup st en u) (le16 st ++ le16 en ++ u) _ (build_ok _ _ _ (16 :: le16 st ++ le16 en ++ u) L eq_refl (f_range_u 16 st en u))) by reflexivity. apply cmap_after.
  - unfold write. replace (Z.of_nat (length v) >? cmtu c - 3) with false by lia.
    rewrite (transact_spec _ _ _ _ _ _ (OWrite h v) (le16 h ++ v) _ (build_ok _ _ _ (18 :: le16 h ++ v) L eq_refl (fun b H => eq_trans (f_write 18 h v b 0 ltac:(lia)) ltac:(rewrite skipn_all2 by lia; rewrite app_nil_r; reflexivity)))) by reflexivity. apply cmap_after.
  - unfold prepare_write. replace (Z.of_nat (length v) >? cmtu c - 5) with false by lia.
    assert (B : build (ctx c) (5 + length v) (fun b => let! b := put8 0 22 b in let! b := put16 1 h b in put16 3 off b) = Ret (22 :: le16 h ++ le16 off ++ firstn (length v) (skipn 5 (ctx c)), (22 :: le16 h ++ le16 off ++ firstn (length v) (skipn 5 (ctx c))) ++ skipn (5 + length v) (ctx c))).
    { unfold build. rewrite gslice_ok by lia. cbn [gbind]. rewrite Nat.sub_0_r. change (skipn 0 (ctx c)) with (ctx c).
      rewrite (f_range 22 h off _ (length v)) by (rewrite firstn_length; lia). cbn [gbind]. rewrite skipn_firstn_comm. replace (5 + length v - 5)%nat with (length v) by lia. reflexivity. }
    rewrite (transact_spec _ _ _ _ _ _ (OPrepare h off v) _ _ B) by reflexivity. apply cmap_after.
Qed.
Lemma run_op_args : forall p c o, typed o -> ~ args_ok c o -> run_op p c o = Ret (c, CArg).
Proof.
  intros p c o T A. destruct o; cbn [run_op args_ok typed] in *; try (exfalso; apply A; exact I).
  - unfold exchange_mtu. replace ((m <? 23) || (m >? 515)) with true by lia. reflexivity.
  - unfold find_information. replace ((st =? 0) || (st >? en)) with true by lia. reflexivity.
  - unfold read_by_type, uuid_len_ok. replace ((st >? en) || negb _) with true by lia. reflexivity.
  - unfold read_multiple. replace (Nat.ltb _ _ || _) with true by lia. reflexivity.
  - unfold read_by_group_type, uuid_len_ok. replace ((st >? en) || negb _) with true by lia. reflexivity.
  - unfold write. replace (_ >? _) with true by lia. reflexivity.
  - unfold write_command. replace (_ >? _) with true by lia. reflexivity.
  - unfold signed_write. replace (_ >? _) with true by lia. reflexivity.
  - unfold prepare_write. replace (_ >? _) with true by lia. reflexivity.
Qed.
Lemma run_op_short : forall p c o, requests o -> args_ok c o -> (length (ctx c) < length (wire o))%nat -> run_op p c o = Panic.
Proof.
  intros p c o R A L. rewrite wire_len in L. destruct o; try contradiction; cbn [run_op args_ok] in *.
  - unfold exchange_mtu. rewrite (proj2 (orb_false_iff _ _)) by lia. rewrite transact_panic by exact L. reflexivity.
  - unfold find_information. rewrite (proj2 (orb_false_iff _ _)) by lia. rewrite transact_panic by exact L. reflexivity.
  - unfold read_by_type. rewrite (proj2 (orb_false_iff _ _)) by (unfold uuid_len_ok; lia). rewrite transact_panic by exact L. reflexivity.
  - unfold read. rewrite transact_panic by exact L. reflexivity.
  - unfold read_blob. rewrite transact_panic by exact L. reflexivity.
  - unfold read_multiple. rewrite (proj2 (orb_false_iff _ _)) by lia. rewrite transact_panic by exact L. reflexivity.
  - unfold read_by_group_type. rewrite (proj2 (orb_false_iff _ _)) by (unfold uuid_len_ok; lia). rewrite transact_panic by exact L. reflexivity.
  - unfold write. replace (_ >? _) with false by lia. rewrite transact_panic by exact L. reflexivity.
  - unfold prepare_write. replace (_ >? _) with false by lia. rewrite transact_panic by exact L. reflexivity.
Qed.
(** responses *)
Lemma check_op : forall A r (ok : bytes -> go (cres A)) x t, r = x :: t -> x <> 1 -> check r ok = ok r.
Proof. intros A r ok x t -> N. unfold check. cbn [gidx nth_error gbind]. replace (x =? 1) with false by lia. reflexivity. Qed.
Lemma check_err : forall A r (ok : bytes -> go (cres A)) t, r = 1 :: t -> check r ok = match r with [_; _; _; _; e] => Ret (CAtt e) | _ => Ret CInvalid end.
Proof. intros A r ok t ->. unfold check. cbn [gidx nth_error gbind]. destruct t as [|a [|b [|d [|e [|f t]]]]]; reflexivity. Qed.
Lemma decode_err : forall o t, decode o (1 :: t) = match t with [_; _; _; e] => Ret (CAtt e) | _ => Ret CInvalid end.
Proof.
  intros o t. unfold decode. destruct o; rewrite (check_err _ _ _ t eq_refl); destruct t as [|? [|? [|? [|? [|? ?]]]]]; reflexivity.
Qed.
Lemma mod_mult : forall n k, (0 < k)%nat -> (n mod k = 0)%nat -> exists j, (n = k * j)%nat.
Proof. intros n k H E. exists (n / k)%nat. rewrite (Nat.div_mod n k) at 1 by lia. lia. Qed.
Lemma mult_mod : forall n k j, (0 < k)%nat -> (n = k * j)%nat -> (n mod k = 0)%nat.
Proof. intros n k j H ->. rewrite Nat.mul_comm. apply Nat.mod_mul. lia. Qed.
Ltac notdec := right; right; right; split; [cbn; lia|]; split; [|reflexivity].
Ltac isdec := right; right; left; split; [cbn; lia|]; eexists; split; [|reflexivity].
Lemma decode_spec : forall o x t, requests o -> is_byte (hd 0 t) -> x = 1 \/ x = op_code o + 1 ->
  (decode o (x :: t) = Panic /\ zero_entries o (x :: t)) \/ (~ zero_entries o (x :: t) /\ exists r, decode o (x :: t) = Ret r /\ result_of o (x :: t) r).
Proof.
  intros o x t R B [-> | ->].
  - right. split; [destruct o; cbn; try tauto; intros (d & E & _); discriminate|]. rewrite decode_err. destruct t as [|a [|b [|d [|e [|f t]]]]]; eexists; (split; [reflexivity|]);
      try (right; left; split; [reflexivity|]; split; [discriminate|reflexivity]). left. now exists a, b, d, e.
  - assert (D : forall k, (forall v, ~ decodes o (op_code o + 1 :: t) v) -> k = CInvalid -> result_of o (op_code o + 1 :: t) k).
    { intros k N ->. right; right; right. split; [destruct o; cbn; lia|]. split; [exact N|reflexivity]. }
    assert (Y : forall v, decodes o (op_code o + 1 :: t) v -> result_of o (op_code o + 1 :: t) (COk v)).
    { intros v H. right; right; left. split; [destruct o; cbn; lia|]. now exists v. }
    destruct o; try contradiction; cbn [decode op_code] in *; rewrite (check_op _ _ _ _ t eq_refl) by lia.
    + right. split; [cbn; tauto|]. destruct t as [|a [|b [|z t]]]; (eexists; split; [reflexivity|]);
        try (apply D; [intros v (a' & b' & E & _); discriminate|reflexivity]). apply Y. now exists a, b.
    + right. split; [cbn; tauto|]. destruct (Nat.ltb (length (4 + 1 :: t)) 6) eqn:L.
      { eexists. split; [reflexivity|]. apply D; [|reflexivity]. intros v (f & d & E & _ & L2 & _). injection E as ->. cbn [length] in L. lia. }
      destruct t as [|f d]; [discriminate|]. cbn [gidx nth_error gbind]. replace (length ((4 + 1)%Z :: f :: d) - 2)%nat with (length d) by (cbn [length]; lia).
      destruct ((f =? 1) && negb (Nat.eqb (length d mod 4) 0)) eqn:E1.
      { eexists. split; [reflexivity|]. apply D; [|reflexivity]. intros v (f' & d' & E & _ & _ & M & _). injection E as <- <-. destruct (M ltac:(lia)) as [k K]. apply mult_mod in K; [|lia]. lia. }
      destruct ((f =? 2) && negb (Nat.eqb (length d mod 18) 0)) eqn:E2.
      { eexists. split; [reflexivity|]. apply D; [|reflexivity]. intros v (f' & d' & E & _ & _ & _ & M). injection E as <- <-. destruct (M ltac:(lia)) as [k K]. apply mult_mod in K; [|lia]. lia. }
      eexists. split; [reflexivity|]. apply Y. exists f, d. split; [reflexivity|]. split; [reflexivity|]. cbn [length] in L. split; [lia|].
      split; intros ->; apply mod_mult; lia.
    + unfold data_list. destruct (Nat.ltb (length (8 + 1 :: t)) 4) eqn:L.
      { right. split; [intros (d & E & L2); injection E as ->; cbn [length] in L; lia|]. eexists. split; [reflexivity|]. apply D; [|reflexivity]. intros v (l & d & k & E & _ & L2 & _). injection E as ->. cbn [length] in L. lia. }
      destruct t as [|l d]; [discriminate|]. cbn [length] in L. cbn [gidx nth_error gbind gfrom length Nat.leb skipn hd] in *. unfold is_byte in B. destruct (Z.to_nat l) as [|k] eqn:K.
      { left. split; [reflexivity|]. exists d. split; [repeat f_equal; lia|lia]. }
      right. split; [intros (d' & E & _); injection E as -> ->; discriminate|]. unfold gmod. cbn [gbind]. destruct (negb (Nat.eqb (length d mod S k) 0)) eqn:E.
      * eexists. split; [reflexivity|]. apply D; [|reflexivity]. intros v (l' & d' & k' & E' & _ & L2 & K0 & M). injection E' as <- <-.
        assert (Q : (length d = S k * k')%nat) by (rewrite <- K; nia). apply mult_mod in Q; lia.
      * eexists. split; [reflexivity|]. apply Y. assert (Q := mod_mult (length d) (S k) ltac:(lia) ltac:(lia)). destruct Q as [j Q]. exists l, d, j. split; [reflexivity|]. split; [reflexivity|]. split; [lia|]. split; [|rewrite <- K in Q; nia]. destruct j; lia.
    + right. split; [cbn; tauto|]. eexists. split; [reflexivity|]. apply Y. now exists t.
    + right. split; [cbn; tauto|]. eexists. split; [reflexivity|]. apply Y. now exists t.
    + right. split; [cbn; tauto|]. eexists. split; [reflexivity|]. apply Y. now exists t.
    + unfold data_list. destruct (Nat.ltb (length (16 + 1 :: t)) 4) eqn:L.
      { right. split; [intros (d & E & L2); injection E as ->; cbn [length] in L; lia|]. eexists. split; [reflexivity|]. apply D; [|reflexivity]. intros v (l & d & k & E & _ & L2 & _). injection E as ->. cbn [length] in L. lia. }
      destruct t as [|l d]; [discriminate|]. cbn [length] in L. cbn [gidx nth_error gbind gfrom length Nat.leb skipn hd] in *. unfold is_byte in B. destruct (Z.to_nat l) as [|k] eqn:K.
      { left. split; [reflexivity|]. exists d. split; [repeat f_equal; lia|lia]. }
      right. split; [intros (d' & E & _); injection E as -> ->; discriminate|]. unfold gmod. cbn [gbind]. destruct (negb (Nat.eqb (length d mod S k) 0)) eqn:E.
      * eexists. split; [reflexivity|]. apply D; [|reflexivity]. intros v (l' & d' & k' & E' & _ & L2 & K0 & M). injection E' as <- <-.
        assert (Q : (length d = S k * k')%nat) by (rewrite <- K; nia). apply mult_mod in Q; lia.
      * eexists. split; [reflexivity|]. apply Y. assert (Q := mod_mult (length d) (S k) ltac:(lia) ltac:(lia)). destruct Q as [j Q]. exists l, d, j. split; [reflexivity|]. split; [reflexivity|]. split; [lia|]. split; [|rewrite <- K in Q; nia]. destruct j; lia.
    + right. split; [cbn; tauto|]. eexists. split; [reflexivity|]. apply Y. split; [|reflexivity]. now exists t.
    + right. split; [cbn; tauto|]. destruct t as [|a [|b [|x [|y d]]]]; (eexists; split; [reflexivity|]);
        try (apply D; [intros v0 (? & ? & ? & ? & ? & E & _); discriminate|reflexivity]). apply Y. now exists a, b, x, y, d.
Qed.
