(** Proofs about the attribute client operations. *)
Require Import Verif.Base Verif.M_attsrv Verif.M_attcli Verif.S_attcli.

Lemma ov_app : forall a b c p, length p = length b -> ov (a ++ b ++ c) (length a) p = a ++ p ++ c.
Proof.
  intros a b c p H. unfold ov. rewrite firstn_app_exact. f_equal. rewrite !app_length.
  rewrite firstn_all2 by lia. f_equal. rewrite app_assoc, skipn_app. rewrite app_length.
  rewrite skipn_all2 by (rewrite app_length; lia). replace (length a + length p - (length a + length b))%nat with 0%nat by lia. reflexivity.
Qed.
Lemma skipn_skipn : forall {A} n m (l : list A), skipn n (skipn m l) = skipn (n + m) l.
Proof. intros A n m. revert n. induction m as [|m IH]; intros n l; [now rewrite Nat.add_0_r|]. destruct l as [|x l]; [now rewrite !skipn_nil|]. rewrite Nat.add_succ_r. cbn [skipn]. apply IH. Qed.
(** Writing consecutive fields from the start. *)
Lemma put16_next : forall a b x, (2 <= length b)%nat -> put16 (length a) x (a ++ b) = Ret (a ++ le16 x ++ skipn 2 b).
Proof.
  intros a b x H. unfold put16. rewrite (proj2 (Nat.leb_le _ _)) by (rewrite app_length; lia).
  rewrite <- (firstn_skipn 2 b) at 1. rewrite ov_app; [reflexivity|]. rewrite firstn_length, le16_length. lia.
Qed.
Lemma putn_next : forall a b v, (length v <= length b)%nat -> putn (length a) v (a ++ b) = Ret (a ++ v ++ skipn (length v) b).
Proof.
  intros a b v H. unfold putn. rewrite (proj2 (Nat.leb_le _ _)) by (rewrite app_length; lia).
  rewrite <- (firstn_skipn (length v) b) at 1. rewrite ov_app; [reflexivity|]. rewrite firstn_length. lia.
Qed.
Lemma put8_0 : forall x b, (1 <= length b)%nat -> put8 0 x b = Ret (x :: skipn 1 b).
Proof. intros x [|y b] H; [cbn in H; lia|]. reflexivity. Qed.
Lemma put8_nil : forall x, put8 0 x [] = Panic. Proof. reflexivity. Qed.

(** A request built from consecutive fields covering the whole slice. *)
Lemma build_ok : forall tx n f r, (n <= length tx)%nat -> length r = n -> (forall b, length b = n -> f b = Ret r) ->
  build tx n f = Ret (r, r ++ skipn n tx).
Proof.
  intros tx n f r H L F. unfold build. rewrite gslice_ok by lia. cbn [gbind]. rewrite Nat.sub_0_r. rewrite F; [reflexivity|].
  rewrite firstn_length. change (skipn 0 tx) with tx. lia.
Qed.
Lemma build_panic : forall tx n f, (length tx < n)%nat -> build tx n f = Panic.
Proof. intros tx n f H. unfold build, gslice. rewrite (proj2 (Nat.leb_gt n (length tx))) by lia. now rewrite andb_false_r. Qed.

Lemma nil_len : forall (b : bytes) n, length b = n -> (n = 0)%nat -> b = []. Proof. intros [|] n H E; [reflexivity|cbn in H; lia]. Qed.
Ltac field16 a := match goal with |- context[put16 ?i ?x ?b] => change (put16 i x b) with (put16 (length a) x b) end.

Lemma f_mtu : forall op m b, length b = 3%nat -> (let! b := put8 0 op b in put16 1 m b) = Ret (op :: le16 m).
Proof.
  intros op m b H. rewrite put8_0 by lia. cbn [gbind]. change (op :: skipn 1 b) with ([op] ++ skipn 1 b). rewrite (put16_next [op]) by (rewrite skipn_length; lia).
  rewrite skipn_skipn. rewrite skipn_all2 by lia. now rewrite app_nil_r.
Qed.
Lemma f_range : forall op st en b k, length b = (5 + k)%nat -> (let! b := put8 0 op b in let! b := put16 1 st b in put16 3 en b) = Ret (op :: le16 st ++ le16 en ++ skipn 5 b).
Proof.
  intros op st en b k H. rewrite put8_0 by lia. cbn [gbind]. change (op :: skipn 1 b) with ([op] ++ skipn 1 b). rewrite (put16_next [op]) by (rewrite skipn_length; lia). cbn [gbind].
  rewrite app_assoc. rewrite (put16_next ([op] ++ le16 st)) by (rewrite !skipn_length; lia). rewrite !skipn_skipn. reflexivity.
Qed.
Lemma f_range_u : forall op st en u b, length b = (5 + length u)%nat ->
  (let! b := put8 0 op b in let! b := put16 1 st b in let! b := put16 3 en b in putn 5 u b) = Ret (op :: le16 st ++ le16 en ++ u).
Proof.
  intros op st en u b H. assert (E := f_range op st en b (length u) H).
  destruct (put8 0 op b) as [b1|]; [cbn [gbind] in *|discriminate]. destruct (put16 1 st b1) as [b2|]; [cbn [gbind] in *|discriminate]. rewrite E. cbn [gbind].
  change (op :: le16 st ++ le16 en ++ skipn 5 b) with ((op :: le16 st ++ le16 en) ++ skipn 5 b). rewrite (putn_next (op :: le16 st ++ le16 en)) by (rewrite skipn_length; lia).
  rewrite skipn_skipn, skipn_all2 by lia. rewrite app_nil_r. reflexivity.
Qed.
Lemma f_write : forall op h v b k, length b = (3 + length v + k)%nat ->
  (let! b := put8 0 op b in let! b := put16 1 h b in putn 3 v b) = Ret (op :: le16 h ++ v ++ skipn (3 + length v) b).
Proof.
  intros op h v b k H. rewrite put8_0 by lia. cbn [gbind]. change (op :: skipn 1 b) with ([op] ++ skipn 1 b). rewrite (put16_next [op]) by (rewrite skipn_length; lia). cbn [gbind].
  rewrite app_assoc. rewrite (putn_next ([op] ++ le16 h)) by (rewrite !skipn_length; lia). rewrite !skipn_skipn. replace (length v + 2 + 1)%nat with (3 + length v)%nat by lia. reflexivity.
Qed.
Lemma put_handles_ok : forall hs a b, length b = (2 * length hs)%nat -> put_handles (length a) hs (a ++ b) = Ret (a ++ flat_map le16 hs).
Proof.
  induction hs as [|h hs IH]; intros a b H; cbn [put_handles flat_map].
  - destruct b; [reflexivity|cbn in H; lia].
  - cbn [length] in H. rewrite put16_next by lia. cbn [gbind]. rewrite app_assoc. replace (length a + 2)%nat with (length (a ++ le16 h)) by (rewrite app_length, le16_length; lia).
    rewrite IH by (rewrite skipn_length; lia). now rewrite <- app_assoc.
Qed.
Lemma flat_le16_length : forall hs, length (flat_map le16 hs) = (2 * length hs)%nat.
Proof. induction hs as [|h hs IH]; cbn [flat_map length]; [reflexivity|]. rewrite app_length, le16_length, IH. lia. Qed.
Lemma f_multi : forall hs b, length b = (1 + length hs * 2)%nat -> (let! b := put8 0 14 b in put_handles 1 hs b) = Ret (14 :: flat_map le16 hs).
Proof.
  intros hs b H. rewrite put8_0 by lia. cbn [gbind]. change (14 :: skipn 1 b) with ([14] ++ skipn 1 b). rewrite (put_handles_ok hs [14]) by (rewrite skipn_length; lia). reflexivity.
Qed.

(** sendReq: the first answering PDU, everything before it rejected. *)
Definition nonempty (r : bytes) : Prop := r <> [].
Lemma await_spec : forall o inc log, rsp_of_req (op_code o) = op_code o + 1 -> Forall nonempty (before o inc) ->
  await (op_code o) inc log = Ret (log ++ map reject (before o inc), find (answers_op o) inc).
Proof.
  intros o inc. induction inc as [|r t IH]; intros log E F; [cbn; now rewrite app_nil_r|].
  cbn [await before find] in *. rewrite E. destruct r as [|x r].
  - cbn [answers_op] in F. inversion F as [|? ? F1 _]; subst. now elim F1.
  - cbn [gidx nth_error gbind answers_op] in *. destruct ((x =? 1) || (x =? op_code o + 1)); [cbn; now rewrite app_nil_r|].
    inversion F as [|? ? _ F2]; subst. rewrite IH by assumption. cbn [map reject hd]. rewrite <- app_assoc. reflexivity.
Qed.
Lemma await_panic : forall o inc log, rsp_of_req (op_code o) = op_code o + 1 -> In [] (before o inc) -> await (op_code o) inc log = Panic.
Proof.
  intros o inc. induction inc as [|r t IH]; intros log E I; [destruct I|]. cbn [await before] in *. rewrite E.
  destruct r as [|x r]; [reflexivity|]. cbn [gidx nth_error gbind answers_op] in *. destruct ((x =? 1) || (x =? op_code o + 1)); [destruct I|].
  destruct I as [I|I]; [discriminate|]. now apply IH.
Qed.
Lemma before_cases : forall o inc, {Forall nonempty (before o inc)} + {In [] (before o inc)}.
Proof.
  intros o inc. induction inc as [|r t IH]; [left; constructor|]. cbn [before]. destruct (answers_op o r); [left; constructor|].
  destruct r as [|x r]; [right; left; reflexivity|]. destruct IH as [IH|IH]; [left; constructor; [discriminate|exact IH]|right; now right].
Defined.
Lemma find_nonempty : forall o inc r, find (answers_op o) inc = Some r -> exists x t, r = x :: t /\ (x = 1 \/ x = op_code o + 1).
Proof.
  intros o inc r H. apply find_some in H. destruct H as [_ H]. destruct r as [|x t]; [discriminate|]. exists x, t. split; [reflexivity|]. cbn in H. lia.
Qed.

Definition after (p : peer) (c : cli) (o : cop) (req tx' : bytes) {A} (k : bytes -> go (cres A)) : go (cli * cres A) :=
  match p (clog c ++ [req]) with
  | None => Ret (mkCli tx' (cmtu c) (cserved c) (clog c), CFail)
  | Some inc => if before_cases o inc then
      let c' := mkCli tx' (cmtu c) (cserved c) (clog c ++ [req] ++ map reject (before o inc)) in
      match find (answers_op o) inc with None => Ret (c', CFail) | Some r => let! x := k r in Ret (c', x) end
    else Panic
  end.
Lemma transact_spec : forall A p c n f (ok : bytes -> go (cres A)) o t tx', build (ctx c) n f = Ret (op_code o :: t, tx') ->
  rsp_of_req (op_code o) = op_code o + 1 -> transact p c n f ok = after p c o (op_code o :: t) tx' (fun r => check r ok).
Proof.
  intros A p c n f ok o t tx' B E. unfold transact, after. rewrite B. cbn [gbind]. unfold send_req. cbn [gidx nth_error gbind].
  destruct (p (clog c ++ [op_code o :: t])) as [inc|]; [|reflexivity]. destruct (before_cases o inc) as [F|F].
  - rewrite await_spec by assumption. cbn [gbind]. rewrite <- app_assoc. destruct (find (answers_op o) inc); reflexivity.
  - now rewrite await_panic.
Qed.
Lemma transact_panic : forall A p c n f (ok : bytes -> go (cres A)), (length (ctx c) < n)%nat -> transact p c n f ok = Panic.
Proof. intros A p c n f ok H. unfold transact. now rewrite build_panic. Qed.

Lemma ov_len : forall b i p, (i <= length b)%nat -> length (ov b i p) = length b.
Proof. intros b i p L. unfold ov. rewrite !app_length, !firstn_length, skipn_length. lia. Qed.
Lemma put8_len : forall i x b b', put8 i x b = Ret b' -> length b' = length b.
Proof. intros i x b b' H. unfold put8, gset in H. destruct (Nat.ltb i (length b)); [|discriminate]. injection H as <-. apply upd_length. Qed.
Lemma put16_len : forall i x b b', put16 i x b = Ret b' -> length b' = length b.
Proof. intros i x b b' E. unfold put16 in E. destruct (Nat.leb (i + 2) (length b)) eqn:G; [|discriminate]. injection E as <-. apply ov_len. lia. Qed.
Lemma putn_len : forall i x b b', putn i x b = Ret b' -> length b' = length b.
Proof. intros i x b b' E. unfold putn in E. destruct (Nat.leb i (length b)) eqn:G; [|discriminate]. injection E as <-. apply ov_len. lia. Qed.
Lemma put_handles_len : forall hs i b b', put_handles i hs b = Ret b' -> length b' = length b.
Proof.
  induction hs as [|x hs IH]; intros i b b' E; cbn [put_handles] in E; [injection E as <-; reflexivity|]. destruct (put16 i x b) as [b1|] eqn:E1; [|discriminate]. cbn [gbind] in E. apply IH in E. apply put16_len in E1. lia.
Qed.
Ltac lens := let HL := fresh in intros ? ? HL;
  repeat (match type of HL with gbind ?x _ = _ => let E := fresh in destruct x eqn:E; [cbn [gbind] in HL|discriminate HL] end);
  repeat match goal with H : put8 _ _ _ = Ret _ |- _ => apply put8_len in H | H : put16 _ _ _ = Ret _ |- _ => apply put16_len in H | H : putn _ _ _ = Ret _ |- _ => apply putn_len in H
    | H : put_handles _ _ _ = Ret _ |- _ => apply put_handles_len in H end; lia.
