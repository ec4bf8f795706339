Require Import Verif.Base Verif.M_uuid Verif.M_attdb Verif.S_attdb Verif.P_attdb Verif.M_attsrv Verif.S_attsrv Verif.P_attsrv.

Ltac gb H := match type of H with
  | gbind ?x _ = Ret _ => let E := fresh "G" in destruct x eqn:E; cbn [gbind] in H; [|discriminate H]
  | context [let '(_, _) := ?p in _] => destruct p
  | (if ?b then _ else _) = Ret _ => let E := fresh "B" in destruct b eqn:E
  | context [match ?x with Some _ => _ | None => _ end] => let E := fresh "O" in destruct x eqn:E
  end.

Lemma rsp_of_inv : forall s hdr buf p, rsp_of s hdr buf = Ret p -> p = hdr ++ buf /\ (length p <= txlen s)%nat.
Proof. intros s hdr buf p H. unfold rsp_of in H. destruct (Nat.leb _ _) eqn:E; [|discriminate]. injection H as <-. split; [reflexivity|]. rewrite app_length. lia. Qed.
Lemma err_len : forall op h c, length (err_rsp op h c) = 5%nat.
Proof. reflexivity. Qed.

(** ---- what a request can change ---- *)
Definition keeps (s s' : srv) : Prop := s_db s' = s_db s /\ txlen s' = txlen s /\ notlen s' = notlen s /\ indlen s' = indlen s.
Lemma keeps_refl : forall s, keeps s s. Proof. intro s. repeat split. Qed.
Lemma cccd_write_keeps : forall s ci data s' st, cccd_write s ci data = Ret (s', st) -> keeps s s' /\ prep s' = prep s /\ prepdata s' = prepdata s.
Proof.
  intros s ci data s' st H. unfold cccd_write in H. destruct (gle16 data) as [ccc|]; [|discriminate]. cbn [gbind] in H.
  unfold cccd_start_n in H. destruct (Z.testbit ccc 0 && negb (Z.testbit (ccc_of (cccs s) (ci_handle ci)) 0)).
  - destruct (Z.testbit (ci_prop ci) 4).
    + destruct (ci_nh ci); [|discriminate]. cbn [gbind negb] in H.
      unfold cccd_stop_n in H. destruct (negb (Z.testbit ccc 0) && _); [destruct (aget _ _); [|discriminate]|]; cbn [gbind] in H;
      unfold cccd_start_i in H; (destruct (Z.testbit ccc 1 && _); [destruct (Z.testbit (ci_prop ci) 5); [destruct (ci_ih ci); [|discriminate]|]|]); cbn [gbind negb] in H;
      try (injection H as <- <-; repeat split; reflexivity);
      unfold cccd_stop_i in H; (destruct (negb (Z.testbit ccc 1) && _); [destruct (aget _ _); [|discriminate]|]); cbn [gbind] in H; injection H as <- <-; repeat split; reflexivity.
    + cbn [gbind negb] in H. injection H as <- <-. repeat split; reflexivity.
  - cbn [gbind negb] in H.
      unfold cccd_stop_n in H. destruct (negb (Z.testbit ccc 0) && _); [destruct (aget _ _); [|discriminate]|]; cbn [gbind] in H;
      unfold cccd_start_i in H; (destruct (Z.testbit ccc 1 && _); [destruct (Z.testbit (ci_prop ci) 5); [destruct (ci_ih ci); [|discriminate]|]|]); cbn [gbind negb] in H;
      try (injection H as <- <-; repeat split; reflexivity);
      unfold cccd_stop_i in H; (destruct (negb (Z.testbit ccc 1) && _); [destruct (aget _ _); [|discriminate]|]); cbn [gbind] in H; injection H as <- <-; repeat split; reflexivity.
Qed.
Lemma att_write_keeps : forall s e a data s' st cs, att_write s e a data = Ret (s', st, cs) -> keeps s s' /\ prep s' = prep s /\ prepdata s' = prepdata s.
Proof.
  intros s e a data s' st cs H. unfold att_write in H. destruct (a_wh a) as [[i|ci]|].
  - injection H as <- _ _. repeat split.
  - destruct (cccd_write s ci data) as [[s1 st1]|] eqn:E; [|discriminate]. cbn [gbind] in H. injection H as <- _ _. eapply cccd_write_keeps; exact E.
  - injection H as <- _ _. repeat split.
Qed.
Lemma h_write_keeps : forall s e r s' p cs, h_write s e r = Ret (s', p, cs) -> keeps s s' /\ prep s' = prep s /\ prepdata s' = prepdata s.
Proof.
  intros s e r s' p cs H. unfold h_write in H. destruct (Nat.ltb (length r) 3); [injection H as <- _ _; repeat split|].
  destruct (r16 r 1) as [h|]; [|discriminate]. cbn [gbind] in H. destruct (db_at (s_db s) h) as [[a|]|]; cbn [gbind] in H; [| |discriminate].
  - destruct (gfrom r 3) as [v|]; [|discriminate]. cbn [gbind] in H. destruct (att_write s e a v) as [[[s1 st] c]|] eqn:E; [|discriminate].
    cbn [gbind] in H. injection H as <- _ _. eapply att_write_keeps; exact E.
  - injection H as <- _ _. repeat split.
Qed.
Lemma h_write_cmd_keeps : forall s e r s' cs, h_write_cmd s e r = Ret (s', cs) -> keeps s s' /\ prep s' = prep s /\ prepdata s' = prepdata s.
Proof.
  intros s e r s' cs H. unfold h_write_cmd in H. destruct (Nat.leb (length r) 3); [injection H as <- _; repeat split|].
  destruct (r16 r 1) as [h|]; [|discriminate]. cbn [gbind] in H. destruct (db_at (s_db s) h) as [[a|]|]; cbn [gbind] in H; [| |discriminate].
  - destruct (gfrom r 3) as [v|]; [|discriminate]. cbn [gbind] in H. destruct (att_write s e a v) as [[[s1 st] c]|] eqn:E; [|discriminate].
    cbn [gbind] in H. injection H as <- _. eapply att_write_keeps; exact E.
  - injection H as <- _. repeat split.
Qed.
Lemma h_prepare_keeps : forall s r s' p, h_prepare s r = Ret (s', p) -> keeps s s'.
Proof.
  intros s r s' p H. unfold h_prepare in H. destruct (r16 r 1) as [h|]; [|discriminate]. cbn [gbind] in H.
  destruct (Nat.ltb (length r) 3); [injection H as <- _; apply keeps_refl|].
  destruct (db_at (s_db s) h) as [[a|]|]; cbn [gbind] in H; [| |discriminate].
  - destruct (a_wh a); [|injection H as <- _; apply keeps_refl]. destruct (gfrom r 5); [|discriminate]. cbn [gbind] in H.
    destruct (r16 r 3); [|discriminate]. cbn [gbind] in H. injection H as <- _. destruct (prep s); repeat split.
  - injection H as <- _. apply keeps_refl.
Qed.
Lemma h_execute_keeps : forall s e r s' p cs, h_execute s e r = Ret (s', p, cs) -> keeps s s'.
Proof.
  intros s e r s' p cs H. unfold h_execute in H. destruct (Nat.ltb (length r) 2); [injection H as <- _ _; apply keeps_refl|].
  destruct (gidx r 1) as [f|]; [|discriminate]. cbn [gbind] in H. destruct (f =? 0); [injection H as <- _ _; repeat split|].
  destruct (f =? 1); [|injection H as <- _ _; apply keeps_refl]. destruct (prep s) as [a|]; [|discriminate].
  destruct (a_wh a); [|injection H as <- _ _; apply keeps_refl]. destruct (att_write s e a (prepdata s)) as [[[s1 st] c]|] eqn:E; [|discriminate].
  cbn [gbind] in H. injection H as <- _ _. destruct (att_write_keeps _ _ _ _ _ _ _ E) as [K _]. exact K.
Qed.
Lemma handle_op : forall (P : srv * option bytes * list call -> Prop) s e op t,
  (op = 2 -> forall s' p, h_mtu s (op :: t) = Ret (s', p) -> P (s', Some p, [])) ->
  (op = 4 -> forall p, h_find_info s (op :: t) = Ret p -> P (s, Some p, [])) ->
  (op = 6 -> forall p, h_find_by_type s (op :: t) = Ret p -> P (s, Some p, [])) ->
  (op = 8 -> forall p cs, h_read_by_type s e (op :: t) = Ret (p, cs) -> P (s, Some p, cs)) ->
  (op = 10 -> forall p cs, h_read s e (op :: t) = Ret (p, cs) -> P (s, Some p, cs)) ->
  (op = 12 -> forall p cs, h_read_blob s e (op :: t) = Ret (p, cs) -> P (s, Some p, cs)) ->
  (op = 16 -> forall p, h_read_by_group s (op :: t) = Ret p -> P (s, Some p, [])) ->
  (op = 18 -> forall s' p cs, h_write s e (op :: t) = Ret (s', p, cs) -> P (s', Some p, cs)) ->
  (op = 82 -> forall s' cs, h_write_cmd s e (op :: t) = Ret (s', cs) -> P (s', None, cs)) ->
  (op = 22 -> forall s' p, h_prepare s (op :: t) = Ret (s', p) -> P (s', Some p, [])) ->
  (op = 24 -> forall s' p cs, h_execute s e (op :: t) = Ret (s', p, cs) -> P (s', Some p, cs)) ->
  (~ In op [2; 4; 6; 8; 10; 12; 16; 18; 22; 24; 82] -> P (s, Some (err_rsp op 0 6), [])) ->
  forall x, handle s e (op :: t) = Ret x -> P x.
Proof.
  intros P s e op t H2 H4 H6 H8 H10 H12 H16 H18 H82 H22 H24 HE x H. unfold handle in H.
  destruct (op =? 2) eqn:E2; [apply Z.eqb_eq in E2; destruct (h_mtu s (op :: t)) as [[? ?]|] eqn:G; [|discriminate]; cbn [gbind] in H; injection H as <-; now apply H2|].
  destruct (op =? 4) eqn:E4; [apply Z.eqb_eq in E4; destruct (h_find_info s (op :: t)) as [?|] eqn:G; [|discriminate]; cbn [gbind] in H; injection H as <-; now apply H4|].
  destruct (op =? 6) eqn:E6; [apply Z.eqb_eq in E6; destruct (h_find_by_type s (op :: t)) as [?|] eqn:G; [|discriminate]; cbn [gbind] in H; injection H as <-; now apply H6|].
  destruct (op =? 8) eqn:E8; [apply Z.eqb_eq in E8; destruct (h_read_by_type s e (op :: t)) as [[? ?]|] eqn:G; [|discriminate]; cbn [gbind] in H; injection H as <-; now apply H8|].
  destruct (op =? 10) eqn:E10; [apply Z.eqb_eq in E10; destruct (h_read s e (op :: t)) as [[? ?]|] eqn:G; [|discriminate]; cbn [gbind] in H; injection H as <-; now apply H10|].
  destruct (op =? 12) eqn:E12; [apply Z.eqb_eq in E12; destruct (h_read_blob s e (op :: t)) as [[? ?]|] eqn:G; [|discriminate]; cbn [gbind] in H; injection H as <-; now apply H12|].
  destruct (op =? 16) eqn:E16; [apply Z.eqb_eq in E16; destruct (h_read_by_group s (op :: t)) as [?|] eqn:G; [|discriminate]; cbn [gbind] in H; injection H as <-; now apply H16|].
  destruct (op =? 18) eqn:E18; [apply Z.eqb_eq in E18; destruct (h_write s e (op :: t)) as [[[? ?] ?]|] eqn:G; [|discriminate]; cbn [gbind] in H; injection H as <-; now apply H18|].
  destruct (op =? 82) eqn:E82; [apply Z.eqb_eq in E82; destruct (h_write_cmd s e (op :: t)) as [[? ?]|] eqn:G; [|discriminate]; cbn [gbind] in H; injection H as <-; now apply H82|].
  destruct (op =? 22) eqn:E22; [apply Z.eqb_eq in E22; destruct (h_prepare s (op :: t)) as [[? ?]|] eqn:G; [|discriminate]; cbn [gbind] in H; injection H as <-; now apply H22|].
  destruct (op =? 24) eqn:E24; [apply Z.eqb_eq in E24; destruct (h_execute s e (op :: t)) as [[[? ?] ?]|] eqn:G; [|discriminate]; cbn [gbind] in H; injection H as <-; now apply H24|].
  injection H as <-. apply HE. cbn [In]. lia.
Qed.
Lemma h_mtu_inv : forall s r s' p, h_mtu s r = Ret (s', p) ->
  (s' = s /\ p = err_rsp 2 0 4 /\ forall a b x, r = [x; a; b] -> de16 a b < 23) \/
  (exists a b, r = [hd 0 r; a; b] /\ 23 <= de16 a b /\ s' = set_mtu s (Z.to_nat (de16 a b)) 515 /\ p = [3; 3; 2] /\ (3 <= txlen s)%nat).
Proof.
  intros s r s' p H. unfold h_mtu in H. destruct (Nat.eqb (length r) 3) eqn:L; cbn [negb] in H.
  - destruct r as [|x [|a [|b [|? ?]]]]; try discriminate L. change (r16 [x; a; b] 1) with (@Ret Z (de16 a b)) in H. cbn [gbind] in H.
    destruct (de16 a b <? 23) eqn:M.
    + injection H as <- <-. left. repeat split. intros a' b' x' E. injection E as -> -> ->. lia.
    + destruct (Nat.ltb (txlen s) 3) eqn:T; [discriminate|]. injection H as <- <-. right. exists a, b. cbn [hd].
      split; [reflexivity|]. split; [lia|]. split; [reflexivity|]. split; [reflexivity|lia].
  - injection H as <- <-. left. repeat split. intros a b x ->. discriminate L.
Qed.
Lemma mtu_after_other : forall m op t, op <> 2 -> mtu_after m (op :: t) = m.
Proof.
  intros m op t H. destruct t as [|a [|b [|? ?]]]; unfold mtu_after; destruct op as [|q|q]; try reflexivity; destruct q as [q|q|]; try reflexivity; destruct q; try reflexivity; now elim H.
Qed.
Lemma handle_env : forall s e r s' o cs, handle s e r = Ret (s', o, cs) -> s_db s' = s_db s /\
  (Z.of_nat (txlen s') = mtu_after (Z.of_nat (txlen s)) r) /\ ((txlen s = notlen s /\ notlen s = indlen s) -> (txlen s' = notlen s' /\ notlen s' = indlen s')).
Proof.
  intros s e r s' o cs H. destruct r as [|op t]; [injection H as <- _ _; repeat split; tauto|].
  refine (handle_op (fun x => s_db (fst (fst x)) = s_db s /\ Z.of_nat (txlen (fst (fst x))) = mtu_after (Z.of_nat (txlen s)) (op :: t) /\
     ((txlen s = notlen s /\ notlen s = indlen s) -> (txlen (fst (fst x)) = notlen (fst (fst x)) /\ notlen (fst (fst x)) = indlen (fst (fst x))))) s e op t _ _ _ _ _ _ _ _ _ _ _ _ _ H); cbn [fst].
  - intros -> s1 p G. apply h_mtu_inv in G. destruct G as [(-> & _ & B)|(a & b & R & B & -> & _)].
    + split; [reflexivity|]. split; [|tauto]. unfold mtu_after. destruct t as [|a [|b [|? ?]]]; try reflexivity.
      specialize (B a b 2 eq_refl). replace (23 <=? de16 a b) with false by lia. reflexivity.
    + cbn [hd] in R. injection R as ->. cbn [set_mtu s_db txlen notlen indlen]. split; [reflexivity|]. split; [|tauto].
      unfold mtu_after. replace (23 <=? de16 a b) with true by lia. lia.
  - intros -> p _. rewrite mtu_after_other by lia. tauto.
  - intros -> p _. rewrite mtu_after_other by lia. tauto.
  - intros -> p c _. rewrite mtu_after_other by lia. tauto.
  - intros -> p c _. rewrite mtu_after_other by lia. tauto.
  - intros -> p c _. rewrite mtu_after_other by lia. tauto.
  - intros -> p _. rewrite mtu_after_other by lia. tauto.
  - intros -> s1 p c G. rewrite mtu_after_other by lia. destruct (h_write_keeps _ _ _ _ _ _ G) as ((A & B & C & D) & _). rewrite A, B, C, D. tauto.
  - intros -> s1 c G. rewrite mtu_after_other by lia. destruct (h_write_cmd_keeps _ _ _ _ _ G) as ((A & B & C & D) & _). rewrite A, B, C, D. tauto.
  - intros -> s1 p G. rewrite mtu_after_other by lia. destruct (h_prepare_keeps _ _ _ _ G) as (A & B & C & D). rewrite A, B, C, D. tauto.
  - intros -> s1 p c G. rewrite mtu_after_other by lia. destruct (h_execute_keeps _ _ _ _ _ _ G) as (A & B & C & D). rewrite A, B, C, D. tauto.
  - intros G. rewrite mtu_after_other by (cbn [In] in G; lia). tauto.
Qed.

(** ---- response lengths ---- *)
Lemma some_rsp_len : forall s hdr buf p, rsp_of s hdr buf = Ret p -> (length p <= txlen s)%nat.
Proof. intros. now apply rsp_of_inv in H. Qed.
Ltac rl := repeat first
  [ match goal with H : @Ret _ _ = Ret _ |- _ => injection H; clear H; intros; subst end
  | match goal with H : rsp_of _ _ _ = Ret _ |- _ => apply some_rsp_len in H end
  | match goal with H : gbind ?x _ = Ret _ |- _ => let G := fresh "G" in destruct x eqn:G; cbn [gbind] in H; [|discriminate H] end
  | match goal with H : (if ?b then _ else _) = Ret _ |- _ => destruct b; try discriminate H end
  | match goal with H : (match ?x with (_, _) => _ end) = Ret _ |- _ => destruct x end
  | match goal with H : (match ?x with Some _ => _ | None => _ end) = Ret _ |- _ => destruct x; try discriminate H end
  | match goal with H : (match ?x with inl _ => _ | inr _ => _ end) = Ret _ |- _ => destruct x end
  | match goal with H : (match ?x with O => _ | S _ => _ end) = Ret _ |- _ => destruct x end
  | match goal with H : (match ?x with [] => _ | _ :: _ => _ end) = Ret _ |- _ => destruct x end ].
Lemma handle_len : forall s e op t s' p cs, (23 <= txlen s)%nat -> handle s e (op :: t) = Ret (s', Some p, cs) -> op <> 22 -> (length p <= txlen s)%nat.
Proof.
  intros s e op t s' p cs M H N.
  refine (handle_op (fun x => op <> 22 -> forall p, snd (fst x) = Some p -> (length p <= txlen s)%nat) s e op t _ _ _ _ _ _ _ _ _ _ _ _ _ H N p eq_refl); cbn [fst snd].
  - intros _ s1 q G _ q' E. injection E as <-. apply h_mtu_inv in G. destruct G as [(_ & -> & _)|(? & ? & _ & _ & _ & -> & _)]; cbn; lia.
  - intros _ q G _ q' E. injection E as <-. unfold h_find_info in G. rl; cbn [err_rsp length]; lia.
  - intros _ q G _ q' E. injection E as <-. unfold h_find_by_type in G. rl; cbn [err_rsp length]; lia.
  - intros _ q c G _ q' E. injection E as <-. unfold h_read_by_type in G. rl; cbn [err_rsp length]; lia.
  - intros _ q c G _ q' E. injection E as <-. unfold h_read in G. rl; cbn [err_rsp length]; lia.
  - intros _ q c G _ q' E. injection E as <-. unfold h_read_blob in G. rl; cbn [err_rsp length]; lia.
  - intros _ q G _ q' E. injection E as <-. unfold h_read_by_group in G. rl; cbn [err_rsp length]; lia.
  - intros _ s1 q c G _ q' E. injection E as <-. unfold h_write in G. rl; repeat match goal with |- context [if ?b then _ else _] => destruct b end; cbn [err_rsp length]; lia.
  - intros _ s1 c G _ q' E. discriminate E.
  - intros -> s1 q G C. now elim C.
  - intros _ s1 q c G _ q' E. injection E as <-. unfold h_execute in G. rl; repeat match goal with |- context [if ?b then _ else _] => destruct b end; cbn [err_rsp length]; lia.
  - intros _ _ q' E. injection E as <-. cbn. lia.
Qed.
Lemma prepare_len : forall s r s' p, h_prepare s r = Ret (s', p) -> (length p <= Nat.max 5 (length r))%nat.
Proof.
  intros s r s' p H. unfold h_prepare in H. rl; cbn [err_rsp length]; try lia. destruct r; cbn [tl length]; lia.
Qed.
