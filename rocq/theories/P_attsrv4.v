Require Import Verif.Base Verif.M_uuid Verif.M_attdb Verif.S_attdb Verif.P_attdb Verif.M_attsrv Verif.S_attsrv Verif.P_attsrv Verif.P_attsrv2 Verif.P_attsrv3.

Lemma fi_loop_len : forall cap l fmt buf, (length buf <= cap)%nat -> (length (snd (fi_loop cap l fmt buf)) <= cap)%nat.
Proof.
  intros cap l. induction l as [|a l IH]; intros fmt buf H; [exact H|]. cbn [fi_loop].
  repeat match goal with |- context [if ?b then (_, _) else _] => let E := fresh "E" in destruct b eqn:E; [exact H|] end.
  apply IH. rewrite !app_length, le16_length. lia.
Qed.
Lemma fbtv_loop_len : forall cap l ty v buf b, (length buf <= cap)%nat -> fbtv_loop cap l ty v buf = Some b -> (length b <= cap)%nat.
Proof.
  intros cap l ty v. induction l as [|a l IH]; intros buf b H E; cbn [fbtv_loop] in E; [injection E as <-; exact H|].
  destruct (negb (uuid_equal (a_typ a) ty)); [eapply IH; eauto|]. destruct (a_v a); [|discriminate]. destruct (negb _); [eapply IH; eauto|].
  destruct (Nat.ltb cap (length buf + 4)) eqn:C; [injection E as <-; exact H|]. eapply IH; [|exact E]. rewrite !app_length, !le16_length. lia.
Qed.
Lemma rbt_loop_len : forall s e cap2 cap l ty dlen buf cs d b c, (2 <= cap)%nat -> (dlen = 0%nat \/ (2 <= dlen)%nat) -> (length buf <= cap)%nat ->
  rbt_loop s e cap2 cap l ty dlen buf cs = (inr (d, b), c) -> (length b <= cap)%nat.
Proof.
  intros s e cap2 cap l ty. induction l as [|a l IH]; intros dlen buf cs d b c C D H E; cbn [rbt_loop] in E; [injection E as _ <- _; exact H|].
  destruct (negb (uuid_equal (a_typ a) ty)); [eapply IH; eauto|].
  destruct (match a_v a with Some v => (0, v, []) | None => att_read s e a 0 cap2 end) as [[st v] cc].
  destruct (negb (st =? 0)).
  - destruct (Nat.eqb dlen 0); [discriminate|injection E as _ <- _; exact H].
  - destruct (Nat.eqb dlen 0) eqn:Z0; cbn [negb andb] in E.
    + destruct (Nat.ltb cap _) eqn:Q; [injection E as _ <- _; exact H|].
      eapply IH; [exact C| | |exact E]; [lia|]. rewrite !app_length, le16_length, firstn_length. lia.
    + destruct (negb (Nat.eqb (2 + length v) dlen)) eqn:F; [injection E as _ <- _; exact H|].
      destruct (Nat.ltb cap _) eqn:Q; [injection E as _ <- _; exact H|].
      eapply IH; [exact C| | |exact E]; [exact D|]. rewrite !app_length, le16_length, firstn_length. lia.
Qed.
Lemma ltb_false : forall a b, (b <= a)%nat -> Nat.ltb a b = false. Proof. intros; lia. Qed.
Lemma find_info_no_panic : forall s r, wf_db (s_db s) -> (23 <= txlen s)%nat -> h_find_info s r <> Panic.
Proof.
  intros s r W M H. unfold h_find_info in H. destruct (Nat.eqb (length r) 5) eqn:L; cbn [negb] in H; [|discriminate].
  destruct r as [|op [|a [|b [|c [|x [|? ?]]]]]]; try discriminate L. rewrite r16_1, r16_3 in H. cbn [gbind] in H.
  destruct ((de16 a b =? 0) || (de16 a b >? de16 c x)) eqn:R; [discriminate|]. rewrite (ltb_false (txlen s) 2) in H by lia.
  rewrite db_subrange_spec in H by (exact W || lia). cbn [gbind] in H.
  assert (F := fi_loop_len (txlen s - 2) (filter (in_range (de16 a b) (de16 c x)) (db_attrs (s_db s))) 0 [] ltac:(cbn; lia)).
  destruct (fi_loop _ _ _ _) as [fmt buf]. cbn [snd] in F. destruct (fmt =? 0); [discriminate|]. rewrite rsp_of_ok in H by (cbn [length]; lia). discriminate.
Qed.
Lemma find_by_type_no_panic : forall s r, wf_db (s_db s) -> (23 <= txlen s)%nat -> h_find_by_type s r <> Panic.
Proof.
  intros s r W M H. unfold h_find_by_type in H. destruct (Nat.ltb (length r) 7) eqn:L; [discriminate|].
  destruct r as [|op [|a [|b [|c [|x [|y [|z t]]]]]]]; cbn [length] in L; try discriminate L. rewrite r16_1, r16_3, r16_5 in H. cbn [gbind] in H.
  destruct ((de16 a b =? 0) || (de16 a b >? de16 c x)) eqn:R; [discriminate|]. rewrite (ltb_false (txlen s) 6) in H by lia.
  rewrite gfrom_ok in H by (cbn [length]; lia). cbn [gbind] in H.
  rewrite db_subrange_spec in H by (exact W || lia). cbn [gbind] in H.
  destruct (fbtv_loop _ _ _ _ _) as [buf|] eqn:F; [|discriminate]. apply fbtv_loop_len in F; [|cbn; lia].
  destruct buf; [discriminate|]. rewrite rsp_of_ok in H by (cbn [length] in *; lia). discriminate.
Qed.
Lemma read_by_type_no_panic : forall s e r, wf_db (s_db s) -> (23 <= txlen s)%nat -> h_read_by_type s e r <> Panic.
Proof.
  intros s e r W M H. unfold h_read_by_type in H. destruct (negb (Nat.eqb (length r) 7) && negb (Nat.eqb (length r) 21)) eqn:L; [discriminate|].
  assert (Lr : (7 <= length r)%nat) by lia. clear L.
  destruct r as [|op [|a [|b [|c [|x t]]]]]; cbn [length] in Lr; try lia. rewrite r16_1, r16_3 in H. cbn [gbind] in H.
  destruct ((de16 a b =? 0) || (de16 a b >? de16 c x)) eqn:R; [discriminate|]. rewrite (ltb_false (txlen s) 4) in H by lia.
  rewrite gfrom_ok in H by (cbn [length]; lia). cbn [gbind] in H.
  rewrite db_subrange_spec in H by (exact W || lia). cbn [gbind] in H.
  destruct (rbt_loop _ _ _ _ _ _ _ _ _) as [[code|[d buf]] cs] eqn:F; [discriminate|]. apply rbt_loop_len in F; [|lia|lia|cbn; lia].
  destruct d; [discriminate|]. rewrite rsp_of_ok in H by (cbn [length] in *; lia). discriminate.
Qed.
Lemma static_read_panic : forall s e h off n op1 a,
  (match a_v a with
   | Some v => let! p := rsp_of s [op1] v in Ret (p, [])
   | None => let '(st, b, cs) := att_read s e a off (txlen s - 1) in
             if negb (st =? 0) then Ret (err_rsp n h st, cs) else let! p := rsp_of s [op1] b in Ret (p, cs)
   end : go (bytes * list call)) = Panic -> (1 <= txlen s)%nat -> exists v, a_v a = Some v /\ (txlen s - 1 < length v)%nat.
Proof.
  intros s e h off n op1 a H M. destruct (a_v a) as [v|].
  - exists v. split; [reflexivity|]. unfold rsp_of in H. cbn [length] in H. destruct (Nat.leb (1 + length v) (txlen s)) eqn:E; [discriminate|lia].
  - destruct (att_read s e a off (txlen s - 1)) as [[st b] cs] eqn:E. apply att_read_len in E. destruct (negb (st =? 0)); [discriminate|].
    rewrite rsp_of_ok in H by (cbn [length]; lia). discriminate.
Qed.
Lemma read_panic : forall s e r, wf_db (s_db s) -> (23 <= txlen s)%nat -> all_bytes r ->
  (h_read s e r = Panic <-> exists op h a v, r = req_handle op h [] /\ 0 <= h < 65536 /\ attr_at (s_db s) h = Some a /\ a_v a = Some v /\ (txlen s - 1 < length v)%nat).
Proof.
  intros s e r W M B. unfold h_read. split.
  - intro H. destruct (Nat.eqb (length r) 3) eqn:L; cbn [negb] in H; [|discriminate]. destruct r as [|op [|a [|b [|? ?]]]]; try discriminate L.
    rewrite (ltb_false (txlen s) 1) in H by lia. rewrite r16_1 in H. cbn [gbind] in H. rewrite attr_at_db in H by exact W. cbn [gbind] in H.
    destruct (attr_at (s_db s) (de16 a b)) as [x|] eqn:A; [|discriminate].
    inversion B as [|? ? _ B1]; subst. inversion B1 as [|? ? Ba B2]; subst. inversion B2 as [|? ? Bb _]; subst.
    apply static_read_panic in H; [|lia]. destruct H as (v & V & LV). exists op, (de16 a b), x, v.
    split; [now apply req_handle_of|]. split; [now apply de16_range|]. split; [exact A|]. split; [exact V|exact LV].
  - intros (op & h & a & v & -> & Hh & A & V & LV). change (negb (Nat.eqb (length (req_handle op h [])) 3)) with false. cbv iota.
    rewrite (ltb_false (txlen s) 1) by lia. rewrite req_handle_h by exact Hh. cbn [gbind]. rewrite attr_at_db by exact W. cbn [gbind]. rewrite A, V.
    unfold rsp_of. cbn [length]. replace (Nat.leb (1 + length v) (txlen s)) with false by lia. reflexivity.
Qed.
Lemma read_blob_panic : forall s e r, wf_db (s_db s) -> (23 <= txlen s)%nat -> all_bytes r ->
  (h_read_blob s e r = Panic <-> exists op h rest a v, r = req_handle op h rest /\ 0 <= h < 65536 /\ length rest = 2%nat /\ attr_at (s_db s) h = Some a /\ a_v a = Some v /\ (txlen s - 1 < length v)%nat).
Proof.
  intros s e r W M B. unfold h_read_blob. split.
  - intro H. destruct (Nat.eqb (length r) 5) eqn:L; cbn [negb] in H; [|discriminate]. destruct r as [|op [|a [|b [|c [|d [|? ?]]]]]]; try discriminate L.
    rewrite (ltb_false (txlen s) 1) in H by lia. rewrite r16_1, r16_3 in H. cbn [gbind] in H. rewrite attr_at_db in H by exact W. cbn [gbind] in H.
    destruct (attr_at (s_db s) (de16 a b)) as [x|] eqn:A; [|discriminate].
    inversion B as [|? ? _ B1]; subst. inversion B1 as [|? ? Ba B2]; subst. inversion B2 as [|? ? Bb _]; subst.
    apply static_read_panic in H; [|lia]. destruct H as (v & V & LV). exists op, (de16 a b), [c; d], x, v.
    split; [now apply req_handle_of|]. split; [now apply de16_range|]. split; [reflexivity|]. split; [exact A|]. split; [exact V|exact LV].
  - intros (op & h & rest & a & v & -> & Hh & LR & A & V & LV). destruct rest as [|c [|d [|? ?]]]; try discriminate LR.
    change (negb (Nat.eqb (length (req_handle op h [c; d])) 5)) with false. cbv iota.
    rewrite (ltb_false (txlen s) 1) by lia. rewrite req_handle_h by exact Hh. cbn [gbind]. rewrite attr_at_db by exact W. cbn [gbind]. rewrite A, V.
    unfold rsp_of. cbn [length]. replace (Nat.leb (1 + length v) (txlen s)) with false by lia. reflexivity.
Qed.
Definition same_len (d : nat) (a : attr) : Prop := exists v, a_v a = Some v /\ (4 + length v)%nat = d.
Lemma rbg_loop_panic : forall cap d l buf, (4 <= d)%nat -> (length buf <= cap)%nat ->
  (rbg_loop cap l d buf = Panic <-> exists p x rest, l = p ++ x :: rest /\ a_v x = None /\ Forall (same_len d) p /\
     (length buf + length p * d <= cap < length buf + length p * d + 4)%nat).
Proof.
  intros cap d l. induction l as [|a l IH]; intros buf D B; cbn [rbg_loop].
  - split; [discriminate|]. intros (p & x & rest & E & _). destruct p; discriminate E.
  - destruct (a_v a) as [v|] eqn:V.
    + replace (Nat.eqb d 0) with false by lia. cbn [negb andb].
      destruct (Nat.eqb (4 + length v) d) eqn:E; cbn [negb].
      * destruct (Nat.ltb cap (length buf + d)) eqn:C.
        -- split; [discriminate|]. intros (p & x & rest & L & X & F & Q). destruct p as [|a' p]; [injection L as -> _; congruence|].
           cbn [length] in Q. nia.
        -- assert (LB : length (buf ++ le16 (a_h a) ++ le16 (a_endh a) ++ firstn (d - 4) v) = (length buf + d)%nat) by (rewrite !app_length, !le16_length, firstn_length; lia).
           rewrite IH by lia. rewrite LB. split.
           ++ intros (p & x & rest & -> & X & F & Q). exists (a :: p), x, rest. split; [reflexivity|]. split; [exact X|].
              split; [constructor; [exists v; split; [exact V|lia]|exact F]|]. cbn [length]. lia.
           ++ intros (p & x & rest & L & X & F & Q). destruct p as [|a' p]; [injection L as -> _; congruence|].
              injection L as -> ->. inversion F; subst. exists p, x, rest. split; [reflexivity|]. split; [exact X|]. split; [assumption|]. cbn [length] in Q. lia.
      * split; [discriminate|]. intros (p & x & rest & L & X & F & Q). destruct p as [|a' p]; [injection L as -> _; congruence|].
        injection L as -> ->. inversion F as [|? ? (v' & V' & LV) ?]; subst. rewrite V in V'. injection V' as <-. lia.
    + destruct (Nat.ltb cap (length buf + 4)) eqn:C.
      * split; [|reflexivity]. intros _. exists [], a, l. split; [reflexivity|]. split; [exact V|]. split; [constructor|]. cbn [length]. lia.
      * split; [discriminate|]. intros (p & x & rest & L & X & F & Q). destruct p as [|a' p].
        -- cbn [length] in Q. lia.
        -- injection L as -> ->. inversion F as [|? ? (v' & V' & LV) ?]; subst. congruence.
Qed.
Lemma rbg_panic : forall mtu l, (23 <= mtu)%nat -> (rbg_loop (mtu - 2) l 0 [] = Panic <-> crash_group mtu l).
Proof.
  intros mtu l M. destruct l as [|a l]; cbn [rbg_loop].
  - split; [discriminate|]. intros (a0 & v0 & p & x & rest & E & _). discriminate E.
  - destruct (a_v a) as [v|] eqn:V.
    + change (Nat.eqb 0 0) with true. cbn [negb andb]. change (length []) with 0%nat. rewrite Nat.add_0_l.
      change (Nat.min (Nat.min (4 + length v) 255) (mtu - 2)) with (entry_len 4 mtu (length v)).
      assert (D : (4 <= entry_len 4 mtu (length v) <= mtu - 2)%nat) by (unfold entry_len; lia).
      rewrite (ltb_false (mtu - 2)) by lia.
      assert (LB : length ([] ++ le16 (a_h a) ++ le16 (a_endh a) ++ firstn (entry_len 4 mtu (length v) - 4) v) = entry_len 4 mtu (length v)).
      { cbn [app]. rewrite !app_length, !le16_length, firstn_length. unfold entry_len. lia. }
      rewrite rbg_loop_panic by lia. rewrite LB. split.
      * intros (p & x & rest & -> & X & F & Q). exists a, v, p, x, rest. split; [reflexivity|]. split; [exact V|]. split; [exact X|]. cbv zeta.
        split; [exact F|]. lia.
      * intros (a0 & v0 & p & x & rest & E & V0 & X & F & Q). injection E as -> ->. rewrite V in V0. injection V0 as <-.
        exists p, x, rest. split; [reflexivity|]. split; [exact X|]. split; [exact F|]. lia.
    + change (length []) with 0%nat. rewrite (ltb_false (mtu - 2)) by lia. split; [discriminate|].
      intros (a0 & v0 & p & x & rest & E & V0 & _). injection E as -> _. congruence.
Qed.
Lemma rbg_len : forall cap l d buf d' b, (d = 0 \/ 4 <= d)%nat -> (4 <= cap)%nat -> (length buf <= cap)%nat -> rbg_loop cap l d buf = Ret (inr (d', b)) -> (length b <= cap)%nat.
Proof.
  intros cap l. induction l as [|a l IH]; intros d buf d' b D C L H; cbn [rbg_loop] in H; [injection H as _ <-; exact L|].
  destruct (a_v a) as [v|]; [|destruct (Nat.ltb _ _); discriminate].
  destruct (Nat.eqb d 0) eqn:D0; cbn [negb andb] in H.
  - destruct (Nat.ltb cap _) eqn:Q; [injection H as _ <-; exact L|]. eapply IH; [| | |exact H]; [lia|lia|]. rewrite !app_length, !le16_length, firstn_length. lia.
  - destruct (negb (Nat.eqb (4 + length v) d)); [injection H as _ <-; exact L|]. destruct (Nat.ltb cap _) eqn:Q; [injection H as _ <-; exact L|].
    eapply IH; [| | |exact H]; [lia|lia|]. rewrite !app_length, !le16_length, firstn_length. lia.
Qed.
Lemma read_group_panic : forall s r, wf_db (s_db s) -> (23 <= txlen s)%nat -> all_bytes r ->
  (h_read_by_group s r = Panic <-> exists op st en ty, r = req_range op st en ty /\ ok_range st en /\ (length ty = 2%nat \/ length ty = 16%nat) /\ crash_group (txlen s) (between (s_db s) st en)).
Proof.
  intros s r W M B. unfold h_read_by_group. split.
  - intro H. destruct (negb (Nat.eqb (length r) 7) && negb (Nat.eqb (length r) 21)) eqn:L; [discriminate|].
    assert (Lr : (length r = 7 \/ length r = 21)%nat) by lia. clear L.
    destruct r as [|op [|a [|b [|c [|x t]]]]]; cbn [length] in Lr; try lia. rewrite r16_1, r16_3 in H. cbn [gbind] in H.
    destruct ((de16 a b =? 0) || (de16 a b >? de16 c x)) eqn:R; [discriminate|]. rewrite (ltb_false (txlen s) 6) in H by lia.
    inversion B as [|? ? _ B1]; subst. inversion B1 as [|? ? Ba B2]; subst. inversion B2 as [|? ? Bb B3]; subst. inversion B3 as [|? ? Bc B4]; subst. inversion B4 as [|? ? Bd B5]; subst.
    assert (Ra := de16_range a b Ba Bb). assert (Rb := de16_range c x Bc Bd).
    rewrite between_range in H by (exact W || (split; lia)). cbn [gbind] in H.
    exists op, (de16 a b), (de16 c x), t. split; [now apply req_range_of|]. split; [split; lia|]. split; [lia|].
    destruct (rbg_loop (txlen s - 2) (between (s_db s) (de16 a b) (de16 c x)) 0 []) as [[code|[d buf]]|] eqn:G; cbn [gbind] in H.
    + discriminate.
    + apply rbg_len in G; [|lia|lia|cbn; lia]. destruct d; [discriminate|]. rewrite rsp_of_ok in H by (cbn [length]; lia). discriminate.
    + now apply rbg_panic in G.
  - intros (op & st & en & ty & -> & R & LT & C). rewrite req_range_len. replace (negb (Nat.eqb (5 + length ty) 7) && negb (Nat.eqb (5 + length ty) 21)) with false by lia.
    destruct R as [R1 R2]. rewrite req_range_st, req_range_en by lia. cbn [gbind]. replace ((st =? 0) || (st >? en)) with false by lia.
    rewrite (ltb_false (txlen s) 6) by lia. rewrite between_range by (exact W || (split; lia)). cbn [gbind].
    apply rbg_panic in C; [|lia]. rewrite C. reflexivity.
Qed.
Lemma write_panic : forall s e r, wf_db (s_db s) -> table_ok (s_db s) -> ninv s -> all_bytes r ->
  (h_write s e r = Panic <-> exists op h v a, r = req_handle op h v /\ 0 <= h < 65536 /\ attr_at (s_db s) h = Some a /\ is_cccd (a_wh a) /\ (length v < 2)%nat).
Proof.
  intros s e r W T N B. unfold h_write. split.
  - intro H. destruct (Nat.ltb (length r) 3) eqn:L; [discriminate|]. destruct r as [|op [|a [|b t]]]; try discriminate L.
    rewrite r16_1 in H. cbn [gbind] in H. rewrite attr_at_db in H by exact W. cbn [gbind] in H. destruct (attr_at (s_db s) (de16 a b)) as [x|] eqn:A; [|discriminate].
    rewrite gfrom_ok in H by (cbn [length]; lia). cbn [gbind skipn] in H. destruct (att_write s e x t) as [[[? ?] ?]|] eqn:E; [discriminate|].
    inversion B as [|? ? _ B1]; subst. inversion B1 as [|? ? Ba B2]; subst. inversion B2 as [|? ? Bb _]; subst.
    apply att_write_panic in E; [|exact N|unfold table_ok in T; rewrite Forall_forall in T; apply T; now apply attr_at_in in A].
    exists op, (de16 a b), t, x. split; [now apply req_handle_of|]. split; [now apply de16_range|]. split; [exact A|]. exact E.
  - intros (op & h & v & a & -> & Hh & A & C & L). change (Nat.ltb (length (req_handle op h v)) 3) with false. cbv iota.
    rewrite req_handle_h by exact Hh. cbn [gbind]. rewrite attr_at_db by exact W. cbn [gbind]. rewrite A, req_handle_rest. cbn [gbind].
    replace (att_write s e a v) with (@Panic (srv * Z * list call)); [reflexivity|]. symmetry. apply att_write_panic; [exact N| |now split].
    unfold table_ok in T. rewrite Forall_forall in T. apply T. now apply attr_at_in in A.
Qed.
Lemma write_cmd_panic : forall s e r, wf_db (s_db s) -> table_ok (s_db s) -> ninv s -> all_bytes r ->
  (h_write_cmd s e r = Panic <-> exists op h v a, r = req_handle op h v /\ 0 <= h < 65536 /\ v <> [] /\ attr_at (s_db s) h = Some a /\ is_cccd (a_wh a) /\ (length v < 2)%nat).
Proof.
  intros s e r W T N B. unfold h_write_cmd. split.
  - intro H. destruct (Nat.leb (length r) 3) eqn:L; [discriminate|]. destruct r as [|op [|a [|b [|y t]]]]; try discriminate L.
    rewrite r16_1 in H. cbn [gbind] in H. rewrite attr_at_db in H by exact W. cbn [gbind] in H. destruct (attr_at (s_db s) (de16 a b)) as [x|] eqn:A; [|discriminate].
    rewrite gfrom_ok in H by (cbn [length]; lia). cbn [gbind skipn] in H. destruct (att_write s e x (y :: t)) as [[[? ?] ?]|] eqn:E; [discriminate|].
    inversion B as [|? ? _ B1]; subst. inversion B1 as [|? ? Ba B2]; subst. inversion B2 as [|? ? Bb _]; subst.
    apply att_write_panic in E; [|exact N|unfold table_ok in T; rewrite Forall_forall in T; apply T; now apply attr_at_in in A].
    exists op, (de16 a b), (y :: t), x. split; [now apply req_handle_of|]. split; [now apply de16_range|]. split; [discriminate|]. split; [exact A|]. exact E.
  - intros (op & h & v & a & -> & Hh & NV & A & C & L). destruct v as [|y t]; [now elim NV|]. change (Nat.leb (length (req_handle op h (y :: t))) 3) with false. cbv iota.
    rewrite req_handle_h by exact Hh. cbn [gbind]. rewrite attr_at_db by exact W. cbn [gbind]. rewrite A, req_handle_rest. cbn [gbind].
    replace (att_write s e a (y :: t)) with (@Panic (srv * Z * list call)); [reflexivity|]. symmetry. apply att_write_panic; [exact N| |now split].
    unfold table_ok in T. rewrite Forall_forall in T. apply T. now apply attr_at_in in A.
Qed.
Lemma prepare_panic : forall s op t, wf_db (s_db s) -> all_bytes (op :: t) ->
  (h_prepare s (op :: t) = Panic <-> (length t < 2)%nat \/ exists h rest a, op :: t = req_handle op h rest /\ 0 <= h < 65536 /\ (length rest < 2)%nat /\ attr_at (s_db s) h = Some a /\ a_wh a <> None).
Proof.
  intros s op t W B. unfold h_prepare. destruct t as [|a [|b t]].
  - split; [intros _; left; cbn; lia|reflexivity].
  - split; [intros _; left; cbn; lia|reflexivity].
  - rewrite r16_1. cbn [gbind]. change (Nat.ltb (length (op :: a :: b :: t)) 3) with false. cbv iota. rewrite attr_at_db by exact W. cbn [gbind].
    inversion B as [|? ? _ B1]; subst. inversion B1 as [|? ? Ba B2]; subst. inversion B2 as [|? ? Bb _]; subst.
    split.
    + intro H. destruct (attr_at (s_db s) (de16 a b)) as [x|] eqn:A; [|discriminate]. destruct (a_wh x) as [w|] eqn:WH; [|discriminate].
      right. exists (de16 a b), t, x. split; [now apply req_handle_of|]. split; [now apply de16_range|]. split; [|split; [exact A|congruence]].
      destruct t as [|c [|y t]]; [cbn; lia|cbn; lia|]. exfalso. rewrite gfrom_ok in H by (cbn [length]; lia). rewrite r16_3 in H. discriminate H.
    + intros [C|(h & rest & x & E & Hh & L & A & WH)]; [cbn in C; lia|]. unfold req_handle, le16 in E. cbn [app] in E. injection E as -> -> ->.
      rewrite de16_le16, A by exact Hh. destruct (a_wh x); [|now elim WH]. destruct rest as [|c [|y t]]; [reflexivity| |cbn in L; lia].
      unfold gfrom. cbn. reflexivity.
Qed.
Lemma execute_panic : forall s e op t, ninv s -> (forall a, prep s = Some a -> attr_ok a /\ In a (db_attrs (s_db s)) /\ a_wh a <> None) ->
  (h_execute s e (op :: t) = Panic <-> exists rest, t = 1 :: rest /\ (prep s = None \/ exists a, prep s = Some a /\ is_cccd (a_wh a) /\ (length (prepdata s) < 2)%nat)).
Proof.
  intros s e op t N P. unfold h_execute. destruct t as [|f t].
  - split; [discriminate|]. intros (rest & E & _). discriminate E.
  - change (Nat.ltb (length (op :: f :: t)) 2) with false. change (gidx (op :: f :: t) 1) with (Ret f). cbv iota. cbn [gbind].
    destruct (f =? 0) eqn:F0; [split; [discriminate|]; intros (rest & E & _); injection E as -> _; discriminate F0|].
    destruct (f =? 1) eqn:F1; [|split; [discriminate|]; intros (rest & E & _); injection E as -> _; discriminate F1].
    apply Z.eqb_eq in F1. subst f. destruct (prep s) as [a|] eqn:PS.
    + destruct (P a eq_refl) as (PA & _ & PW). destruct (a_wh a) as [w|] eqn:WH; [|now elim PW]. split.
      * intro H. exists t. split; [reflexivity|]. right. exists a. split; [reflexivity|]. destruct (att_write s e a (prepdata s)) as [[[? ?] ?]|] eqn:E; [discriminate|].
        rewrite WH. rewrite <- WH. now apply att_write_panic in E.
      * intros (rest & _ & [C|(a' & E & C & L)]); [discriminate C|]. injection E as <-. replace (att_write s e a (prepdata s)) with (@Panic (srv * Z * list call)); [reflexivity|].
        symmetry. apply att_write_panic; [exact N|exact PA|now split].
    + split; [|reflexivity]. intros _. exists t. split; [reflexivity|now left].
Qed.
Lemma handle_panic : forall d s e r, wf_db d -> table_ok d -> all_bytes r -> sinv d s ->
  (handle s e r = Panic <-> crash_pdu d (txlen s) (prep s) (prepdata s) r).
Proof.
  intros d s e r W T B (D & M & N & P). subst d. destruct r as [|op t].
  - split; [discriminate|]. unfold crash_pdu, req_handle, req_range. intros [(? & ? & ? & ? & ? & E & _)|[(? & ? & ? & E & _)|[(? & ? & ? & ? & E & _)|[(? & E & _)|[(? & ? & ? & E & _)|(? & E & _)]]]]]; discriminate E.
  - unfold handle.
    assert (HD : forall o h v x, o :: x = req_handle o h v -> True) by auto.
    destruct (op =? 2) eqn:E2.
    { apply Z.eqb_eq in E2. subst op. split.
      - intro H. destruct (h_mtu s (2 :: t)) as [[? ?]|] eqn:G; [discriminate|]. exfalso. unfold h_mtu in G. destruct (Nat.eqb (length (2 :: t)) 3) eqn:L; cbn [negb] in G; [|discriminate].
        destruct t as [|a [|b [|? ?]]]; try discriminate L. rewrite r16_1 in G. cbn [gbind] in G. destruct (de16 a b <? 23); [discriminate|]. rewrite ltb_false in G by lia. discriminate.
      - unfold crash_pdu, req_handle, req_range. intros [(? & ? & ? & ? & ? & E & _ & [[-> _]|[-> _]] & _)|[(? & ? & ? & E & _)|[(? & ? & ? & ? & E & _ & [->|[-> _]] & _)|[(? & E & _)|[(? & ? & ? & E & _)|(? & E & _)]]]]]; discriminate E. }
    destruct (op =? 4) eqn:E4.
    { apply Z.eqb_eq in E4. subst op. split.
      - intro H. destruct (h_find_info s (4 :: t)) as [?|] eqn:G; [discriminate|]. now apply find_info_no_panic in G.
      - unfold crash_pdu, req_handle, req_range. intros [(? & ? & ? & ? & ? & E & _ & [[-> _]|[-> _]] & _)|[(? & ? & ? & E & _)|[(? & ? & ? & ? & E & _ & [->|[-> _]] & _)|[(? & E & _)|[(? & ? & ? & E & _)|(? & E & _)]]]]]; discriminate E. }
    destruct (op =? 6) eqn:E6.
    { apply Z.eqb_eq in E6. subst op. split.
      - intro H. destruct (h_find_by_type s (6 :: t)) as [?|] eqn:G; [discriminate|]. now apply find_by_type_no_panic in G.
      - unfold crash_pdu, req_handle, req_range. intros [(? & ? & ? & ? & ? & E & _ & [[-> _]|[-> _]] & _)|[(? & ? & ? & E & _)|[(? & ? & ? & ? & E & _ & [->|[-> _]] & _)|[(? & E & _)|[(? & ? & ? & E & _)|(? & E & _)]]]]]; discriminate E. }
    destruct (op =? 8) eqn:E8.
    { apply Z.eqb_eq in E8. subst op. split.
      - intro H. destruct (h_read_by_type s e (8 :: t)) as [[? ?]|] eqn:G; [discriminate|]. now apply read_by_type_no_panic in G.
      - unfold crash_pdu, req_handle, req_range. intros [(? & ? & ? & ? & ? & E & _ & [[-> _]|[-> _]] & _)|[(? & ? & ? & E & _)|[(? & ? & ? & ? & E & _ & [->|[-> _]] & _)|[(? & E & _)|[(? & ? & ? & E & _)|(? & E & _)]]]]]; discriminate E. }
    destruct (op =? 10) eqn:E10.
    { apply Z.eqb_eq in E10. subst op. split.
      - intro H. destruct (h_read s e (10 :: t)) as [[? ?]|] eqn:G; [discriminate|]. apply read_panic in G; [|assumption..]. destruct G as (o & h & a & v & E & Hh & A & V & L).
        left. exists o, h, [], a, v. split; [exact E|]. split; [exact Hh|]. split; [|split; [exact A|split; [exact V|exact L]]]. left. split; [|reflexivity]. unfold req_handle in E. now injection E.
      - unfold crash_pdu. intros [(o & h & rest & a & v & E & Hh & O & A & V & L)|[(? & ? & ? & E & _)|[(? & ? & ? & ? & E & _ & [->|[-> _]] & _)|[(? & E & _)|[(? & ? & ? & E & _)|(? & E & _)]]]]]; try discriminate E.
        replace (h_read s e (10 :: t)) with (@Panic (bytes * list call)); [reflexivity|]. symmetry. apply read_panic; [assumption..|]. destruct O as [[-> ->]|[-> _]]; [|discriminate E].
        exists 10, h, a, v. repeat (split; [assumption|]). assumption. }
    destruct (op =? 12) eqn:E12.
    { apply Z.eqb_eq in E12. subst op. split.
      - intro H. destruct (h_read_blob s e (12 :: t)) as [[? ?]|] eqn:G; [discriminate|]. apply read_blob_panic in G; [|assumption..]. destruct G as (o & h & rest & a & v & E & Hh & LR & A & V & L).
        left. exists o, h, rest, a, v. split; [exact E|]. split; [exact Hh|]. split; [|split; [exact A|split; [exact V|exact L]]]. right. split; [|exact LR]. unfold req_handle in E. now injection E.
      - unfold crash_pdu. intros [(o & h & rest & a & v & E & Hh & O & A & V & L)|[(? & ? & ? & E & _)|[(? & ? & ? & ? & E & _ & [->|[-> _]] & _)|[(? & E & _)|[(? & ? & ? & E & _)|(? & E & _)]]]]]; try discriminate E.
        replace (h_read_blob s e (12 :: t)) with (@Panic (bytes * list call)); [reflexivity|]. symmetry. apply read_blob_panic; [assumption..|]. destruct O as [[-> ->]|[-> LR]]; [discriminate E|].
        exists 12, h, rest, a, v. repeat (split; [assumption|]). assumption. }
    destruct (op =? 16) eqn:E16.
    { apply Z.eqb_eq in E16. subst op. split.
      - intro H. destruct (h_read_by_group s (16 :: t)) as [?|] eqn:G; [discriminate|]. apply read_group_panic in G; [|assumption..]. destruct G as (o & st & en & ty & E & R & L & C).
        right. left. exists st, en, ty. split; [|repeat (split; [assumption|]); assumption]. assert (o = 16) by (unfold req_range in E; now injection E). subst o. exact E.
      - unfold crash_pdu. intros [(? & ? & ? & ? & ? & E & _ & [[-> _]|[-> _]] & _)|[(st & en & ty & E & R & L & C)|[(? & ? & ? & ? & E & _ & [->|[-> _]] & _)|[(? & E & _)|[(? & ? & ? & E & _)|(? & E & _)]]]]]; try discriminate E.
        replace (h_read_by_group s (16 :: t)) with (@Panic bytes); [reflexivity|]. symmetry. apply read_group_panic; [assumption..|]. exists 16, st, en, ty. repeat (split; [assumption|]). assumption. }
    destruct (op =? 18) eqn:E18.
    { apply Z.eqb_eq in E18. subst op. split.
      - intro H. destruct (h_write s e (18 :: t)) as [[[? ?] ?]|] eqn:G; [discriminate|]. apply write_panic in G; [|assumption..]. destruct G as (o & h & v & a & E & Hh & A & C & L).
        right. right. left. exists o, h, v, a. split; [exact E|]. split; [exact Hh|]. split; [left; unfold req_handle in E; now injection E|]. split; [exact A|]. now split.
      - unfold crash_pdu. intros [(? & ? & ? & ? & ? & E & _ & [[-> _]|[-> _]] & _)|[(? & ? & ? & E & _)|[(o & h & v & a & E & Hh & O & A & C & L)|[(? & E & _)|[(? & ? & ? & E & _)|(? & E & _)]]]]]; try discriminate E.
        replace (h_write s e (18 :: t)) with (@Panic (srv * bytes * list call)); [reflexivity|]. symmetry. apply write_panic; [assumption..|]. exists o, h, v, a. repeat (split; [assumption|]). assumption. }
    destruct (op =? 82) eqn:E82.
    { apply Z.eqb_eq in E82. subst op. split.
      - intro H. destruct (h_write_cmd s e (82 :: t)) as [[? ?]|] eqn:G; [discriminate|]. apply write_cmd_panic in G; [|assumption..]. destruct G as (o & h & v & a & E & Hh & NV & A & C & L).
        right. right. left. exists o, h, v, a. split; [exact E|]. split; [exact Hh|]. split; [right; split; [unfold req_handle in E; now injection E|exact NV]|]. split; [exact A|]. now split.
      - unfold crash_pdu. intros [(? & ? & ? & ? & ? & E & _ & [[-> _]|[-> _]] & _)|[(? & ? & ? & E & _)|[(o & h & v & a & E & Hh & O & A & C & L)|[(? & E & _)|[(? & ? & ? & E & _)|(? & E & _)]]]]]; try discriminate E.
        replace (h_write_cmd s e (82 :: t)) with (@Panic (srv * list call)); [reflexivity|]. symmetry. apply write_cmd_panic; [assumption..|]. destruct O as [->|[-> NV]]; [discriminate E|].
        exists 82, h, v, a. repeat (split; [assumption|]). assumption. }
    destruct (op =? 22) eqn:E22.
    { apply Z.eqb_eq in E22. subst op. split.
      - intro H. destruct (h_prepare s (22 :: t)) as [[? ?]|] eqn:G; [discriminate|]. apply prepare_panic in G; [|assumption..]. destruct G as [L|(h & rest & a & E & Hh & L & A & WH)].
        + right. right. right. left. exists t. split; [reflexivity|exact L].
        + right. right. right. right. left. exists h, rest, a. repeat (split; [assumption|]). assumption.
      - unfold crash_pdu. intros [(? & ? & ? & ? & ? & E & _ & [[-> _]|[-> _]] & _)|[(? & ? & ? & E & _)|[(? & ? & ? & ? & E & _ & [->|[-> _]] & _)|[(rest & E & L)|[(h & rest & a & E & Hh & L & A & WH)|(? & E & _)]]]]]; try discriminate E;
        (replace (h_prepare s (22 :: t)) with (@Panic (srv * bytes)); [reflexivity|]); symmetry; (apply prepare_panic; [assumption..|]).
        + injection E as ->. now left.
        + right. exists h, rest, a. repeat (split; [assumption|]). assumption. }
    destruct (op =? 24) eqn:E24.
    { apply Z.eqb_eq in E24. subst op. split.
      - intro H. destruct (h_execute s e (24 :: t)) as [[[? ?] ?]|] eqn:G; [discriminate|]. apply execute_panic in G; [|assumption..]. destruct G as (rest & E & C).
        right. right. right. right. right. exists rest. split; [congruence|exact C].
      - unfold crash_pdu. intros [(? & ? & ? & ? & ? & E & _ & [[-> _]|[-> _]] & _)|[(? & ? & ? & E & _)|[(? & ? & ? & ? & E & _ & [->|[-> _]] & _)|[(? & E & _)|[(? & ? & ? & E & _)|(rest & E & C)]]]]]; try discriminate E.
        replace (h_execute s e (24 :: t)) with (@Panic (srv * bytes * list call)); [reflexivity|]. symmetry. apply execute_panic; [assumption..|]. exists rest. split; [congruence|exact C]. }
    split; [discriminate|]. unfold crash_pdu, req_handle, req_range. cbn [app].
    intros [(? & ? & ? & ? & ? & E & _ & [[-> _]|[-> _]] & _)|[(? & ? & ? & E & _)|[(? & ? & ? & ? & E & _ & [->|[-> _]] & _)|[(? & E & _)|[(? & ? & ? & E & _)|(? & E & _)]]]]]; injection E as -> _; discriminate.
Qed.
