(** Lemmas for C165. *)
Require Import Verif.Base Verif.M_l2cap Verif.S_l2cap Verif.P_l2cap Verif.P_l2cap2 Verif.S_link.
Lemma acl_body : forall h st a, skipn 5 (2 :: acl h st a) = a.
Proof. reflexivity. Qed.
Lemma conts_body : forall n h b fs, conts n h b fs -> flat_map (skipn 5) (map (cons 2) fs) = b.
Proof. intros n h b fs H. induction H as [|a b fs HL H IH]; [reflexivity|]. cbn [map flat_map]. rewrite acl_body, IH. reflexivity. Qed.
Lemma frags_body : forall n h p fs, frags n h p fs -> flat_map (skipn 5) (map (cons 2) fs) = p.
Proof.
  intros n h p fs (a & b & fs' & HL & -> & -> & H). cbn [map flat_map]. rewrite acl_body, (conts_body _ _ _ _ H). reflexivity.
Qed.
Lemma write_body : forall mtu h n sdu out, 0 <= h < 4096 -> (1 <= n)%nat -> conn_write mtu h n sdu = Ret (Some out) ->
  flat_map (skipn 5) out = b_frame 4 sdu.
Proof.
  intros mtu h n sdu out Hh Hn E. destruct (conn_write_spec mtu h n sdu Hh Hn) as [[_ E']|[_ (fs & E' & F)]]; rewrite E in E'; [discriminate E'|].
  assert (out = map (cons 2) fs) as -> by congruence. now apply (frags_body n h).
Qed.
(** a proper prefix of the fragments of a PDU carries a proper prefix of the PDU *)
Lemma conts_prefix : forall h b fs, rx_conts h b fs -> forall pre x later, fs = pre ++ x :: later ->
  exists b1 b2, b = b1 ++ b2 /\ b2 <> [] /\ rx_conts h b1 pre.
Proof.
  intros h b fs H. induction H as [|a b fs Ha H IH]; intros pre x later E; [destruct pre; discriminate E|].
  destruct pre as [|y pre].
  - exists [], (a ++ b). split; [reflexivity|]. split; [destruct a; [congruence|discriminate]|constructor].
  - cbn [app] in E. assert (E1 : acl h 1 a = y) by congruence. assert (E2 : fs = pre ++ x :: later) by congruence. subst y.
    destruct (IH pre x later E2) as (b1 & b2 & -> & N & C). exists (a ++ b1), b2. rewrite <- app_assoc. split; [reflexivity|]. split; [exact N|]. now constructor.
Qed.
Lemma frags_prefix : forall h p y pre x later, rx_frags h p (y :: pre ++ x :: later) ->
  exists p1 p2, p = p1 ++ p2 /\ p2 <> [] /\ rx_frags h p1 (y :: pre).
Proof.
  intros h p y pre x later (a & b & fs' & st & H4 & Hst & -> & E & C). assert (y = acl h st a) as -> by congruence.
  assert (E2 : fs' = pre ++ x :: later) by congruence. destruct (conts_prefix h b fs' C pre x later E2) as (b1 & b2 & -> & N & C').
  exists (a ++ b1), b2. rewrite <- app_assoc. split; [reflexivity|]. split; [exact N|]. exists a, b1, pre, st. repeat (split; [assumption || reflexivity|]). exact C'.
Qed.
(** every prefix of the packets of PDUs gives exactly the PDUs whose packets are all in it *)
Lemma recombine_prefix : forall rxmps h ps fss, 0 <= h < 4096 -> Forall (good_pdu rxmps) ps -> Forall2 (rx_frags h) ps fss ->
  forall pre later, pre ++ later = concat fss ->
  exists k part, recombine_run rxmps pre = Ret (firstn k ps, true) /\ (k <= length ps)%nat /\ pre = concat (firstn k fss) ++ part /\
    (part = [] \/ exists fs more, nth_error fss k = Some fs /\ fs = part ++ more /\ more <> []).
Proof.
  intros rxmps h ps fss Hh Hg HF pre later E.
  assert (S : exists k part, (k <= length ps)%nat /\ pre = concat (firstn k fss) ++ part /\
    (part = [] \/ exists fs more, nth_error fss k = Some fs /\ fs = part ++ more /\ more <> [])).
  { revert pre later E. clear Hg. induction HF as [|p fs ps fss Hp HF IH]; intros pre later E.
    - apply app_eq_nil in E as [-> ->]. exists 0%nat, []. auto.
    - cbn [concat] in E. apply List.app_eq_app in E. destruct E as (l & [[-> E]|[E ->]]).
      + symmetry in E. destruct (IH l later E) as (k & part & Hk & -> & D). exists (S k), part. cbn [length firstn concat nth_error]. rewrite <- app_assoc.
        split; [lia|]. auto.
      + destruct l as [|x l].
        * rewrite app_nil_r in E. subst pre. exists 1%nat, []. cbn [length firstn concat]. rewrite !app_nil_r. split; [lia|]. auto.
        * exists 0%nat, pre. cbn [firstn concat app nth_error]. split; [lia|]. split; [reflexivity|]. right. exists fs, (x :: l). split; [reflexivity|]. split; [exact E|discriminate]. }
  destruct S as (k & part & Hk & -> & D). exists k, part. split; [|auto].
  assert (Hg' : Forall (good_pdu rxmps) (firstn k ps)).
  { apply Forall_forall. intros q Q. rewrite Forall_forall in Hg. apply Hg. rewrite <- (firstn_skipn k ps). apply in_or_app. now left. }
  assert (HF' : Forall2 (rx_frags h) (firstn k ps) (firstn k fss)).
  { clear - HF. revert k. induction HF as [|p fs ps fss Hp HF IH]; intros [|k]; [constructor|constructor|constructor|]; cbn [firstn]; constructor; auto. }
  destruct D as [->|(fs & more & N & -> & M)].
  - rewrite app_nil_r. unfold recombine_run. apply (recombine_seq rxmps h (firstn k ps) (firstn k fss) Hh Hg' HF'). lia.
  - destruct part as [|y part].
    { rewrite app_nil_r. unfold recombine_run. apply (recombine_seq rxmps h (firstn k ps) (firstn k fss) Hh Hg' HF'). lia. }
    destruct more as [|x more]; [congruence|].
    assert (P : exists p, nth_error ps k = Some p /\ rx_frags h p (y :: part ++ x :: more)).
    { clear - HF N. revert k N. induction HF as [|p fs ps fss Hp HF IH]; intros k N; [destruct k; discriminate N|].
      destruct k as [|k]; cbn [nth_error] in *; [|now apply IH]. exists p. split; [reflexivity|]. injection N as ->. exact Hp. }
    destruct P as (p & P1 & P2). destruct (frags_prefix _ _ _ _ _ _ P2) as (p1 & p2 & -> & N2 & F).
    refine (proj1 (recombine_cut rxmps h (firstn k ps) (firstn k fss) p1 p2 (y :: part) Hh Hg' HF' _ N2 F)).
    rewrite Forall_forall in Hg. apply Hg. now apply nth_error_In with (n := k).
Qed.
