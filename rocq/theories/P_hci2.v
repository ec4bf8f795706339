(** Proofs about the HCI host: decoding, crashes, routing of data, life of a connection. *)
Require Import Verif.Base Verif.M_uuid Verif.M_advrep Verif.M_hci Verif.S_hci Verif.P_hci.

(** ---- decoding ---- *)
Lemma dec_acl_ok : forall h pb bc data, 0 <= h < 4096 -> 0 <= pb < 4 -> 0 <= bc < 4 ->
  dec_pkt (acl_packet h pb bc data) = Ret (KAcl h (skipn 1 (acl_packet h pb bc data))).
Proof.
  intros h pb bc data H P B. unfold dec_pkt, acl_packet. cbn [app gidx nth_error gbind].
  rewrite gfrom_ok by (cbn; lia). cbn [gbind skipn Z.eqb Pos.eqb]. unfold dec_acl. cbn [gidx nth_error gbind].
  do 2 f_equal. lia.
Qed.

Lemma dec_event : forall code params, (length params < 256)%nat -> dec_pkt (event code params) =
  if code =? 62 then dec_meta params
  else if (code =? 14) || (code =? 15) || (code =? 255) then Ret (KCmd code params)
  else if code =? 5 then dec_disc params
  else if code =? 19 then Ret (KCompleted params)
  else if code =? 8 then dec_enc params
  else Ret KNothing.
Proof.
  intros code params L. unfold dec_pkt, event. cbn [app gidx nth_error gbind].
  rewrite gfrom_ok by (cbn; lia). cbn [gbind skipn Z.eqb Pos.eqb]. unfold dec_evt. cbn [gidx nth_error gbind].
  rewrite gfrom_ok by (cbn; lia). cbn [gbind skipn]. rewrite Z.eqb_refl. reflexivity.
Qed.

Lemma dec_connected_ok : forall handle role ptype addr i la t ac, 0 <= handle < 65536 -> length addr = 6%nat ->
  dec_pkt (ev_connected 0 handle role ptype addr i la t ac) = Ret (KConn handle role (Some ptype) addr).
Proof.
  intros handle role ptype addr i la t ac H L. unfold ev_connected. rewrite dec_event.
  2:{ rewrite !app_length, !le16_length, L. cbn. lia. }
  do 6 (destruct addr as [|? addr]; [discriminate L|]). destruct addr; [|discriminate L].
  cbv [app Z.eqb Pos.eqb]. unfold dec_meta, le16. cbn [app gidx nth_error gbind Z.eqb Pos.eqb]. unfold dec_conn.
  cbn [gidx nth_error gbind Z.eqb Pos.eqb negb]. rewrite !gfrom_ok by (cbn; lia). cbn [skipn gbind gle16].
  rewrite de16_le16 by lia. cbn [pad6 app firstn repeat]. reflexivity.
Qed.
Lemma dec_failed_ok : forall st handle role ptype addr i la t ac, st <> 0 -> length addr = 6%nat ->
  dec_pkt (ev_connected st handle role ptype addr i la t ac) = Ret KNothing.
Proof.
  intros st handle role ptype addr i la t ac H L. unfold ev_connected. rewrite dec_event.
  2:{ rewrite !app_length, !le16_length, L. cbn. lia. }
  cbv [app Z.eqb Pos.eqb]. unfold dec_meta, le16. cbn [app gidx nth_error gbind Z.eqb Pos.eqb]. unfold dec_conn.
  cbn [gidx nth_error gbind]. destruct (Z.eqb_spec st 0); [contradiction|reflexivity].
Qed.
Lemma dec_disconnected_ok : forall st handle reason, 0 <= handle < 65536 ->
  dec_pkt (ev_disconnected st handle reason) = Ret (KDisc handle reason).
Proof.
  intros st handle reason H. unfold ev_disconnected. rewrite dec_event by (cbn; lia).
  cbv [app Z.eqb Pos.eqb orb]. unfold dec_disc, le16. cbn [app gidx nth_error gbind]. rewrite gfrom_ok by (cbn; lia).
  cbn [skipn gbind gle16]. now rewrite de16_le16 by lia.
Qed.

(** ---- crashes ---- *)
Definition gpanics {A} (x : go A) : Prop := x = Panic.

Lemma dec_pkt_panic : forall b, gpanics (dec_pkt b) <->
  match b with
  | [] => True
  | t :: p =>
    (t = 2 /\ (length p < 2)%nat) \/
    (t = 4 /\ match p with
      | code :: n :: q => n = Z.of_nat (length q) /\
          ((code = 62 /\ (q = [] \/ (exists r, q = 1 :: r /\ match r with [] => True | st :: _ => st = 0 /\ (length q < 6)%nat end)
                          \/ (exists r, q = 48 :: r /\ (length r < 2)%nat)))
           \/ (code = 5 /\ (length q < 4)%nat) \/ (code = 8 /\ (length q < 3)%nat))
      | _ => True
      end)
  end.
Proof.
  intros b. unfold gpanics. destruct b as [|t p]; [split; auto|].
  unfold dec_pkt. cbn [gidx nth_error gbind]. rewrite gfrom_ok by (cbn; lia). cbn [gbind skipn].
  destruct (Z.eqb_spec t 2) as [->|N2].
  { unfold dec_acl. destruct p as [|x [|y p]]; cbn [gidx nth_error gbind length].
    - split; [intros _; left; lia|auto].
    - split; [intros _; left; lia|auto].
    - split; [discriminate|]. intros [[_ X]|[X _]]; lia. }
  destruct (Z.eqb_spec t 4) as [->|N4].
  2:{ split; [discriminate|]. intros [[X _]|[X _]]; contradiction. }
  unfold dec_evt. destruct p as [|code [|n q]]; [split; auto| split; auto |]; cbn [gidx nth_error gbind].
  rewrite gfrom_ok by (cbn; lia). cbn [gbind skipn].
  destruct (Z.eqb_spec n (Z.of_nat (length q))) as [->|Nn]; cbn [negb].
  2:{ split; [discriminate|]. intros [[X _]|[_ [X _]]]; [lia|contradiction]. }
  destruct (Z.eqb_spec code 62) as [->|C62].
  { unfold dec_meta. destruct q as [|sub r]; cbn [gidx nth_error gbind]; [split; auto; intros _; right; repeat split; auto; left; auto|].
    destruct (Z.eqb_spec sub 2) as [->|S2]; [split; [discriminate|]; intros [[X _]|(_ & _ & [(_ & [X|[(? & X & _)|(? & X & _)]])|[[X _]|[X _]]])]; try lia; discriminate|].
    destruct (Z.eqb_spec sub 1) as [->|S1].
    { unfold dec_conn. destruct r as [|st r]; cbn [gidx nth_error gbind]; [split; auto; intros _; right; repeat split; auto; left; split; auto; right; left; exists []; split; [reflexivity|exact I]|].
      destruct (Z.eqb_spec st 0) as [->|St]; cbn [negb].
      - destruct r as [|a [|b [|c [|d r]]]]; cbn [gfrom Nat.leb length gbind skipn gle16 gidx nth_error];
          try (split; auto; intros _; right; repeat split; auto; left; split; auto; right; left; eexists; split; [reflexivity|]; split; auto; cbn; lia).
        split; [discriminate|]. intros [[X _]|(_ & _ & [(_ & [X|[(? & X & Y)|(? & X & _)]])|[[X _]|[X _]]])]; try lia; try discriminate.
        injection X as <-. destruct Y as [_ Y]. cbn in Y. lia.
      - split; [discriminate|]. intros [[X _]|(_ & _ & [(_ & [X|[(? & X & Y)|(? & X & _)]])|[[X _]|[X _]]])]; try lia; try discriminate.
        injection X as <-. destruct Y. contradiction. }
    destruct (Z.eqb_spec sub 48) as [->|S48].
    { unfold dec_refresh. destruct r as [|a [|b r]]; cbn [gfrom Nat.leb length gbind skipn gle16 gidx nth_error];
        try (split; auto; intros _; right; repeat split; auto; left; split; auto; right; right; eexists; split; [reflexivity|cbn; lia]).
      split; [discriminate|]. intros [[X _]|(_ & _ & [(_ & [X|[(? & X & Y)|(? & X & Y)]])|[[X _]|[X _]]])]; try lia; try discriminate.
      injection X as <-. cbn in Y. lia. }
    split; [discriminate|]. intros [[X _]|(_ & _ & [(_ & [X|[(? & X & Y)|(? & X & Y)]])|[[X _]|[X _]]])]; try lia; try discriminate; congruence. }
  destruct ((code =? 14) || (code =? 15) || (code =? 255))%bool eqn:CC.
  { split; [discriminate|]. intros [[X _]|(_ & _ & [(X & _)|[[X _]|[X _]]])]; try lia; try contradiction; subst code; discriminate. }
  destruct (Z.eqb_spec code 5) as [->|C5].
  { unfold dec_disc. destruct q as [|a [|b [|c [|d q]]]]; cbn [gfrom Nat.leb length gbind skipn gle16 gidx nth_error];
      try (split; auto; intros _; right; repeat split; auto; right; left; split; auto; lia).
    split; [discriminate|]. intros [[X _]|(_ & _ & [(X & _)|[[_ X]|[X _]]])]; lia. }
  destruct (Z.eqb_spec code 19) as [->|C19].
  { split; [discriminate|]. intros [[X _]|(_ & _ & [(X & _)|[[X _]|[X _]]])]; lia. }
  destruct (Z.eqb_spec code 8) as [->|C8].
  { unfold dec_enc. destruct q as [|a [|b [|c q]]]; cbn [gfrom Nat.leb length gbind skipn gle16 gidx nth_error];
      try (split; auto; intros _; right; repeat split; auto; right; right; split; auto; lia).
    split; [discriminate|]. intros [[X _]|(_ & _ & [(X & _)|[[X _]|[_ X]]])]; lia. }
  split; [discriminate|]. intros [[X _]|(_ & _ & [(X & _)|[[X _]|[X _]]])]; try lia; contradiction.
Qed.

Definition known (s : host) (h : Z) : Prop := exists c, tab s h = Some c.
