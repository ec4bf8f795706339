Require Import Verif.Base Verif.M_uuid Verif.S_uuid Verif.P_uuid Verif.M_adv Verif.S_adv Verif.P_adv Verif.P_adv2 Verif.M_advrep Verif.S_advrep.

(** ---- no accessor reads outside the event ---- *)
Lemma get_bytes_spec : forall b s c,
  get_bytes b s c = Ret (if Nat.ltb s (length b) && Nat.leb (s + c) (length b) then Some (firstn c (skipn s b)) else None).
Proof.
  intros b s c. unfold get_bytes.
  destruct (Nat.leb (length b) s) eqn:E1.
  - destruct (Nat.ltb s (length b)) eqn:E2; [lia|reflexivity].
  - destruct (Nat.ltb s (length b)) eqn:E2; [|lia].
    destruct (Nat.ltb (length b) (s + c)) eqn:E3.
    + destruct (Nat.leb (s + c) (length b)) eqn:E4; [lia|reflexivity].
    + destruct (Nat.leb (s + c) (length b)) eqn:E4; [|lia].
      rewrite gslice_ok by lia. cbn [gbind andb]. do 3 f_equal. lia.
Qed.
Lemma get_byte_spec : forall b i, get_byte b i = Ret (nth_error b i).
Proof.
  intros b i. unfold get_byte. rewrite get_bytes_spec. 
  destruct (nth_error b i) as [x|] eqn:E.
  - assert (H : (i < length b)%nat) by (apply nth_error_Some; congruence).
    destruct (Nat.ltb i (length b)) eqn:E1; [|lia]. destruct (Nat.leb (i + 1) (length b)) eqn:E2; [|lia].
    cbn [andb obind]. apply nth_error_split in E. destruct E as (l1 & l2 & -> & <-).
    rewrite skipn_app_exact. reflexivity.
  - apply nth_error_None in E. destruct (Nat.ltb i (length b)) eqn:E1; [lia|]. reflexivity.
Qed.
Lemma obind_np : forall {A B} (x : gopt A) (f : A -> gopt B), x <> Panic -> (forall a, f a <> Panic) -> obind x f <> Panic.
Proof. intros A B [[a|]|] f H1 H2; cbn; [apply H2|discriminate|congruence]. Qed.
Lemma get_bytes_np : forall b s c, get_bytes b s c <> Panic.
Proof. intros. rewrite get_bytes_spec. discriminate. Qed.
Lemma get_byte_np : forall b i, get_byte b i <> Panic.
Proof. intros. rewrite get_byte_spec. discriminate. Qed.
Lemma get_u16_np : forall b i, get_u16 b i <> Panic.
Proof.
  intros b i. unfold get_u16. rewrite get_bytes_spec.
  destruct (Nat.ltb i (length b) && Nat.leb (i + 2) (length b))%bool eqn:E; [|discriminate]. cbn [obind].
  assert (H : length (firstn 2 (skipn i b)) = 2%nat) by (rewrite firstn_length, skipn_length; lia).
  destruct (firstn 2 (skipn i b)) as [|x [|y l]]; try discriminate.
Qed.
Lemma num_reports_np : forall e, num_reports e <> Panic. Proof. intro. apply get_byte_np. Qed.
Lemma length_data_np : forall e i, length_data e i <> Panic.
Proof. intros. unfold length_data. apply obind_np; [apply num_reports_np|intro; apply get_byte_np]. Qed.
Lemma sum_lengths_np : forall e n j, sum_lengths e j n <> Panic.
Proof.
  intros e n. induction n as [|n IH]; intro j; cbn [sum_lengths]; [discriminate|].
  apply obind_np; [apply length_data_np|]. intro a. apply obind_np; [apply IH|discriminate].
Qed.
Lemma rep_data_np : forall e i, rep_data e i <> Panic.
Proof.
  intros. unfold rep_data. apply obind_np; [apply num_reports_np|]. intro. apply obind_np; [apply sum_lengths_np|].
  intro. apply obind_np; [apply length_data_np|]. intro. apply get_bytes_np.
Qed.
Lemma rep_rssi_np : forall e i, rep_rssi e i <> Panic.
Proof.
  intros. unfold rep_rssi. apply obind_np; [apply num_reports_np|]. intro. apply obind_np; [apply sum_lengths_np|].
  intro. apply obind_np; [apply get_byte_np|]. discriminate.
Qed.
Lemma address_np : forall e i, address e i <> Panic.
Proof. intros. unfold address. apply obind_np; [apply num_reports_np|]. intro. apply get_bytes_np. Qed.
Lemma address_type_np : forall e i, address_type e i <> Panic.
Proof. intros. unfold address_type. apply obind_np; [apply num_reports_np|]. intro. apply get_byte_np. Qed.

Lemma accessors_never_panic : forall e i,
  num_reports e <> Panic /\ event_type e i <> Panic /\ address_type e i <> Panic /\ address e i <> Panic /\
  length_data e i <> Panic /\ rep_data e i <> Panic /\ rep_rssi e i <> Panic /\
  cc_num_pkts e <> Panic /\ cc_opcode e <> Panic /\ cc_params e <> Panic /\
  ncp_handles e <> Panic /\ ncp_handle e i <> Panic /\ ncp_count e i <> Panic.
Proof.
  intros e i. repeat split; try apply get_byte_np; try apply get_u16_np;
  auto using num_reports_np, address_type_np, address_np, length_data_np, rep_data_np, rep_rssi_np.
  unfold cc_params, get_bytes_from. destruct (Nat.leb (length e) 3) eqn:E; [discriminate|]. rewrite gfrom_ok by lia. discriminate.
Qed.

(** ---- layout ---- *)
Lemma get_byte_mid : forall (A B C : bytes) k i x, k = (length A + i)%nat -> nth_error B i = Some x -> get_byte (A ++ B ++ C) k = Ret (Some x).
Proof.
  intros A B C k i x -> H. rewrite get_byte_spec. rewrite nth_error_app2 by lia.
  replace (length A + i - length A)%nat with i by lia.
  rewrite nth_error_app1 by (apply nth_error_Some; congruence). now rewrite H.
Qed.
Lemma get_bytes_at : forall (pre mid post : bytes) i c, i = length pre -> c = length mid -> mid ++ post <> [] ->
  get_bytes (pre ++ mid ++ post) i c = Ret (Some mid).
Proof.
  intros pre mid post i c -> -> H. rewrite get_bytes_spec.
  assert (HL : (0 < length (mid ++ post))%nat) by (destruct (mid ++ post); [congruence|cbn; lia]).
  rewrite skipn_app_exact, firstn_app_exact. rewrite !app_length in *.
  replace (length pre <? length pre + (length mid + length post))%nat with true by lia.
  replace (length pre + length mid <=? length pre + (length mid + length post))%nat with true by lia.
  reflexivity.
Qed.
Lemma flat_map_split : forall {X} (f : X -> bytes) l i x, nth_error l i = Some x ->
  flat_map f l = flat_map f (firstn i l) ++ f x ++ flat_map f (skipn (S i) l).
Proof.
  intros X f l. induction l as [|y l IH]; intros [|i] x E; try discriminate.
  - cbn in E. injection E as ->. reflexivity.
  - cbn [nth_error] in E. cbn [flat_map firstn]. rewrite (IH i x E). rewrite <- app_assoc. reflexivity.
Qed.
Lemma addr_len : forall l, Forall report_ok l -> length (flat_map r_addr l) = (6 * length l)%nat.
Proof.
  induction l as [|r l IH]; intro H; [reflexivity|]. inversion H as [|? ? Hr Hl]; subst.
  cbn [flat_map length]. rewrite app_length, (IH Hl). destruct Hr as (_ & _ & -> & _). lia.
Qed.

Section Layout.
  Variable rs : list report.
  Hypothesis Hok : Forall report_ok rs.
  Let e := enc_reports rs.
  Let n := length rs.
  Let hd := [2; Z.of_nat (length rs)].
  Let T := map r_type rs.
  Let AT := map r_addrtype rs.
  Let AD := flat_map r_addr rs.
  Let LN := map (fun r => Z.of_nat (length (r_data r))) rs.
  Let DT := flat_map r_data rs.
  Let RS := map r_rssi rs.
  Lemma e_eq : e = hd ++ T ++ AT ++ AD ++ LN ++ DT ++ RS. Proof. reflexivity. Qed.
  Lemma lens : length hd = 2%nat /\ length T = n /\ length AT = n /\ length AD = (6 * n)%nat /\ length LN = n /\ length RS = n.
  Proof. unfold T, AT, AD, LN, RS, n. rewrite !map_length, (addr_len rs Hok). repeat split. Qed.
  Ltac ll := destruct lens as (L1 & L2 & L3 & L4 & L5 & L6); repeat rewrite app_length; lia.

  Lemma lay_num : num_reports e = Ret (Some (Z.of_nat n)).
  Proof. reflexivity. Qed.
  Lemma lay_type : forall i r, nth_error rs i = Some r -> event_type e i = Ret (Some (r_type r)).
  Proof.
    intros i r E. unfold event_type. rewrite e_eq. apply (get_byte_mid hd T _ _ i); [ll|].
    unfold T. now apply map_nth_error.
  Qed.
  Lemma lay_addrtype : forall i r, nth_error rs i = Some r -> address_type e i = Ret (Some (r_addrtype r)).
  Proof.
    intros i r E. unfold address_type. rewrite lay_num. cbn [obind]. rewrite Nat2Z.id. rewrite e_eq.
    rewrite app_assoc. apply (get_byte_mid (hd ++ T) AT _ _ i); [ll|].
    unfold AT. now apply map_nth_error.
  Qed.
  Lemma Forall_nth : forall i r, nth_error rs i = Some r -> report_ok r.
  Proof. intros i r E. apply nth_error_In in E. rewrite Forall_forall in Hok. auto. Qed.
  Lemma lay_addr : forall i r, nth_error rs i = Some r -> address e i = Ret (Some (r_addr r)).
  Proof.
    intros i r E. unfold address. rewrite lay_num. cbn [obind]. rewrite Nat2Z.id. rewrite e_eq.
    assert (Hi : (i < length rs)%nat) by (apply nth_error_Some; congruence).
    unfold AD. rewrite (flat_map_split r_addr rs i r E).
    replace (hd ++ T ++ AT ++ (flat_map r_addr (firstn i rs) ++ r_addr r ++ flat_map r_addr (skipn (S i) rs)) ++ LN ++ DT ++ RS)
      with ((hd ++ T ++ AT ++ flat_map r_addr (firstn i rs)) ++ r_addr r ++ (flat_map r_addr (skipn (S i) rs) ++ LN ++ DT ++ RS))
      by now rewrite <- !app_assoc.
    destruct (Forall_nth i r E) as (_ & _ & HL & _).
    apply get_bytes_at; [|now rewrite HL|destruct (r_addr r); [discriminate HL|discriminate]].
    destruct lens as (L1 & L2 & L3 & L4 & L5 & L6). rewrite !app_length.
    rewrite (addr_len (firstn i rs)) by now apply Forall_firstn. rewrite firstn_length. lia.
  Qed.
  Lemma lay_len : forall i r, nth_error rs i = Some r -> length_data e i = Ret (Some (Z.of_nat (length (r_data r)))).
  Proof.
    intros i r E. unfold length_data. rewrite lay_num. cbn [obind]. rewrite Nat2Z.id. rewrite e_eq.
    rewrite (app_assoc AT), (app_assoc T), (app_assoc hd).
    apply (get_byte_mid (hd ++ T ++ AT ++ AD) LN _ _ i); [ll|].
    unfold LN. now apply (map_nth_error (fun r => Z.of_nat (length (r_data r)))).
  Qed.
  Lemma lay_sum : forall k i, (i + k <= n)%nat -> sum_lengths e i k = Ret (Some (length (flat_map r_data (firstn k (skipn i rs))))).
  Proof.
    induction k as [|k IH]; intros i H; [reflexivity|].
    assert (Hi : (i < length rs)%nat) by (unfold n in H; lia).
    destruct (nth_error rs i) as [r|] eqn:E; [|apply nth_error_None in E; lia].
    cbn [sum_lengths]. rewrite (lay_len i r E). cbn [obind]. rewrite Nat2Z.id.
    rewrite IH by lia. cbn [obind].
    apply nth_error_split in E. destruct E as (l1 & l2 & El & <-). rewrite El.
    rewrite skipn_app_exact. cbn [firstn flat_map]. rewrite app_length.
    replace (S (length l1)) with (length (l1 ++ [r])) by (rewrite app_length; cbn; lia).
    replace (l1 ++ r :: l2) with ((l1 ++ [r]) ++ l2) by now rewrite <- app_assoc.
    now rewrite skipn_app_exact.
  Qed.
  Lemma lay_data : forall i r, nth_error rs i = Some r -> rep_data e i = Ret (Some (r_data r)).
  Proof.
    intros i r E. unfold rep_data. rewrite lay_num. cbn [obind]. rewrite Nat2Z.id.
    assert (Hi : (i < length rs)%nat) by (apply nth_error_Some; congruence).
    rewrite (lay_sum i 0) by (unfold n; lia). cbn [obind skipn].
    rewrite (lay_len i r E). cbn [obind]. rewrite Nat2Z.id. rewrite e_eq.
    unfold DT. rewrite (flat_map_split r_data rs i r E).
    replace (hd ++ T ++ AT ++ AD ++ LN ++ (flat_map r_data (firstn i rs) ++ r_data r ++ flat_map r_data (skipn (S i) rs)) ++ RS)
      with ((hd ++ T ++ AT ++ AD ++ LN ++ flat_map r_data (firstn i rs)) ++ r_data r ++ (flat_map r_data (skipn (S i) rs) ++ RS))
      by now rewrite <- !app_assoc.
    destruct lens as (L1 & L2 & L3 & L4 & L5 & L6).
    apply get_bytes_at; [rewrite !app_length; lia|reflexivity|].
    intro C. apply (f_equal (@length Z)) in C. rewrite !app_length in C. cbn [length] in C. unfold n in *. lia.
  Qed.
  Lemma lay_rssi : forall i r, nth_error rs i = Some r -> rep_rssi e i = Ret (Some (signed8 (r_rssi r))).
  Proof.
    intros i r E. unfold rep_rssi. rewrite lay_num. cbn [obind]. rewrite Nat2Z.id.
    rewrite (lay_sum n 0) by lia. cbn [obind skipn]. unfold n at 2. rewrite firstn_all. rewrite e_eq.
    fold DT.
    rewrite <- (app_nil_r RS). rewrite (app_assoc LN), (app_assoc AD), (app_assoc AT), (app_assoc T), (app_assoc hd).
    rewrite (get_byte_mid (hd ++ T ++ AT ++ AD ++ LN ++ DT) RS [] _ i (r_rssi r)); [reflexivity|ll|].
    unfold RS. now apply map_nth_error.
  Qed.
End Layout.
