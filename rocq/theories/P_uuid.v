Require Import Verif.Base Verif.M_uuid Verif.S_uuid.

Lemma from_hex_spec : forall c v, from_hex c = Some v <-> hex_digit_val c v.
Proof.
  intros c v. unfold from_hex, hex_digit_val.
  destruct ((48 <=? c) && (c <=? 57)) eqn:E1; [|destruct ((97 <=? c) && (c <=? 102)) eqn:E2; [|destruct ((65 <=? c) && (c <=? 70)) eqn:E3]];
  (split; [intro H; inversion H; subst; lia | intro H; try (f_equal; lia); exfalso; lia]).
Qed.

Lemma remove_ch_spec : forall c s t, erased c s t <-> remove_ch c s = t.
Proof.
  intros c s. induction s as [|x s IH]; intro t; unfold remove_ch in *; simpl.
  - split; intro H; [inversion H; reflexivity|subst; constructor].
  - destruct (x =? c) eqn:E; simpl.
    + apply Z.eqb_eq in E. subst x. split; intro H.
      * inversion H; subst; [now apply IH|congruence].
      * constructor. now apply IH.
    + apply Z.eqb_neq in E. split; intro H.
      * inversion H; subst; [congruence|]. f_equal. now apply IH.
      * subst t. constructor; [assumption|]. now apply IH.
Qed.

Lemma hex_decode_text : forall s b, hex_text s b -> hex_decode s = (b, true).
Proof.
  intros s b H. induction H as [|c1 c2 h l s b H1 H2 H3 IH]; simpl; [reflexivity|].
  apply from_hex_spec in H1. apply from_hex_spec in H2. rewrite H1, H2, IH. reflexivity.
Qed.

Lemma hex_decode_ok_text : forall n s b, (length s <= n)%nat -> hex_decode s = (b, true) -> hex_text s b.
Proof.
  induction n as [|n IH]; intros s b Hn H.
  - destruct s; simpl in *; [|lia]. inversion H. constructor.
  - destruct s as [|c1 [|c2 r]]; simpl in H; [inversion H; constructor|discriminate|].
    destruct (from_hex c1) as [h|] eqn:E1; [|discriminate].
    destruct (from_hex c2) as [l|] eqn:E2; [|discriminate].
    destruct (hex_decode r) as [b' ok] eqn:E. inversion H; subst.
    constructor; [now apply from_hex_spec|now apply from_hex_spec|].
    apply IH; [simpl in Hn; lia|assumption].
Qed.

Lemma hex_decode_ok_iff : forall s b, hex_decode s = (b, true) <-> hex_text s b.
Proof. intros s b. split; [apply (hex_decode_ok_text (length s)); lia|apply hex_decode_text]. Qed.

Lemma hex_text_bytes : forall s b, hex_text s b -> all_bytes b.
Proof.
  intros s b H. induction H as [|c1 c2 h l s b H1 H2 H3 IH]; constructor; [|assumption].
  unfold hex_digit_val, is_byte in *. lia.
Qed.

Lemma hex_digit_ok : forall v, 0 <= v < 16 -> hex_digit_val (hex_digit v) v.
Proof. intros v H. unfold hex_digit, hex_digit_val. destruct (v <? 10) eqn:E; lia. Qed.

Lemma hex_encode_text : forall b, all_bytes b -> hex_text (hex_encode b) b.
Proof.
  intros b H. induction H as [|x b Hx Hb IH]; simpl; [constructor|].
  unfold is_byte in Hx. replace x with (16 * (x / 16) + x mod 16) at 3 by lia.
  constructor; [apply hex_digit_ok; lia|apply hex_digit_ok; lia|exact IH].
Qed.

Lemma reverse_loop_ok : forall fuel i u pre suf,
  length pre = fuel -> length suf = i -> (i + fuel = length u)%nat ->
  suf = rev (firstn i u) ->
  reverse_loop u (length u) i fuel (pre ++ suf) = Ret (rev u).
Proof.
  induction fuel as [|f IH]; intros i u pre suf Hp Hs Hl Hsuf.
  - cbn [reverse_loop]. apply length_zero_iff_nil in Hp. subst pre. cbn [app].
    rewrite Hsuf. rewrite firstn_all2 by lia. reflexivity.
  - cbn [reverse_loop].
    assert (Hi : (i < length u)%nat) by lia.
    unfold gidx. destruct (nth_error u i) as [x|] eqn:E; [|apply nth_error_None in E; lia].
    cbn [gbind].
    destruct (exists_last (l := pre)) as [pre' [z Hz]]; [destruct pre; [simpl in Hp; lia|discriminate]|].
    subst pre. rewrite app_length in Hp. simpl in Hp.
    unfold gset. rewrite !app_length. simpl length.
    destruct (Nat.ltb (length u - i - 1) (length pre' + 1 + length suf)) eqn:EL; [|lia].
    cbn [gbind]. replace (length u - i - 1)%nat with (length pre') by lia.
    rewrite <- app_assoc. simpl app. rewrite upd_app_r.
    apply IH; [lia|simpl; lia|lia|].
    rewrite Hsuf, (firstn_snoc u i x E), rev_app_distr. reflexivity.
Qed.

Lemma Reverse_rev : forall u, Reverse u = Ret (rev u).
Proof.
  intro u. unfold Reverse. rewrite <- (app_nil_r (repeat 0 (length u))).
  apply reverse_loop_ok; [apply repeat_length|reflexivity|lia|reflexivity].
Qed.

(** SwapBuf: the invariant is that positions outside [i, n-i) are already swapped. *)
Lemma swap_loop_ok : forall i c pre mid suf a,
  length pre = i -> length suf = i -> a = pre ++ mid ++ suf -> c = i ->
  swap_loop c a = Ret (rev suf ++ mid ++ rev pre).
Proof.
  induction i as [|i IH]; intros c pre mid suf a Hp Hs Ha Hc; subst c a.
  - apply length_zero_iff_nil in Hp. apply length_zero_iff_nil in Hs. subst. reflexivity.
  - destruct (exists_last (l := pre)) as [pre' [x Hx]]; [destruct pre; discriminate|]. subst pre.
    destruct suf as [|y suf]; [discriminate|].
    rewrite app_length in Hp. simpl in Hp, Hs.
    assert (Hp' : length pre' = i) by lia. assert (Hs' : length suf = i) by lia.
    cbn [swap_loop].
    replace (length ((pre' ++ [x]) ++ mid ++ y :: suf) - 1 - i)%nat with (length (pre' ++ x :: mid))
      by (repeat (rewrite app_length || cbn [length]); lia).
    assert (G1 : gidx ((pre' ++ [x]) ++ mid ++ y :: suf) i = Ret x).
    { unfold gidx. rewrite <- app_assoc. rewrite nth_error_app2 by lia. rewrite Hp', Nat.sub_diag. reflexivity. }
    assert (Eq : (pre' ++ [x]) ++ mid ++ y :: suf = (pre' ++ x :: mid) ++ y :: suf)
      by (rewrite <- !app_assoc; reflexivity).
    assert (G2 : gidx ((pre' ++ [x]) ++ mid ++ y :: suf) (length (pre' ++ x :: mid)) = Ret y).
    { unfold gidx. rewrite Eq. rewrite nth_error_app2 by lia. rewrite Nat.sub_diag. reflexivity. }
    rewrite G1, G2. cbn [gbind].
    assert (G3 : gset ((pre' ++ [x]) ++ mid ++ y :: suf) i y = Ret (pre' ++ y :: mid ++ y :: suf)).
    { rewrite gset_ok by (repeat (rewrite app_length || cbn [length]); lia).
      rewrite <- app_assoc. simpl app. rewrite <- Hp'. now rewrite upd_app_r. }
    rewrite G3. cbn [gbind].
    assert (G4 : gset (pre' ++ y :: mid ++ y :: suf) (length (pre' ++ x :: mid)) x
                 = Ret (pre' ++ (y :: mid ++ [x]) ++ suf)).
    { rewrite gset_ok by (repeat (rewrite app_length || cbn [length]); lia).
      replace (pre' ++ y :: mid ++ y :: suf) with ((pre' ++ y :: mid) ++ y :: suf) by (rewrite <- app_assoc; reflexivity).
      replace (length (pre' ++ x :: mid)) with (length (pre' ++ y :: mid)) by (rewrite !app_length; reflexivity).
      rewrite upd_app_r. f_equal. rewrite <- !app_assoc. simpl. f_equal. f_equal. now rewrite <- app_assoc. }
    rewrite G4. cbn [gbind].
    rewrite (IH i pre' (y :: mid ++ [x]) suf _ Hp' Hs' eq_refl eq_refl).
    f_equal. rewrite rev_app_distr. simpl. rewrite <- !app_assoc. reflexivity.
Qed.

Lemma rev_short : forall (l : bytes), (length l <= 1)%nat -> rev l = l.
Proof. intros [|x [|y l]] H; simpl in *; try reflexivity; lia. Qed.

Lemma SwapBuf_rev : forall a, SwapBuf a = Ret (rev a).
Proof.
  intro a. unfold SwapBuf.
  set (n := (length a / 2)%nat).
  assert (Hn : (n * 2 <= length a)%nat) by (unfold n; lia).
  assert (Hn2 : (length a <= n * 2 + 1)%nat) by (unfold n; lia).
  set (pre := firstn n a). set (rest := skipn n a).
  set (mid := firstn (length a - n - n) rest). set (suf := skipn (length a - n - n) rest).
  assert (Ha : a = pre ++ mid ++ suf) by (unfold mid, suf, pre, rest; now rewrite !firstn_skipn).
  assert (L1 : length pre = n) by (unfold pre; rewrite firstn_length; lia).
  assert (L2 : length suf = n) by (unfold suf, rest; rewrite !skipn_length; lia).
  assert (L3 : (length mid <= 1)%nat) by (unfold mid; rewrite firstn_length; lia).
  rewrite (swap_loop_ok n n pre mid suf a L1 L2 Ha eq_refl).
  f_equal. rewrite Ha at 1. rewrite !rev_app_distr. rewrite (rev_short mid L3). now rewrite app_assoc.
Qed.

Lemma all_bytes_rev : forall b, all_bytes b -> all_bytes (rev b).
Proof. intros b H. unfold all_bytes in *. now apply Forall_rev. Qed.

Lemma uuid_parse_iff : forall s u,
  uuid_parse s = Ret (Some u) <->
  exists t b, erased 45 s t /\ hex_text t b /\ (length b = 2%nat \/ length b = 16%nat) /\ u = rev b.
Proof.
  intros s u. unfold uuid_parse.
  destruct (hex_decode (remove_ch ch_dash s)) as [b ok] eqn:E.
  split.
  - destruct ok; simpl; [|discriminate].
    destruct (len_ok (length b)) eqn:EL; simpl; [|discriminate].
    rewrite Reverse_rev. cbn [gbind]. intro H. inversion H; subst.
    exists (remove_ch ch_dash s), b. repeat split.
    + now apply remove_ch_spec.
    + now apply hex_decode_ok_iff.
    + unfold len_ok in EL. lia.
  - intros (t & b' & Ht & Hx & HL & Hu). apply remove_ch_spec in Ht. unfold ch_dash in E. rewrite Ht in E.
    rewrite (hex_decode_text _ _ Hx) in E. inversion E; subst.
    assert (len_ok (length b) = true) as -> by (unfold len_ok; lia).
    cbn [negb]. rewrite Reverse_rev. reflexivity.
Qed.

Lemma uuid_parse_total : forall s, exists r, uuid_parse s = Ret r.
Proof.
  intro s. unfold uuid_parse. destruct (hex_decode _) as [b ok].
  destruct ok; simpl; [|eauto]. destruct (len_ok _); simpl; [|eauto]. rewrite Reverse_rev. cbn [gbind]. eauto.
Qed.

Lemma hex_encode_no : forall c b, all_bytes b -> (c < 48 \/ c = 58) -> remove_ch c (hex_encode b) = hex_encode b.
Proof.
  intros c b H Hc. induction H as [|x b Hx Hb IH]; [reflexivity|].
  assert (D : forall v, 0 <= v < 16 -> (hex_digit v =? c) = false)
    by (intros v Hv; unfold hex_digit; destruct (v <? 10) eqn:E; lia).
  unfold is_byte in Hx. unfold remove_ch in *. cbn [hex_encode flat_map app filter].
  rewrite (D (x/16)) by lia. rewrite (D (x mod 16)) by lia. cbn [negb].
  f_equal. f_equal. exact IH.
Qed.

Lemma uuid_string_eq : forall u, uuid_string u = Ret (hex_encode (rev u)).
Proof. intro u. unfold uuid_string. now rewrite Reverse_rev. Qed.

Lemma uuid_roundtrip : forall u, all_bytes u -> (length u = 2%nat \/ length u = 16%nat) ->
  exists s, uuid_string u = Ret s /\ uuid_parse s = Ret (Some u).
Proof.
  intros u Hb HL. exists (hex_encode (rev u)). split; [apply uuid_string_eq|].
  apply uuid_parse_iff. exists (hex_encode (rev u)), (rev u).
  assert (Hr := all_bytes_rev _ Hb). repeat split.
  - apply remove_ch_spec. apply hex_encode_no; [assumption|lia].
  - now apply hex_encode_text.
  - now rewrite rev_length.
  - now rewrite rev_involutive.
Qed.

Lemma uuid_parse_print_parse : forall s u, uuid_parse s = Ret (Some u) ->
  exists t, uuid_string u = Ret t /\ uuid_parse t = Ret (Some u).
Proof.
  intros s u H. apply uuid_parse_iff in H. destruct H as (t & b & _ & Hx & HL & Hu). subst u.
  apply uuid_roundtrip; [apply all_bytes_rev, (hex_text_bytes _ _ Hx)|now rewrite rev_length].
Qed.

Lemma from_hex_same_letter : forall a b, same_letter a b -> from_hex a = from_hex b.
Proof.
  intros a b H. unfold from_hex, same_letter in *.
  destruct H as [->|[[H ->]|[H ->]]]; [reflexivity| |].
  - destruct ((48 <=? a) && (a <=? 57)) eqn:A1; [lia|].
    destruct ((97 <=? a) && (a <=? 102)) eqn:A2; [lia|].
    destruct ((48 <=? a+32) && (a+32 <=? 57)) eqn:B1; [lia|].
    destruct ((65 <=? a) && (a <=? 70)) eqn:A3; destruct ((97 <=? a + 32) && (a + 32 <=? 102)) eqn:B2; try lia; [f_equal; lia|].
    destruct ((65 <=? a+32) && (a+32 <=? 70)) eqn:B3; [lia|reflexivity].
  - destruct ((48 <=? b) && (b <=? 57)) eqn:A1; [lia|].
    destruct ((97 <=? b) && (b <=? 102)) eqn:A2; [lia|].
    destruct ((48 <=? b+32) && (b+32 <=? 57)) eqn:B1; [lia|].
    destruct ((65 <=? b) && (b <=? 70)) eqn:A3; destruct ((97 <=? b + 32) && (b + 32 <=? 102)) eqn:B2; try lia; [f_equal; lia|].
    destruct ((65 <=? b+32) && (b+32 <=? 70)) eqn:B3; [lia|reflexivity].
Qed.

Lemma hex_decode_same_letter : forall n s t, (length s <= n)%nat -> Forall2 same_letter s t -> hex_decode s = hex_decode t.
Proof.
  induction n as [|n IH]; intros s t Hn H.
  - destruct s; [|simpl in Hn; lia]. inversion H. reflexivity.
  - inversion H as [|a b s1 t1 Hab H1]; subst; [reflexivity|].
    inversion H1 as [|a2 b2 s2 t2 Hab2 H2]; subst; [reflexivity|].
    simpl. rewrite (from_hex_same_letter _ _ Hab), (from_hex_same_letter _ _ Hab2).
    rewrite (IH s2 t2); [reflexivity|simpl in Hn; lia|assumption].
Qed.

(** dashes and letter case do not matter to Parse *)
Lemma uuid_parse_dash_case : forall s1 s2 t1 t2,
  erased 45 s1 t1 -> erased 45 s2 t2 -> Forall2 same_letter t1 t2 -> uuid_parse s1 = uuid_parse s2.
Proof.
  intros s1 s2 t1 t2 H1 H2 H. apply remove_ch_spec in H1. apply remove_ch_spec in H2.
  unfold uuid_parse, ch_dash. rewrite H1, H2. now rewrite (hex_decode_same_letter (length t1) t1 t2).
Qed.

Lemma contains_iff : forall s u, contains s u = true <-> exists l, s = Some l /\ In u l.
Proof.
  intros [l|] u; simpl.
  - induction l as [|a l IH]; simpl.
    + split; [discriminate|]. intros (l & H & Hin). inversion H; subst. destruct Hin.
    + unfold uuid_equal in *. destruct (beq_bytes a u) eqn:E.
      * apply beq_bytes_eq in E. subst. split; [|reflexivity]. intros _. exists (u :: l). split; [reflexivity|now left].
      * apply beq_bytes_neq in E. rewrite IH. split.
        -- intros (l' & H & Hin). inversion H; subst. eexists. split; [reflexivity|now right].
        -- intros (l' & H & Hin). inversion H; subst. destruct Hin as [Hin|Hin]; [congruence|]. eauto.
  - split; [discriminate|]. now intros (l & H & _).
Qed.

Lemma uuid16_spec : forall i, 0 <= i < 65536 ->
  length (uuid16 i) = 2%nat /\ all_bytes (uuid16 i) /\ le_val (uuid16 i) = i.
Proof.
  intros i H. repeat split; [apply le16_bytes|]. unfold uuid16, le16. cbn [le_val]. unfold u8. lia.
Qed.

(** addresses *)
Lemma to_lower_same : forall s, Forall2 same_letter s (to_lower s).
Proof.
  induction s as [|c s IH]; constructor; [|assumption].
  unfold same_letter, to_lower_ch. destruct ((65 <=? c) && (c <=? 90)) eqn:E; lia.
Qed.

Lemma remove_colon_lower : forall s, remove_ch 58 (to_lower s) = to_lower (remove_ch 58 s).
Proof.
  induction s as [|c s IH]; [reflexivity|].
  unfold remove_ch in *. cbn [to_lower map filter].
  assert (E : (to_lower_ch c =? 58) = (c =? 58)).
  { unfold to_lower_ch. destruct ((65 <=? c) && (c <=? 90)) eqn:E; lia. }
  rewrite E. destruct (c =? 58); cbn [negb]; [exact IH|]. cbn [map]. f_equal. exact IH.
Qed.

Lemma addr_bytes_spec : forall s t b, erased 58 s t -> hex_text t b -> addr_bytes (new_addr s) = b.
Proof.
  intros s t b H1 H2. apply remove_ch_spec in H1. unfold addr_bytes, addr_string, new_addr, ch_colon.
  rewrite remove_colon_lower, H1.
  rewrite <- (hex_decode_same_letter (length t) t (to_lower t)); [|lia|apply to_lower_same].
  now rewrite (hex_decode_text _ _ H2).
Qed.

Lemma to_lower_same_letter : forall s t, Forall2 same_letter s t -> to_lower s = to_lower t.
Proof.
  intros s t H. induction H as [|a b s t Hab H IH]; [reflexivity|]. cbn [to_lower map]. f_equal; [|exact IH].
  unfold same_letter in Hab. unfold to_lower_ch.
  destruct ((65 <=? a) && (a <=? 90)) eqn:E1; destruct ((65 <=? b) && (b <=? 90)) eqn:E2; lia.
Qed.

Lemma to_lower_eq_same_letter : forall s t, to_lower s = to_lower t -> Forall2 same_letter s t.
Proof.
  induction s as [|a s IH]; destruct t as [|b t]; intro H; try discriminate; constructor.
  - inversion H as [[H1 H2]]. unfold to_lower_ch in H1. unfold same_letter.
    destruct ((65 <=? a) && (a <=? 90)) eqn:E1; destruct ((65 <=? b) && (b <=? 90)) eqn:E2; lia.
  - apply IH. now inversion H.
Qed.

Lemma to_lower_no_upper : forall s, Forall (fun c => ~ (65 <= c <= 90)) (to_lower s).
Proof.
  induction s as [|c s IH]; constructor; [|exact IH].
  unfold to_lower_ch. destruct ((65 <=? c) && (c <=? 90)) eqn:E; lia.
Qed.

Lemma addr_equal_iff : forall s t, addr_string (new_addr s) = addr_string (new_addr t) <-> Forall2 same_letter s t.
Proof. intros s t. split; [apply to_lower_eq_same_letter|apply to_lower_same_letter]. Qed.

(** colon separated form of n octets decodes to the octets *)
Lemma addr_bytes_length : forall s t b, erased 58 s t -> hex_text t b -> length (addr_bytes (new_addr s)) = length b.
Proof. intros s t b H1 H2. now rewrite (addr_bytes_spec _ _ _ H1 H2). Qed.

Lemma hex_encode_lower : forall b, all_bytes b -> Forall (fun c => 48 <= c <= 57 \/ 97 <= c <= 102) (hex_encode b).
Proof.
  intros b H. induction H as [|x b Hx Hb IH]; [constructor|].
  assert (D : forall v, 0 <= v < 16 -> 48 <= hex_digit v <= 57 \/ 97 <= hex_digit v <= 102)
    by (intros v Hv; unfold hex_digit; destruct (v <? 10) eqn:E; lia).
  unfold is_byte in Hx. change (hex_encode (x :: b)) with (hex_digit (x / 16) :: hex_digit (x mod 16) :: hex_encode b).
  constructor; [apply D; lia|]. constructor; [apply D; lia|exact IH].
Qed.
Lemma uuid_string_spec : forall u, all_bytes u ->
  exists s, uuid_string u = Ret s /\ hex_text s (rev u) /\ Forall (fun c => 48 <= c <= 57 \/ 97 <= c <= 102) s.
Proof.
  intros u H. exists (hex_encode (rev u)). assert (Hr := all_bytes_rev _ H).
  split; [apply uuid_string_eq|]. split; [now apply hex_encode_text|now apply hex_encode_lower].
Qed.
