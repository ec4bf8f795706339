Require Import Verif.Base Verif.M_uuid Verif.M_attdb Verif.S_attdb Verif.P_attdb Verif.M_attsrv Verif.S_attsrv.

(** ---- greedy filling ---- *)
Fixpoint greedy {A} (cap d : nat) (enc : A -> bytes) (l : list A) (buf : bytes) : bytes :=
  match l with [] => buf | a :: r => if Nat.ltb cap (length buf + d) then buf else greedy cap d enc r (buf ++ enc a) end.
Lemma greedy_spec : forall {A} cap d (enc : A -> bytes) l buf, (0 < d)%nat -> (forall a, In a l -> length (enc a) = d) ->
  greedy cap d enc l buf = buf ++ flat_map enc (firstn ((cap - length buf) / d) l).
Proof.
  intros A cap d enc l. induction l as [|a l IH]; intros buf Hd He.
  - cbn. now rewrite firstn_nil, app_nil_r.
  - cbn [greedy]. destruct (Nat.ltb cap (length buf + d)) eqn:E.
    + replace ((cap - length buf) / d)%nat with 0%nat; [cbn; now rewrite app_nil_r|]. symmetry. apply Nat.div_small. lia.
    + rewrite IH by (auto; intros x Hx; apply He; now right). rewrite app_length, (He a (or_introl eq_refl)).
      assert (Q : ((cap - length buf) / d = S ((cap - (length buf + d)) / d))%nat).
      { replace (cap - length buf)%nat with ((cap - (length buf + d)) + 1 * d)%nat by lia. rewrite Nat.div_add by lia. lia. }
      rewrite Q. cbn [firstn flat_map]. rewrite <- app_assoc. reflexivity.
Qed.

(** ---- request fields ---- *)
Lemma r16_at : forall a b x (rest : bytes) n, length a = n -> 0 <= b < 256 -> 0 <= x < 256 -> r16 (a ++ b :: x :: rest) n = Ret (de16 b x).
Proof.
  intros a b x rest n <- _ _. unfold r16. rewrite gfrom_ok by (rewrite app_length; cbn; lia). rewrite skipn_app_exact. reflexivity.
Qed.
Lemma req_range_len : forall op st en rest, length (req_range op st en rest) = (5 + length rest)%nat.
Proof. reflexivity. Qed.
Lemma req_range_st : forall op st en rest, 0 <= st < 65536 -> r16 (req_range op st en rest) 1 = Ret st.
Proof.
  intros op st en rest H. unfold req_range. unfold le16 at 1. change ([op] ++ [u8 st; u8 (st / 256)] ++ le16 en ++ rest) with ([op] ++ u8 st :: u8 (st / 256) :: (le16 en ++ rest)).
  rewrite r16_at; [f_equal; now apply de16_le16|reflexivity|apply u8_byte|apply u8_byte].
Qed.
Lemma req_range_en : forall op st en rest, 0 <= en < 65536 -> r16 (req_range op st en rest) 3 = Ret en.
Proof.
  intros op st en rest H. unfold req_range. unfold le16 at 2. change ([op] ++ le16 st ++ [u8 en; u8 (en / 256)] ++ rest) with (([op] ++ le16 st) ++ u8 en :: u8 (en / 256) :: rest).
  rewrite r16_at; [f_equal; now apply de16_le16|reflexivity|apply u8_byte|apply u8_byte].
Qed.
Lemma req_range_rest : forall op st en rest, gfrom (req_range op st en rest) 5 = Ret rest.
Proof. intros. rewrite gfrom_ok by (rewrite req_range_len; lia). reflexivity. Qed.
Lemma req_handle_h : forall op h rest, 0 <= h < 65536 -> r16 (req_handle op h rest) 1 = Ret h.
Proof.
  intros op h rest H. unfold req_handle, le16. change ([op] ++ [u8 h; u8 (h / 256)] ++ rest) with ([op] ++ u8 h :: u8 (h / 256) :: rest).
  rewrite r16_at; [f_equal; now apply de16_le16|reflexivity|apply u8_byte|apply u8_byte].
Qed.
Lemma req_handle_rest : forall op h rest, gfrom (req_handle op h rest) 3 = Ret rest.
Proof. intros. rewrite gfrom_ok by (cbn; lia). reflexivity. Qed.
Lemma err_rsp_pdu : forall op h code, is_byte code -> err_rsp op h code = error_pdu op h code.
Proof. intros op h code H. unfold err_rsp, error_pdu, le16. cbn [app]. rewrite (u8_id code H). reflexivity. Qed.
Lemma between_range : forall d st en, wf_db d -> ok_range st en -> db_subrange d st en = Ret (between d st en).
Proof. intros d st en W (H & _). apply db_subrange_spec; [exact W|lia]. Qed.
Lemma has_type_eq : forall a ty, uuid_equal (a_typ a) ty = has_type ty a.
Proof.
  intros a ty. unfold uuid_equal, has_type. destruct (list_eq_dec Z.eq_dec (a_typ a) ty) as [E|E]; [now apply beq_bytes_eq|now apply beq_bytes_neq].
Qed.
Lemma rsp_of_ok : forall s hdr buf, (length hdr + length buf <= txlen s)%nat -> rsp_of s hdr buf = Ret (hdr ++ buf).
Proof. intros s hdr buf H. unfold rsp_of. replace (Nat.leb (length hdr + length buf) (txlen s)) with true by lia. reflexivity. Qed.
Lemma flat_map_len : forall {A} (f : A -> bytes) d l, (forall a, In a l -> length (f a) = d) -> length (flat_map f l) = (d * length l)%nat.
Proof.
  intros A f d l H. induction l as [|a l IH]; [cbn; lia|]. cbn [flat_map length]. rewrite app_length, (H a (or_introl eq_refl)), IH by (intros; apply H; now right). lia.
Qed.
Lemma fill_len : forall {A} (f : A -> bytes) d l cap, (0 < d)%nat -> (forall a, In a l -> length (f a) = d) ->
  (length (flat_map f (firstn (cap / d) l)) <= cap)%nat.
Proof.
  intros A f d l cap Hd H. rewrite (flat_map_len f d).
  - rewrite firstn_length. assert (d * (cap / d) <= cap)%nat by (apply Nat.mul_div_le; lia). nia.
  - intros a Ha. apply H. rewrite <- (firstn_skipn (cap / d) l). apply in_or_app. now left.
Qed.
Lemma take_while_in : forall {A} (p : A -> bool) l x, In x (take_while p l) -> In x l /\ p x = true.
Proof.
  intros A p l. induction l as [|y l IH]; intros x H; [contradiction|]. cbn in H. destruct (p y) eqn:E; [|contradiction].
  destruct H as [<-|H]; [split; [now left|exact E]|]. destruct (IH x H). split; [now right|assumption].
Qed.

(** ---- Find Information ---- *)
Lemma fi_loop_greedy : forall cap sz l fmt buf, (fmt = 1 /\ sz = 2%nat) \/ (fmt = 2 /\ sz = 16%nat) ->
  fi_loop cap l fmt buf = (fmt, greedy cap (2 + sz) info_entry (take_while (fun b => Nat.eqb (length (a_typ b)) sz) l) buf).
Proof.
  intros cap sz l fmt. induction l as [|a l IH]; intros buf H; [reflexivity|]. cbn [fi_loop take_while].
  replace (fmt =? 0) with false by (destruct H as [[-> _]|[-> _]]; reflexivity).
  destruct (Nat.eqb (length (a_typ a)) sz) eqn:E.
  - apply Nat.eqb_eq in E. rewrite E.
    replace ((fmt =? 1) && negb (Nat.eqb sz 2)) with false by (destruct H as [[-> ->]|[-> ->]]; reflexivity).
    replace ((fmt =? 2) && negb (Nat.eqb sz 16)) with false by (destruct H as [[-> ->]|[-> ->]]; reflexivity).
    cbn [greedy]. rewrite <- Nat.add_assoc. destruct (Nat.ltb cap (length buf + (2 + sz))); [reflexivity|].
    rewrite (IH (buf ++ le16 (a_h a) ++ a_typ a) H). reflexivity.
  - cbn [greedy]. destruct H as [[-> ->]|[-> ->]].
    + rewrite E. reflexivity.
    + change (2 =? 1) with false. cbn [andb]. rewrite E. reflexivity.
Qed.
Lemma info_entry_len : forall sz l a, In a (take_while (fun b => Nat.eqb (length (a_typ b)) sz) l) -> length (info_entry a) = (2 + sz)%nat.
Proof. intros sz l a H. apply take_while_in in H. destruct H as [_ H]. apply Nat.eqb_eq in H. unfold info_entry. rewrite app_length, le16_length. lia. Qed.
Lemma find_info_ok : forall s st en, wf_db (s_db s) -> (23 <= txlen s)%nat -> ok_range st en ->
  Forall (fun a => length (a_typ a) = 2%nat \/ length (a_typ a) = 16%nat) (db_attrs (s_db s)) ->
  h_find_info s (req_range 4 st en []) = Ret (match find_info_spec (txlen s) (between (s_db s) st en) with Some p => p | None => error_pdu 4 st 10 end).
Proof.
  intros s st en W HM HR HT. unfold h_find_info. rewrite req_range_len. change (negb (Nat.eqb (5 + length (@nil Z)) 5)) with false. cbv iota.
  destruct HR as [HR1 HR2]. rewrite req_range_st, req_range_en by lia. cbn [gbind].
  replace ((st =? 0) || (st >? en)) with false by lia. replace (Nat.ltb (txlen s) 2) with false by lia.
  rewrite between_range by (exact W || (split; lia)). cbn [gbind].
  assert (HT' : Forall (fun a => length (a_typ a) = 2%nat \/ length (a_typ a) = 16%nat) (between (s_db s) st en)).
  { rewrite Forall_forall in *. intros a Ha. apply filter_In in Ha. apply HT, Ha. }
  destruct (between (s_db s) st en) as [|a l] eqn:E.
  - cbn [fi_loop find_info_spec]. change (0 =? 0) with true. cbv iota. reflexivity.
  - inversion HT' as [|? ? Ha _]; subst.
    assert (FI : fi_loop (txlen s - 2) (a :: l) 0 [] = ((if Nat.eqb (length (a_typ a)) 16 then 2 else 1),
      greedy (txlen s - 2) (2 + length (a_typ a)) info_entry (take_while (fun b => Nat.eqb (length (a_typ b)) (length (a_typ a))) (a :: l)) [])).
    { rewrite <- (fi_loop_greedy (txlen s - 2) (length (a_typ a)) (a :: l) (if Nat.eqb (length (a_typ a)) 16 then 2 else 1) []).
      - cbn [fi_loop]. change (0 =? 0) with true. cbv iota. destruct Ha as [Ha|Ha]; rewrite Ha; reflexivity.
      - destruct Ha as [Ha|Ha]; rewrite Ha; auto. }
    rewrite FI. rewrite greedy_spec; [|lia|apply info_entry_len].
    replace ((if Nat.eqb (length (a_typ a)) 16 then 2 else 1) =? 0) with false by (destruct (Nat.eqb (length (a_typ a)) 16); reflexivity).
    cbn [length]. rewrite Nat.sub_0_r. unfold find_info_spec. cbn [app].
    rewrite rsp_of_ok; [reflexivity|]. cbn [length].
    assert (F := fill_len info_entry (2 + length (a_typ a)) (take_while (fun b => Nat.eqb (length (a_typ b)) (length (a_typ a))) (a :: l)) (txlen s - 2) ltac:(lia) (info_entry_len _ _)). lia.
Qed.

(** ---- Find By Type Value ---- *)
Definition fbtv_match (ty val : bytes) (a : attr) : bool := has_type ty a && match a_v a with Some v => beq_bytes v val | None => false end.
Lemma fbtv_greedy : forall cap l ty val buf, (forall a, In a l -> has_type ty a = true -> a_v a <> None) ->
  fbtv_loop cap l ty val buf = Some (greedy cap 4 group_entry (filter (fbtv_match ty val) l) buf).
Proof.
  intros cap l ty val. induction l as [|a l IH]; intros buf H; [reflexivity|]. cbn [fbtv_loop filter]. rewrite has_type_eq.
  unfold fbtv_match at 1. destruct (has_type ty a) eqn:E; cbn [negb andb].
  - destruct (a_v a) as [v|] eqn:V; [|exfalso; apply (H a (or_introl eq_refl) E); exact V]. unfold uuid_equal.
    destruct (beq_bytes v val) eqn:B; cbn [negb].
    + cbn [greedy]. destruct (Nat.ltb cap (length buf + 4)); [reflexivity|]. rewrite IH by (intros; apply H; auto; now right). reflexivity.
    + apply IH. intros. apply H; auto. now right.
  - apply IH. intros. apply H; auto. now right.
Qed.
Lemma find_by_type_ok : forall s st en ty val, wf_db (s_db s) -> (23 <= txlen s)%nat -> ok_range st en -> 0 <= ty < 65536 ->
  (forall a, In a (between (s_db s) st en) -> has_type (uuid16 ty) a = true -> a_v a <> None) ->
  h_find_by_type s (req_range 6 st en (le16 ty ++ val)) =
  Ret (match find_by_type_spec (txlen s) (between (s_db s) st en) (uuid16 ty) val with Some p => p | None => error_pdu 6 st 10 end).
Proof.
  intros s st en ty val W HM HR Hty HS. unfold h_find_by_type. rewrite req_range_len, app_length, le16_length.
  replace (Nat.ltb (5 + (2 + length val)) 7) with false by lia.
  destruct HR as [HR1 HR2]. rewrite req_range_st, req_range_en by lia. cbn [gbind].
  replace ((st =? 0) || (st >? en)) with false by lia. replace (Nat.ltb (txlen s) 6) with false by lia.
  assert (T : r16 (req_range 6 st en (le16 ty ++ val)) 5 = Ret ty).
  { unfold req_range. change (r16 ((([6] ++ le16 st ++ le16 en) ++ u8 ty :: u8 (ty / 256) :: val)) 5 = Ret ty).
    rewrite r16_at; [f_equal; now apply de16_le16|reflexivity|apply u8_byte|apply u8_byte]. }
  assert (V : gfrom (req_range 6 st en (le16 ty ++ val)) 7 = Ret val) by (rewrite gfrom_ok by (rewrite req_range_len, app_length, le16_length; lia); reflexivity).
  rewrite T, V. cbn [gbind]. rewrite between_range by (exact W || (split; lia)). cbn [gbind].
  rewrite fbtv_greedy by exact HS. rewrite greedy_spec; [|lia|reflexivity]. cbn [app length]. rewrite Nat.sub_0_r.
  unfold find_by_type_spec. fold (fbtv_match (uuid16 ty) val).
  change (filter (fun a => has_type (uuid16 ty) a && match a_v a with Some v => beq_bytes v val | None => false end) (between (s_db s) st en))
    with (filter (fbtv_match (uuid16 ty) val) (between (s_db s) st en)).
  destruct (filter (fbtv_match (uuid16 ty) val) (between (s_db s) st en)) as [|a m] eqn:E.
  - rewrite firstn_nil. cbn [flat_map]. reflexivity.
  - assert (Q : exists k, ((txlen s - 1) / 4 = S k)%nat).
    { assert (1 <= (txlen s - 1) / 4)%nat by (apply Nat.div_le_lower_bound; lia). exists (pred ((txlen s - 1) / 4)). lia. }
    assert (F := fill_len group_entry 4 (a :: m) (txlen s - 1) ltac:(lia) ltac:(reflexivity)).
    destruct Q as [k Q]. rewrite Q in *. set (out := flat_map group_entry (firstn (S k) (a :: m))) in *.
    destruct out as [|x out'] eqn:O; [exfalso; cbn in O; discriminate|]. rewrite rsp_of_ok; [reflexivity|]. cbn [length] in *. lia.
Qed.

(** ---- Read By Type ---- *)
(** value of an attribute as the server reads it for Read By Type *)
Definition rbt_val (s : srv) (e : env) (a : attr) : Z * bytes :=
  match a_v a with Some v => (0, v) | None => fst (att_read s e a 0 (txlen s - 2)) end.
Definition rbt_opt (s : srv) (e : env) (a : attr) : attr * option bytes :=
  (a, if fst (rbt_val s e a) =? 0 then Some (snd (rbt_val s e a)) else None).
Definition rbt_ok (s : srv) (e : env) (d : nat) (a : attr) : bool := (fst (rbt_val s e a) =? 0) && Nat.eqb (2 + length (snd (rbt_val s e a))) d.
Lemma rbt_rest : forall s e cap l ty d buf cs, (0 < d)%nat ->
  fst (rbt_loop s e (txlen s - 2) cap l ty d buf cs) =
  inr (d, greedy cap d (fun a => value_entry d (a, snd (rbt_val s e a))) (take_while (rbt_ok s e d) (filter (has_type ty) l)) buf).
Proof.
  intros s e cap l ty d. induction l as [|a l IH]; intros buf cs Hd; [reflexivity|]. cbn [rbt_loop filter]. rewrite has_type_eq.
  destruct (has_type ty a) eqn:E; cbn [negb]; [|apply IH; exact Hd].
  cbn [take_while]. assert (RV : exists c, (match a_v a with Some v => (0, v, []) | None => att_read s e a 0 (txlen s - 2) end) = (fst (rbt_val s e a), snd (rbt_val s e a), c)).
  { unfold rbt_val. destruct (a_v a); [eauto|]. destruct (att_read s e a 0 (txlen s - 2)) as [[? ?] c]. eauto. }
  destruct RV as [c ->]. cbv iota beta zeta. unfold rbt_ok at 1.
  replace (Nat.eqb d 0) with false by lia. cbn [negb andb].
  destruct (fst (rbt_val s e a) =? 0) eqn:ST; cbn [negb andb]; [|reflexivity].
  destruct (Nat.eqb (2 + length (snd (rbt_val s e a))) d) eqn:D; cbn [negb]; [|reflexivity].
  cbn [greedy]. destruct (Nat.ltb cap (length buf + d)); [reflexivity|]. rewrite IH by exact Hd. reflexivity.
Qed.
Lemma rbt_entry_len : forall s e d a, rbt_ok s e d a = true -> length (value_entry d (a, snd (rbt_val s e a))) = d.
Proof. intros s e d a H. unfold rbt_ok in H. unfold value_entry. cbn [fst snd]. rewrite app_length, le16_length, firstn_length. lia. Qed.
Lemma skip_to_first : forall s e cap l ty,
  fst (rbt_loop s e (txlen s - 2) cap l ty 0 [] []) =
  match filter (has_type ty) l with
  | [] => inr (0%nat, [])
  | a :: rest => if fst (rbt_val s e a) =? 0 then
        let d := Nat.min (Nat.min (2 + length (snd (rbt_val s e a))) 255) cap in
        if Nat.ltb cap (0 + d) then inr (d, []) else
        if Nat.eqb d 0 then fst (rbt_loop s e (txlen s - 2) cap l ty 0 [] []) else
        inr (d, greedy cap d (fun a => value_entry d (a, snd (rbt_val s e a))) (take_while (rbt_ok s e d) rest) (value_entry d (a, snd (rbt_val s e a))))
      else inl (fst (rbt_val s e a))
  end.
Proof.
  intros s e cap l ty. induction l as [|a l IH]; [reflexivity|]. cbn [rbt_loop filter]. rewrite has_type_eq.
  destruct (has_type ty a) eqn:E; cbn [negb]; [|exact IH]. clear IH.
  assert (RV : exists c, (match a_v a with Some v => (0, v, []) | None => att_read s e a 0 (txlen s - 2) end) = (fst (rbt_val s e a), snd (rbt_val s e a), c)).
  { unfold rbt_val. destruct (a_v a); [eauto|]. destruct (att_read s e a 0 (txlen s - 2)) as [[? ?] c]. eauto. }
  destruct RV as [c ->]. cbv iota beta zeta. change (Nat.eqb 0 0) with true. cbn [negb andb].
  destruct (fst (rbt_val s e a) =? 0) eqn:ST; cbn [negb]; [|reflexivity].
  cbn [length plus]. set (d := Nat.min (Nat.min (S (S (length (snd (rbt_val s e a))))) 255) cap).
  destruct (Nat.ltb cap d) eqn:C; [reflexivity|]. destruct (Nat.eqb d 0) eqn:D; [reflexivity|].
  rewrite rbt_rest by lia. reflexivity.
Qed.
Lemma take_while_map : forall {A B} (f : A -> B) p l, take_while p (map f l) = map f (take_while (fun x => p (f x)) l).
Proof. intros A B f p l. induction l as [|a l IH]; [reflexivity|]. cbn. destruct (p (f a)); [cbn; now rewrite IH|reflexivity]. Qed.
Lemma take_while_ext : forall {A} (p q : A -> bool) l, (forall x, p x = q x) -> take_while p l = take_while q l.
Proof. intros A p q l H. induction l as [|a l IH]; [reflexivity|]. cbn. rewrite H, IH. reflexivity. Qed.
Lemma flat_map_map : forall {A B C} (f : A -> B) (g : B -> list C) l, flat_map g (map f l) = flat_map (fun x => g (f x)) l.
Proof. intros. induction l as [|a l IH]; [reflexivity|]. cbn. now rewrite IH. Qed.
Lemma flat_map_ext_in' : forall {A B} (f g : A -> list B) l, (forall x, In x l -> f x = g x) -> flat_map f l = flat_map g l.
Proof. intros A B f g l. induction l as [|a l IH]; intro H; [reflexivity|]. cbn. rewrite (H a (or_introl eq_refl)), IH; [reflexivity|]. intros x Hx. apply H. now right. Qed.
Lemma read_by_type_ok : forall s e st en ty, wf_db (s_db s) -> (23 <= txlen s)%nat -> ok_range st en -> length ty = 2%nat \/ length ty = 16%nat ->
  exists cs, h_read_by_type s e (req_range 8 st en ty) =
  Ret (match filter (has_type ty) (between (s_db s) st en) with
       | [] => error_pdu 8 st 10
       | a :: rest => if fst (rbt_val s e a) =? 0 then read_by_type_spec (txlen s) (a, snd (rbt_val s e a)) (map (rbt_opt s e) rest)
                      else err_rsp 8 st (fst (rbt_val s e a))
       end, cs).
Proof.
  intros s e st en ty W HM HR HT. unfold h_read_by_type. rewrite req_range_len.
  replace (negb (Nat.eqb (5 + length ty) 7) && negb (Nat.eqb (5 + length ty) 21)) with false by lia.
  destruct HR as [HR1 HR2]. rewrite req_range_st, req_range_en by lia. cbn [gbind].
  replace ((st =? 0) || (st >? en)) with false by lia. replace (Nat.ltb (txlen s) 4) with false by lia.
  rewrite req_range_rest. cbn [gbind]. rewrite between_range by (exact W || (split; lia)). cbn [gbind].
  assert (SF := skip_to_first s e (txlen s - 2) (between (s_db s) st en) ty).
  destruct (rbt_loop s e (txlen s - 2) (txlen s - 2) (between (s_db s) st en) ty 0 [] []) as [res cs]. exists cs. cbn [fst] in SF. rewrite SF. clear SF.
  destruct (filter (has_type ty) (between (s_db s) st en)) as [|a rest].
  - reflexivity.
  - destruct (fst (rbt_val s e a) =? 0) eqn:ST; [|reflexivity]. cbv zeta. cbn [plus].
    unfold read_by_type_spec. cbn [snd fst]. unfold entry_len.
    set (d := Nat.min (Nat.min (2 + length (snd (rbt_val s e a))) 255) (txlen s - 2)).
    change (Nat.min (Nat.min (S (S (length (snd (rbt_val s e a))))) 255) (txlen s - 2)) with d.
    assert (D1 : (2 <= d <= txlen s - 2)%nat) by (unfold d; lia). assert (D2 : (d <= 255)%nat) by (unfold d; lia).
    replace (Nat.ltb (txlen s - 2) d) with false by lia. replace (Nat.eqb d 0) with false by lia.
    assert (EL : length (value_entry d (a, snd (rbt_val s e a))) = d).
    { unfold value_entry. cbn [fst snd]. rewrite app_length, le16_length, firstn_length. unfold d. lia. }
    rewrite greedy_spec; [|lia|intros x Hx; apply take_while_in in Hx; now apply rbt_entry_len]. rewrite EL.
    assert (QQ : ((txlen s - 2) / d = S ((txlen s - 2 - d) / d))%nat).
    { replace (txlen s - 2)%nat with ((txlen s - 2 - d) + 1 * d)%nat at 1 by lia. rewrite Nat.div_add by lia. lia. }
    rewrite QQ. cbn [firstn flat_map].
    rewrite take_while_map, map_map.
    rewrite (take_while_ext (fun x => match snd (rbt_opt s e x) with Some v => Nat.eqb (2 + length v) d | None => false end) (rbt_ok s e d))
      by (intro x; unfold rbt_opt, rbt_ok; cbn [snd]; destruct (fst (rbt_val s e x) =? 0); reflexivity).
    assert (MM : forall m, flat_map (value_entry d) (firstn m (map (fun x => (fst (rbt_opt s e x), match snd (rbt_opt s e x) with Some v => v | None => [] end)) (take_while (rbt_ok s e d) rest)))
       = flat_map (fun x => value_entry d (x, snd (rbt_val s e x))) (firstn m (take_while (rbt_ok s e d) rest))).
    { intro m. rewrite firstn_map, flat_map_map. apply flat_map_ext_in'. intros x Hx. 
      assert (In x (take_while (rbt_ok s e d) rest)) by (rewrite <- (firstn_skipn m); apply in_or_app; now left).
      apply take_while_in in H. destruct H as [_ H]. unfold rbt_ok in H. unfold rbt_opt. cbn [fst snd].
      destruct (fst (rbt_val s e x) =? 0); [reflexivity|discriminate]. }
    rewrite MM.
    assert (FL := fill_len (fun x => value_entry d (x, snd (rbt_val s e x))) d (take_while (rbt_ok s e d) rest) (txlen s - 2 - d) ltac:(lia)
       ltac:(intros x Hx; apply take_while_in in Hx; now apply rbt_entry_len)).
    destruct d as [|d'] eqn:DD; [lia|]. rewrite rsp_of_ok.
    + cbn [gbind app]. rewrite u8_id by (unfold is_byte; lia). reflexivity.
    + rewrite app_length, EL. cbn [length] in *. lia.
Qed.
