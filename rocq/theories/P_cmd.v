(** Lemmas for C38. *)
Require Import Verif.Base Verif.M_cmd Verif.S_cmd.

(** The number a Go field value stands for. *)
Definition as_int (v : gval) : Z := match v with GInt z => z | GBytes l => le_val l end.

Definition kind_matches (t : ftype) (k : pkind) : bool :=
  match t, k with
  | FUint w, Num w' => Nat.eqb w w'
  | FArr w, Num w' => Nat.eqb w w'
  | FInt w, Signed w' => Nat.eqb w w'
  | _, _ => false
  end.
Fixpoint fields_match (fs : list (string * ftype)) (ps : list (string * pkind)) : bool :=
  match fs, ps with
  | [], [] => true
  | (n, t) :: fs', (m, k) :: ps' => (String.eqb n m && kind_matches t k && fields_match fs' ps')%bool
  | _, _ => false
  end.

Lemma enc_field_spec : forall t k v, kind_matches t k = true -> has_type t v ->
  enc_field t v = Some (le_bytes (width k) (as_int v)).
Proof.
  intros [w|w|w|] [w'|w'] [z|l]; cbn; intros E H; try discriminate; try contradiction; apply Nat.eqb_eq in E; subst w'; auto.
  destruct H as [<- Hb]. now rewrite le_bytes_le_val.
Qed.

Lemma enc_struct_spec : forall fs ps fv, fields_match fs ps = true -> struct_value fs fv ->
  enc_struct fs fv = Some (spec_body ps (fun n => as_int (fv n))).
Proof.
  unfold struct_value. induction fs as [|[n t] fs IH]; intros [|[m k] ps] fv E H; cbn in E; try discriminate; [reflexivity|].
  apply andb_true_iff in E. destruct E as [E E3]. apply andb_true_iff in E. destruct E as [E1 E2].
  apply String.eqb_eq in E1. subst m. apply Forall_cons_iff in H. destruct H as [Ht Hr]. cbn [fst snd] in Ht.
  cbn [enc_struct]. rewrite (enc_field_spec _ k _ E2 Ht), (IH ps fv E3 Hr). reflexivity.
Qed.

Lemma spec_body_length : forall ps v, length (spec_body ps v) = total ps.
Proof.
  unfold spec_body, total. induction ps as [|[n k] ps IH]; intro v; [reflexivity|].
  cbn. rewrite app_length, le_bytes_length. now rewrite IH.
Qed.

(** A well-formed encoding of the declared length, at most 60 bytes, goes out unchanged behind the header. *)
Lemma send_bytes_ok : forall op e, 0 <= op < 65536 -> (length e <= 60)%nat ->
  send_bytes op (Z.of_nat (length e)) (Some e) = Ret ([1; op mod 256; op / 256; Z.of_nat (length e)] ++ e).
Proof.
  intros op e Hop Hl. unfold send_bytes, marshal.
  rewrite (proj2 (Z.ltb_ge _ _)) by lia. rewrite Nat2Z.id, repeat_length.
  rewrite (proj2 (Z.ltb_ge _ _)) by lia. rewrite Nat.leb_refl.
  rewrite skipn_all2 by (rewrite repeat_length; lia). rewrite app_nil_r.
  unfold gcopy. rewrite repeat_length. unfold cmd_buf_size.
  rewrite firstn_all2 by lia.
  rewrite gslice_ok; [|lia|cbn [app length]; rewrite app_length, skipn_length, repeat_length; lia].
  rewrite skipn_O, Nat.sub_0_r. f_equal.
  cbn [app firstn Nat.add]. rewrite firstn_app_exact. f_equal. unfold u8. f_equal. f_equal; [lia|]. f_equal. lia.
Qed.

Definition cmd_ok (d : cmddesc) (s : scmd) : bool :=
  (String.eqb (cd_name d) (sc_name s) && fields_match (cd_fields d) (sc_params s) && cd_marshals d
   && (cd_len d =? Z.of_nat (total (sc_params s))) && Nat.leb (total (sc_params s)) 60
   && (cd_op d =? sc_ogf s * 1024 + sc_ocf s) && (0 <=? sc_ogf s) && (sc_ogf s <? 64) && (0 <=? sc_ocf s) && (sc_ocf s <? 1024))%bool.

Lemma cmd_ok_sound : forall d s fv, cmd_ok d s = true -> struct_value (cd_fields d) fv ->
  cmd_bytes d fv = Some (Ret (spec_packet s (fun n => as_int (fv n)))).
Proof.
  intros d s fv E H. unfold cmd_ok in E. rewrite !andb_true_iff in E.
  destruct E as [[[[[[[[[E1 E2] E3] E4] E5] E6] E7] E8] E9] E10].
  apply Z.eqb_eq in E4, E6. apply Nat.leb_le in E5.
  unfold cmd_bytes. rewrite E3, (enc_struct_spec _ _ _ E2 H), E4.
  assert (L := spec_body_length (sc_params s) (fun n => as_int (fv n))).
  rewrite <- L at 1. rewrite send_bytes_ok by lia. unfold spec_packet. rewrite L, E6.
  replace ((sc_ogf s * 1024 + sc_ocf s) mod 256) with (sc_ocf s mod 256) by lia.
  replace ((sc_ogf s * 1024 + sc_ocf s) / 256) with (4 * sc_ogf s + sc_ocf s / 256) by lia. reflexivity.
Qed.

(** Decoding. *)
Lemma flat_le_inj : forall ps v w, fits ps v -> fits ps w -> spec_body ps v = spec_body ps w ->
  Forall (fun p => v (fst p) = w (fst p)) ps.
Proof.
  unfold fits, spec_body. induction ps as [|[n k] ps IH]; intros v w Hv Hw E; [constructor|].
  apply Forall_cons_iff in Hv. apply Forall_cons_iff in Hw. destruct Hv as [Hv1 Hv], Hw as [Hw1 Hw]. cbn [fst snd flat_map] in *.
  assert (E1 : le_bytes (width k) (v n) = le_bytes (width k) (w n)).
  { apply (f_equal (firstn (width k))) in E.
    rewrite !firstn_app, !le_bytes_length, Nat.sub_diag, !firstn_O, !app_nil_r in E.
    rewrite !firstn_all2 in E by (rewrite le_bytes_length; lia). exact E. }
  rewrite E1 in E. apply app_inv_head in E. constructor; [|now apply IH]. cbn [fst].
  assert (Hm : forall x y m, le_bytes m x = le_bytes m y -> x mod 256 ^ Z.of_nat m = y mod 256 ^ Z.of_nat m).
  { clear. intros x y m. revert x y. induction m as [|m IHm]; intros x y H.
    - cbn. now rewrite !Z.mod_1_r.
    - cbn [le_bytes] in H. injection H as H0 H1. apply IHm in H1. unfold u8 in H0.
      rewrite Nat2Z.inj_succ, Z.pow_succ_r by lia.
      rewrite !Z.rem_mul_r by lia. now rewrite H0, H1. }
  apply Hm in E1. destruct k as [m|m]; cbn [width] in E1.
  - rewrite !Z.mod_small in E1 by lia. exact E1.
  - assert (P : 0 < 256 ^ Z.of_nat m) by lia. set (M := 256 ^ Z.of_nat m) in *. clearbody M.
    assert (D := Z.div_mod (v n) M ltac:(lia)). assert (D2 := Z.div_mod (w n) M ltac:(lia)). rewrite E1 in D.
    assert (v n - w n = M * (v n / M - w n / M)) by lia.
    assert (v n / M - w n / M = 0) by nia. nia.
Qed.

Definition rp_ok (d : rpdesc) (s : srp) : bool := (String.eqb (rd_name d) (sr_name s) && fields_match (rd_fields d) (sr_params s))%bool.

Definition lookup (l : list (string * gval)) (n : string) : option gval :=
  match find (fun p => String.eqb (fst p) n) l with Some p => Some (snd p) | None => None end.

Lemma dec_field_spec : forall t k z, kind_matches t k = true ->
  match k with Num w => 0 <= z < 256 ^ Z.of_nat w | Signed w => - 256 ^ Z.of_nat w <= 2 * z < 256 ^ Z.of_nat w end ->
  fsize t = width k /\ as_int (dec_field t (le_bytes (width k) z)) = z /\ has_type t (dec_field t (le_bytes (width k) z)).
Proof.
  intros t k z E H. destruct t as [w|w|w|], k as [w'|w']; cbn in E; try discriminate; apply Nat.eqb_eq in E; subst w'; cbn [fsize width dec_field as_int has_type].
  - rewrite le_val_le_bytes by exact H. auto.
  - assert (R := le_val_range _ (le_bytes_bytes w z)). rewrite le_bytes_length in R.
    assert (M : le_val (le_bytes w z) = z mod 256 ^ Z.of_nat w).
    { destruct (Z.lt_ge_cases z 0) as [Hn|Hn].
      - assert (G : forall m x, le_bytes m x = le_bytes m (x mod 256 ^ Z.of_nat m)).
        { clear. induction m as [|m IHm]; intro x; [reflexivity|]. cbn [le_bytes].
          rewrite Nat2Z.inj_succ, Z.pow_succ_r by lia. rewrite Z.rem_mul_r by lia. unfold u8. f_equal.
          - rewrite Z.mul_comm, Z.mod_add by lia. now rewrite Z.mod_mod by lia.
          - rewrite IHm. f_equal. rewrite Z.mul_comm, Z.div_add by lia.
            rewrite (Z.div_small (x mod 256)) by lia. now rewrite Z.add_0_l. }
        rewrite G. rewrite le_val_le_bytes; [reflexivity|]. apply Z.mod_pos_bound. lia.
      - rewrite le_val_le_bytes by lia. rewrite Z.mod_small by lia. reflexivity. }
    rewrite M. set (N := 256 ^ Z.of_nat w) in *. assert (0 < N) by (unfold N; lia). clearbody N.
    assert (Hz : z mod N = z \/ z mod N = z + N).
    { destruct (Z.lt_ge_cases z 0); [right|left; apply Z.mod_small; lia].
      symmetry. apply (Z.mod_unique z N (-1)); lia. }
    destruct (N <=? 2 * (z mod N)) eqn:C; lia.
  - rewrite le_val_le_bytes by exact H. repeat split; auto using le_bytes_length, le_bytes_bytes.
Qed.

Lemma unmarshal_spec : forall fs ps v rest, fields_match fs ps = true -> fits ps v ->
  exists l, unmarshal fs (spec_body ps v ++ rest) = Some l /\ map fst l = map fst ps /\
            Forall (fun p => as_int (snd p) = v (fst p)) l.
Proof.
  induction fs as [|[n t] fs IH]; intros [|[m k] ps] v rest E H; cbn in E; try discriminate.
  - exists []. repeat split; constructor.
  - apply andb_true_iff in E. destruct E as [E E3]. apply andb_true_iff in E. destruct E as [E1 E2].
    apply String.eqb_eq in E1. subst m. apply Forall_cons_iff in H. destruct H as [Hh Hr]. cbn [fst snd] in Hh.
    destruct (dec_field_spec t k (v n) E2 Hh) as (Fs & Fv & _).
    destruct (IH ps v rest E3 Hr) as (l & El & Hn & Hv).
    cbn [unmarshal spec_body flat_map fst snd]. fold (spec_body ps v). rewrite Fs.
    rewrite <- app_assoc.
    assert (C : Nat.leb (width k) (length (le_bytes (width k) (v n) ++ spec_body ps v ++ rest)) = true)
      by (apply Nat.leb_le; rewrite app_length, le_bytes_length; lia).
    rewrite C.
    rewrite skipn_app, le_bytes_length, Nat.sub_diag, skipn_O, skipn_all2 by (rewrite le_bytes_length; lia).
    cbn [app]. rewrite El.
    rewrite firstn_app, le_bytes_length, Nat.sub_diag, firstn_O, app_nil_r, firstn_all2 by (rewrite le_bytes_length; lia).
    eexists. split; [reflexivity|]. cbn [map fst]. split; [now rewrite Hn|]. constructor; [exact Fv|exact Hv].
Qed.

Lemma unmarshal_short : forall fs b, (length b < list_sum (map (fun f => fsize (snd f)) fs))%nat -> unmarshal fs b = None.
Proof.
  induction fs as [|[n t] fs IH]; intros b H; cbn in H; [lia|]. cbn [unmarshal].
  destruct (Nat.leb (fsize t) (length b)) eqn:C; [|reflexivity]. apply Nat.leb_le in C.
  rewrite IH; [reflexivity|]. rewrite skipn_length. unfold list_sum. lia.
Qed.
