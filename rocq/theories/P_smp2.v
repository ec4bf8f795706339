(** The observer's view agrees with the pairing context, for every execution. *)
Require Import Verif.Base Verif.M_smp Verif.S_smp Verif.P_smp.

Lemma Ret_inj : forall {A} (a b : A), Ret a = Ret b -> a = b.
Proof. congruence. Qed.
Lemma Some_inj : forall {A} (a b : A), Some a = Some b -> a = b.
Proof. congruence. Qed.

(** Partial-correctness rules for the handlers. *)
Definition wp {A} (m : M A) (p : pctx) (Q : pctx -> list out -> option A -> Prop) : Prop :=
  forall p' o r, m p = Ret (p', o, r) -> Q p' o r.

Lemma wp_ret {A} (a : A) p (Q : pctx -> list out -> option A -> Prop) : Q p [] (Some a) -> wp (ret a) p Q.
Proof. intros H p' o r E. unfold ret in E. injection E as <- <- <-. exact H. Qed.
Lemma wp_fail {A} p (Q : pctx -> list out -> option A -> Prop) : Q p [] None -> wp fail p Q.
Proof. intros H p' o r E. unfold fail in E. injection E as <- <- <-. exact H. Qed.
Lemma wp_panic {A} p (Q : pctx -> list out -> option A -> Prop) : wp panic p Q.
Proof. intros p' o r E. discriminate E. Qed.
Lemma wp_get p (Q : pctx -> list out -> option pctx -> Prop) : Q p [] (Some p) -> wp get p Q.
Proof. intros H p' o r E. unfold get in E. injection E as <- <- <-. exact H. Qed.
Lemma wp_modify f p (Q : pctx -> list out -> option unit -> Prop) : Q (f p) [] (Some tt) -> wp (modify f) p Q.
Proof. intros H p' o r E. unfold modify in E. injection E as <- <- <-. exact H. Qed.
Lemma wp_emit x p (Q : pctx -> list out -> option unit -> Prop) : Q p [x] (Some tt) -> wp (emit x) p Q.
Proof. intros H p' o r E. unfold emit in E. injection E as <- <- <-. exact H. Qed.
Lemma wp_bind {A D} (m : M A) (k : A -> M D) p Q :
  wp m p (fun p1 o1 r1 => match r1 with
                          | None => Q p1 o1 None
                          | Some a => wp (k a) p1 (fun p2 o2 r2 => Q p2 (o1 ++ o2) r2)
                          end) -> wp (bind m k) p Q.
Proof.
  intros H p' o r E. unfold bind in E. destruct (m p) as [[[p1 o1] r1]|] eqn:Em; [|discriminate].
  specialize (H _ _ _ Em). destruct r1 as [a|].
  - destruct (k a p1) as [[[p2 o2] r2]|] eqn:Ek; [|discriminate]. injection E as <- <- <-. now apply (H _ _ _ Ek).
  - injection E as <- <- <-. exact H.
Qed.
Lemma wp_lift {A} (x : go A) p (Q : pctx -> list out -> option A -> Prop) :
  (forall a, x = Ret a -> Q p [] (Some a)) -> wp (lift x) p Q.
Proof. intros H p' o r E. unfold lift in E. destruct x as [a|]; [|discriminate]. injection E as <- <- <-. now apply H. Qed.
Lemma wp_ofopt {A} (x : option A) p (Q : pctx -> list out -> option A -> Prop) :
  (forall a, x = Some a -> Q p [] (Some a)) -> (x = None -> Q p [] None) -> wp (ofopt x) p Q.
Proof. intros H1 H2. unfold ofopt. destruct x as [a|]; [apply wp_ret; now apply H1|apply wp_fail; now apply H2]. Qed.
Lemma wp_liftE {A} (x : go (option A)) p (Q : pctx -> list out -> option A -> Prop) :
  (forall a, x = Ret (Some a) -> Q p [] (Some a)) -> (x = Ret None -> Q p [] None) -> wp (liftE x) p Q.
Proof.
  intros H1 H2. unfold liftE. apply wp_bind, wp_lift. intros [a|] E; cbn [app]; apply wp_ofopt; intros; subst; cbn;
  try discriminate; [injection H as <-; now apply H1|now apply H2].
Qed.
Lemma wp_must b p (Q : pctx -> list out -> option unit -> Prop) :
  (b = true -> Q p [] (Some tt)) -> (b = false -> Q p [] None) -> wp (must b) p Q.
Proof. intros H1 H2. unfold must. destruct b; [apply wp_ret|apply wp_fail]; auto. Qed.
Lemma wp_ignore m p (Q : pctx -> list out -> option unit -> Prop) :
  wp m p (fun p' o _ => Q p' o (Some tt)) -> wp (ignore_err m) p Q.
Proof.
  intros H p' o r E. unfold ignore_err in E. destruct (m p) as [[[p1 o1] r1]|] eqn:Em; [|discriminate].
  injection E as <- <- <-. now apply (H _ _ _ Em).
Qed.

Ltac sp := cbn [p_req p_rsp p_raddr p_rat p_rrand p_rconf p_laddr p_lat p_lrand p_keys p_mac p_rpub p_dhkey p_legacy p_stk
  p_iter p_type p_st p_passkey p_oobdata p_bond
  set_req set_rsp set_raddr set_rat set_rrand set_rconf set_laddr set_lat set_lrand set_keys set_mac set_rpub set_dhkey
  set_legacy set_stk set_iter set_type set_st set_passkey set_oobdata set_bond
  auth_req oob_flag io_cap key_size init_dist resp_dist app fst snd own_public lrand] in *.
Ltac wpstep :=
  lazymatch goal with
  | |- wp (ret _) _ _ => apply wp_ret
  | |- wp fail _ _ => apply wp_fail
  | |- wp panic _ _ => apply wp_panic
  | |- wp get _ _ => apply wp_get
  | |- wp (modify _) _ _ => apply wp_modify
  | |- wp (emit _) _ _ => apply wp_emit
  | |- wp (bind _ _) _ _ => apply wp_bind
  | |- wp (lift _) _ _ => apply wp_lift; let a := fresh "a" in let E := fresh "E" in intros a E
  | |- wp (liftE _) _ _ => apply wp_liftE; [let a := fresh "a" in let E := fresh "E" in intros a E|let E := fresh "E" in intros E]
  | |- wp (ofopt _) _ _ => apply wp_ofopt; [let a := fresh "a" in let E := fresh "E" in intros a E|let E := fresh "E" in intros E]
  | |- wp (must _) _ _ => apply wp_must; let E := fresh "E" in intros E
  | |- wp (ignore_err _) _ _ => apply wp_ignore
  | |- wp (match ?x with _ => _ end) _ _ => let E := fresh "E" in destruct x eqn:E
  | |- wp ?m _ _ => let h := head_of m in unfold h
  | |- match ?x with _ => _ end => let E := fresh "E" in destruct x eqn:E
  end
with head_of m := lazymatch m with ?f _ => head_of f | _ => m end.
Ltac wps := repeat (wpstep; cbv beta iota).

Section V.
Variable C : prims.
Variable HC : prims_ok C.
Variables (la ra : bytes) (lat rat : Z).

Definition rand_ok (o : option bytes) : Prop := match o with None => True | Some r => length r = 16%nat end.
Record B (v : view) (p : pctx) : Prop := mkB {
  B_conf : p_rconf p = v_conf v;
  B_own : v_own v = option_map key_wire (own_public C p);
  B_peer : p_rpub p = option_map key_of_wire (v_peer v);
  B_peerlen : forall b, v_peer v = Some b -> length b = 64%nat;
  B_key : v_passkey v = p_passkey p;
  B_iter : p_type p = Passkey -> p_legacy p = false -> p_iter p = v_rounds v;
  B_laddr : p_laddr p = rev la;
  B_raddr : p_raddr p = rev ra;
  B_lat : p_lat p = lat;
  B_rat : p_rat p = rat;
  B_lrand : rand_ok (p_lrand p) }.

Definition see (v : view) (o : list out) : view :=
  mkV (v_conf v) (sent_own (map EOut o) (v_own v)) (v_peer v) (v_passkey v) (v_rounds v).

Lemma msg_frame : forall c d, msg_of (frame (c :: d)) = Some (c, d).
Proof. reflexivity. Qed.

Lemma sent_frame : forall c d own, sent_own [EOut (OSend (frame (c :: d)))] own = if c =? 12 then Some d else own.
Proof.
  intros c d own. unfold sent_own. cbn [fold_left]. rewrite msg_frame.
  destruct (Z.eqb_spec c 12) as [->|N]; [reflexivity|].
  destruct c as [|q|q]; try reflexivity.
  do 4 (destruct q as [q|q|]; try reflexivity). now destruct N.
Qed.

Ltac unB HB := destruct HB as [Hconf Hown Hpeer Hplen Hkey Hiter Hla Hra Hlat Hrat Hlr]; destruct_view
with destruct_view := match goal with v : view |- _ => destruct v as [vc vo vp vk vr] end; cbn [v_conf v_own v_peer v_passkey v_rounds] in *.
Ltac simpl_see := unfold see; cbn [app map]; cbn [v_conf v_own v_peer v_passkey v_rounds];
  try (rewrite sent_frame; cbn [Z.eqb Pos.eqb]); try (change (sent_own [] ?x) with x).
Ltac own := unfold own_public, MarshalPublicKeyXY, MarshalPublicKeyX, option_map in *; sp;
  repeat match goal with
         | H : context [match p_keys ?p with _ => _ end] |- _ => destruct (p_keys p) eqn:?
         | |- context [match p_keys ?p with _ => _ end] => destruct (p_keys p) eqn:?
         | H : context [match e_key ?p with _ => _ end] |- _ => destruct (e_key p) eqn:?
         end; try discriminate;
  repeat match goal with H : Ret _ = Ret _ |- _ => apply Ret_inj in H end; subst.
Ltac leaf := cbn [app]; simpl_see; constructor; sp; cbn [v_conf v_own v_peer v_passkey v_rounds]; try assumption; try reflexivity;
  try congruence; try (own; unfold key_wire, swap in *; (assumption || reflexivity || congruence)).

Lemma B_rsp : forall e b v p, env_ok e -> B v p -> (6 <= length b)%nat ->
  wp (smpOnPairingResponse C e b) p (fun p' o _ => B (see (mkV (v_conf v) (v_own v) (v_peer v) (v_passkey v) 0) o) p').
Proof.
  intros e b v p He HB Hb. unB HB. wps; sp; cbn in Hb; try lia.
  all: leaf.
Qed.

Lemma B_conf_msg : forall e b v p, env_ok e -> B v p -> length b = 16%nat ->
  wp (smpOnPairingConfirm e b) p (fun p' o _ => B (see (mkV b (v_own v) (v_peer v) (v_passkey v) (v_rounds v)) o) p').
Proof.
  intros e b v p He HB Hb. unB HB. wps; sp; try (apply len_is_eq in Hb; congruence).
  all: leaf.
Qed.

Lemma key_wire_x : forall k, length k = 64%nat -> key_x (key_wire k) = firstn 32 k.
Proof.
  intros k H. unfold key_x, key_wire.
  rewrite firstn_app, rev_length, firstn_length, H. change (32 - Nat.min 32 64)%nat with 0%nat.
  rewrite firstn_O, app_nil_r, firstn_all2 by (rewrite rev_length, firstn_length, H; lia). apply rev_involutive.
Qed.
Lemma key_of_wire_x : forall w, length w = 64%nat -> firstn 32 (key_of_wire w) = key_x w.
Proof.
  intros w H. unfold key_x, key_of_wire.
  rewrite firstn_app, rev_length, firstn_length, H. change (32 - Nat.min 32 64)%nat with 0%nat.
  rewrite firstn_O, app_nil_r, firstn_all2 by (rewrite rev_length, firstn_length, H; lia). reflexivity.
Qed.

(** The confirm value computed by the code is the one of the specification. *)
Lemma confirm_calc : forall v p r z kbx kax c, B v p ->
  MarshalPublicKeyX (p_rpub p) = Ret kbx -> MarshalPublicKeyX (own_public C p) = Ret kax -> length r = 16%nat ->
  smpF4 C kbx kax r z = c ->
  exists a b, v_own v = Some a /\ v_peer v = Some b /\ c = Some (rev (f4 C (key_x b) (key_x a) (rev r) z)).
Proof.
  intros v p r z kbx kax c HB Hb Ha Hr Hc. destruct HB as [Hconf Hown Hpeer Hplen Hkey Hiter Hla Hra Hlat Hrat Hlr].
  destruct (own_public C p) as [k|] eqn:Ek; [|discriminate]. unfold option_map in Hown.
  destruct (v_peer v) as [b|] eqn:Ev; unfold option_map in Hpeer; rewrite Hpeer in Hb; [|discriminate].
  exists (key_wire k), b. split; [assumption|]. split; [reflexivity|].
  specialize (Hplen b eq_refl). unfold MarshalPublicKeyX in Ha, Hb. assert (Eb : kbx = swap (firstn 32 (key_of_wire b))) by congruence. assert (Ea : kax = swap (firstn 32 k)) by congruence. clear Ha Hb. subst kbx kax.
  assert (Lk : length k = 64%nat).
  { unfold own_public in Ek. destruct (p_keys p); [|discriminate]. injection Ek as <-. apply HC. }
  assert (Lb : length (key_of_wire b) = 64%nat)
    by (unfold key_of_wire; rewrite app_length, !rev_length, <- app_length, firstn_skipn; assumption).
  rewrite F4_spec in Hc; [|unfold swap; rewrite rev_length, firstn_length; lia
     |unfold swap; rewrite rev_length, firstn_length; lia|assumption].
  unfold swap in Hc. rewrite !rev_involutive, key_of_wire_x in Hc by assumption.
  rewrite key_wire_x by assumption. now symmetry.
Qed.

Lemma bool_eq_iff' : forall a b : bytes, beq_bytes a b = beq_bytes b a.
Proof.
  intros a b. destruct (beq_bytes a b) eqn:E.
  - apply beq_bytes_eq in E. subst. now rewrite beq_bytes_refl.
  - symmetry. apply beq_bytes_neq. apply beq_bytes_neq in E. congruence.
Qed.

Definition rounds_after (v : view) (b : bytes) : nat :=
  if confirm_matches C v b (passkey_bit_op (v_passkey v) (v_rounds v)) then S (v_rounds v) else v_rounds v.
Lemma B_rand_msg : forall e b v p, env_ok e -> B v p -> length b = 16%nat ->
  wp (smpOnPairingRandom C e b) p
     (fun p' o _ => B (see (mkV (v_conf v) (v_own v) (v_peer v) (v_passkey v) (rounds_after v b)) o) p').
Proof.
  intros e b v p He HB Hb. pose proof HB as HB0. unB HB.
  assert (Hm : forall kbx kax, MarshalPublicKeyX (p_rpub p) = Ret kbx -> MarshalPublicKeyX (own_public C p) = Ret kax ->
     smpF4 C kbx kax b (passkey_z (p_passkey p) (p_iter p)) <> None /\
     forall c, smpF4 C kbx kax b (passkey_z (p_passkey p) (p_iter p)) = Some c -> p_type p = Passkey -> p_legacy p = false ->
     confirm_matches C (mkV vc vo vp vk vr) b (passkey_bit_op vk vr) = beq_bytes (p_rconf p) c).
  { intros kbx kax H1 H2.
    destruct (confirm_calc _ _ b (passkey_z (p_passkey p) (p_iter p)) kbx kax _ HB0 H1 H2 Hb eq_refl) as (a & q & Ha & Hq & Hc).
    cbn [v_own v_peer] in Ha, Hq. rewrite Hc. split; [discriminate|]. intros c Hcc Ht Hl. apply Some_inj in Hcc. subst c.
    unfold confirm_matches. cbn [v_own v_peer v_conf v_passkey v_rounds]. rewrite Ha, Hq. rewrite Hconf, passkey_z_spec, Hkey, Hiter by assumption. reflexivity. }
  unfold rounds_after. cbn [v_conf v_own v_peer v_passkey v_rounds] in *.
  wps; sp; try (apply len_is_eq in Hb; congruence).
  all: leaf.
  all: intros _ _; match goal with
       | E2 : MarshalPublicKeyX (p_rpub _) = Ret ?a, E3 : MarshalPublicKeyX _ = Ret ?a0,
         E4 : smpF4 _ ?a ?a0 _ _ = Some ?c, E5 : beq_bytes _ _ = _ |- _ =>
           destruct (Hm _ _ E2 E3) as [_ Hc]; rewrite (Hc _ E4), E5 by assumption; rewrite <- Hiter by assumption; reflexivity
       | E2 : MarshalPublicKeyX (p_rpub _) = Ret ?a, E3 : MarshalPublicKeyX _ = Ret ?a0, E4 : smpF4 _ ?a ?a0 _ _ = None |- _ =>
           destruct (Hm _ _ E2 E3) as [Hn _]; now destruct Hn
       end.
Qed.

Lemma Unmarshal_spec : forall b, UnmarshalPublicKey C b = if on_curve C (key_of_wire b) then Some (key_of_wire b) else None.
Proof. reflexivity. Qed.
Lemma B_pub_msg : forall e b v p, env_ok e -> B v p -> length b = 64%nat ->
  wp (smpOnPairingPublicKey C e b) p
     (fun p' o _ => B (see (match v_own v with
                            | Some a => if negb (beq_bytes a b) && on_curve C (key_of_wire b)
                                        then mkV (v_conf v) (v_own v) (Some b) (v_passkey v) 0 else v
                            | None => v
                            end) o) p').
Proof.
  intros e b v p He HB Hb. unB HB.
  assert (Hu : forall a, MarshalPublicKeyXY (own_public C p) = Ret a -> vo = Some a).
  { intros a Ha. rewrite Hown. unfold MarshalPublicKeyXY in Ha. destruct (own_public C p); [|discriminate]. cbn.
    apply Ret_inj in Ha. now rewrite <- Ha. }
  wps; sp; try (apply len_is_eq in Hb; congruence).
  all: match goal with E : MarshalPublicKeyXY _ = Ret _ |- _ => rewrite (Hu _ E) in * end.
  all: try match goal with E : beq_bytes _ _ = _ |- _ => rewrite E; cbn [negb andb] end.
  all: try (match goal with E : UnmarshalPublicKey _ _ = _ |- _ => rewrite Unmarshal_spec in E end;
    destruct (on_curve C (key_of_wire b)); try discriminate;
    try match goal with E : Some _ = Some _ |- _ => apply Some_inj in E; subst end).
  all: try discriminate.
  all: leaf.
Qed.

Lemma B_other : forall (m : M unit) v p,
  wp m p (fun p' o _ => p_rconf p' = p_rconf p /\ p_keys p' = p_keys p /\ p_rpub p' = p_rpub p /\ p_passkey p' = p_passkey p /\
    p_type p' = p_type p /\ p_legacy p' = p_legacy p /\ p_iter p' = p_iter p /\ p_laddr p' = p_laddr p /\ p_raddr p' = p_raddr p /\
    p_lat p' = p_lat p /\ p_rat p' = p_rat p /\ p_lrand p' = p_lrand p /\ sent_own (map EOut o) (v_own v) = v_own v) ->
  B v p -> wp m p (fun p' o _ => B (see v o) p').
Proof.
  intros m v p H HB p' o r E. specialize (H _ _ _ E). cbv beta in H.
  destruct H as (H1 & H2 & H3 & H4 & H5 & H6 & H7 & H8 & H9 & H10 & H11 & H12 & H13). unB HB.
  unfold see. cbn [v_conf v_own v_peer v_passkey v_rounds]. rewrite H13.
  constructor; cbn [v_conf v_own v_peer v_passkey v_rounds]; try congruence.
  all: unfold own_public in *; rewrite ?H2, ?H5, ?H6, ?H7, ?H12; assumption.
Qed.
Ltac other := apply B_other; [wps; sp; cbn [map]; repeat (split; [reflexivity|]); try reflexivity; try apply sent_frame|assumption].

Lemma B_sec : forall e b v p, B v p -> wp (smpOnSecurityRequest e b) p (fun p' o _ => B (see v o) p').
Proof. intros e b v p HB. other. Qed.
Lemma B_dh : forall e b v p, B v p -> wp (smpOnDHKeyCheck C e b) p (fun p' o _ => B (see v o) p').
Proof. intros e b v p HB. other. Qed.
Lemma B_enc : forall e b v p, B v p -> wp (smpOnEncryptionInformation e b) p (fun p' o _ => B (see v o) p').
Proof. intros e b v p HB. other. Qed.
Lemma B_mid : forall e b v p, B v p -> wp (smpOnMasterIdentification e b) p (fun p' o _ => B (see v o) p').
Proof. intros e b v p HB. other. Qed.
Lemma B_short : forall (m : M unit) v p, B v p -> (forall p, m p = Ret (p, [], None)) -> wp m p (fun p' o _ => B (see v o) p').
Proof. intros m v p HB H. intros p' o r E. rewrite H in E. injection E as <- <- <-. destruct v. exact HB. Qed.

Lemma B_dispatch : forall e c b v p h, env_ok e -> B v p -> dispatch C e c b = Some h ->
  wp h p (fun p' o _ => B (see (view_msg C v (0 :: 0 :: 0 :: 0 :: c :: b)) o) p').
Proof.
  intros e c b v p h He HB Hd. unfold dispatch in Hd. unfold view_msg. cbn [msg_of].
  repeat match type of Hd with
  | (if ?x then _ else _) = _ => destruct x eqn:?
  end; try discriminate Hd; apply Some_inj in Hd; subst h;
  repeat match goal with H : (_ =? _) = true |- _ => apply Z.eqb_eq in H; subst c end; cbn [Z.eqb Pos.eqb andb].
  - destruct (Nat.leb_spec 6 (length b)) as [H|H]; cbn [andb].
    + now apply B_rsp.
    + apply B_short; [assumption|]. intro q. do 6 (destruct b as [|? b]; [reflexivity|]). cbn in H. lia.
  - destruct (Nat.eqb_spec (length b) 16) as [H|H]; [now apply B_conf_msg|].
    apply B_short; [assumption|]. intro q. unfold smpOnPairingConfirm, len_is. apply Nat.eqb_neq in H. now rewrite H.
  - destruct (Nat.eqb_spec (length b) 16) as [H|H]; [now apply B_rand_msg|].
    apply B_short; [assumption|]. intro q. unfold smpOnPairingRandom, len_is. apply Nat.eqb_neq in H. now rewrite H.
  - now apply B_short.
  - now apply B_enc.
  - now apply B_mid.
  - now apply B_sec.
  - destruct (Nat.eqb_spec (length b) 64) as [H|H]; [now apply B_pub_msg|].
    apply B_short; [assumption|]. intro q. unfold smpOnPairingPublicKey, len_is. apply Nat.eqb_neq in H. now rewrite H.
  - now apply B_dh.
Qed.
End V.
