(** Lemmas about the bond store. *)
Require Import Verif.S_store Verif.P_store Verif.S_uuid Verif.P_uuid.

(** ** The stored form *)
Lemma hexdec_encode : forall b, all_bytes b -> hexdec (hex_encode b) = Some b.
Proof. intros b H. unfold hexdec. rewrite (hex_decode_text _ b); [reflexivity|]. now apply hex_encode_text. Qed.

Lemma create_round : forall b, bond_ok b ->
  createBondInfo (createBondData b) = Ret (if Nat.eqb (length (bi_ltk b)) 0 then None else Some b).
Proof.
  intros b (H1 & H2 & H3). unfold createBondInfo, createBondData. cbn [bd_ltk bd_ediv bd_rand bd_legacy].
  rewrite hexdec_encode by exact H1. destruct (Nat.eqb (length (bi_ltk b)) 0); [reflexivity|].
  rewrite !hexdec_encode by apply le_bytes_bytes.
  assert (gle16 (le_bytes 2 (bi_ediv b)) = Ret (bi_ediv b)) as ->.
  { cbn [le_bytes gle16]. f_equal. now apply de16_le16. }
  unfold gle64. rewrite le_bytes_length. cbn [Nat.ltb Nat.leb gbind].
  replace 8%nat with (length (le_bytes 8 (bi_rand b))) at 1 by apply le_bytes_length. rewrite firstn_all.
  rewrite le_val_le_bytes by (change (256 ^ Z.of_nat 8) with 18446744073709551616; exact H3). now destruct b.
Qed.

Lemma hex_digit_ascii : forall v, 0 <= v < 16 -> 0 <= hex_digit v < 128.
Proof. intros v H. unfold hex_digit. destruct (v <? 10) eqn:E; lia. Qed.
Lemma hex_encode_ascii : forall b, all_bytes b -> ascii (hex_encode b).
Proof.
  intros b H. induction H as [|x b Hx H IH]; [constructor|]. unfold hex_encode. cbn [flat_map app].
  unfold is_byte in Hx. constructor; [apply hex_digit_ascii; lia|]. constructor; [apply hex_digit_ascii; lia|]. exact IH.
Qed.
Lemma data_ascii : forall b, bond_ok b -> ascii_bd (createBondData b).
Proof. intros b (H1 & _). repeat split; apply hex_encode_ascii; [exact H1|apply le_bytes_bytes|apply le_bytes_bytes]. Qed.

Section B.
Context (J : jcodec) (HJ : json_ok J) (F : fault -> Prop).

(** ** Reading *)
Definition fexists (f : file) : file := match f with None => Some [] | _ => f end.

Lemma holds_exists : forall f s, holds J f s -> holds J (fexists f) s.
Proof. intros [d|] s H; exact H. Qed.

(** What loadBonds gives. *)
Lemma load_exec : forall f x f', exec F (loadBonds J) f x f' ->
  (f' = f \/ f' = fexists f) /\
  ((f' = fexists f /\ x = Ret (match f with None | Some [] => Some [] | Some d => jdec J d end)) \/ (any_fault F /\ x = Ret None)).
Proof.
  intros f x f' H. unfold loadBonds in H. inversion H as [| |c0 k0 f0 r f1 x0 f2 Hio Hk]; subst. clear H.
  assert (Hread : forall d y g, exec F (PIo Read (fun x => match x with Fail => PRet None | Ok d => if Nat.ltb 0 (length d) then PRet (jdec J d) else PRet (Some []) end)) (Some d) y g ->
     g = Some d /\ (y = Ret (match d with [] => Some [] | _ => jdec J d end) \/ any_fault F /\ y = Ret None)).
  { intros d y g Hd. inversion Hd as [| |c1 k1 f3 r1 f4 x1 f5 Hio1 Hk1]; subst. inversion Hio1; subst.
    - destruct d as [|z d]; cbn [length Nat.ltb Nat.leb] in Hk1; inversion Hk1; subst; (split; [reflexivity|now left]).
    - inversion Hk1; subst. split; [reflexivity|]. right. split; [now exists FRead|reflexivity]. }
  inversion Hio; subst.
  - destruct (Hread _ _ _ Hk) as [-> Hy]. split; [now left|]. destruct Hy as [->|[Hf ->]]; [|now right].
    left. split; [reflexivity|]. now destruct d.
  - inversion Hk as [| |c1 k1 f3 r1 f4 x1 f5 Hio1 Hk1]; subst. inversion Hio1; subst.
    + destruct (Hread _ _ _ Hk1) as [-> Hy]. split; [now right|]. destruct Hy as [->|[Hf ->]]; [now left|now right].
    + inversion Hk1; subst. split; [now left|]. right. split; [now exists FCreate|reflexivity].
  - assert (any_fault F) as Hf by now exists FStat. destruct f1 as [d|].
    + destruct (Hread _ _ _ Hk) as [-> Hy]. split; [now left|]. destruct Hy as [->|[_ ->]]; [|now right].
      left. split; [reflexivity|]. now destruct d.
    + inversion Hk as [| |c1 k1 f3 r1 f4 x1 f5 Hio1 Hk1]; subst. inversion Hio1; subst; (inversion Hk1; subst; split; [now left|now right]).
Qed.

Lemma load_total : forall f, exec F (loadBonds J) f (Ret (match f with None | Some [] => Some [] | Some d => jdec J d end)) (fexists f).
Proof.
  intros [d|]; unfold loadBonds.
  - econstructor; [apply io_stat|]. econstructor; [apply io_read|]. destruct d; constructor.
  - econstructor; [apply io_stat_none|]. econstructor; [apply io_create|]. econstructor; [apply io_read|]. constructor.
Qed.

(** The map read from a file that holds [s]. *)
Lemma holds_load : forall f s, holds J f s -> exists m,
  match f with None | Some [] => Some [] | Some d => jdec J d end = Some m /\ forall k, mget k m = option_map createBondData (s k).
Proof.
  intros f s (Hok & H). destruct f as [[|z d]|].
  - exists []. split; [reflexivity|]. intro k. rewrite (H k). reflexivity.
  - exact H.
  - exists []. split; [reflexivity|]. intro k. rewrite (H k). reflexivity.
Qed.

Lemma map_ascii : forall m s', (forall k b, s' k = Some b -> ascii k /\ bond_ok b) ->
  (forall k, mget k m = option_map createBondData (s' k)) -> forall k v, mget k m = Some v -> ascii k /\ ascii_bd v.
Proof.
  intros m s' Hok Hm k v Hk. rewrite Hm in Hk. destruct (s' k) as [b|] eqn:E; [|discriminate]. cbn in Hk. injection Hk as <-.
  destruct (Hok k b E) as [Ha Hb]. split; [exact Ha|now apply data_ascii].
Qed.

(** Writing a map that stands for [s']. *)
Lemma holds_store : forall m s', (forall k b, s' k = Some b -> ascii k /\ bond_ok b) ->
  (forall k, mget k m = option_map createBondData (s' k)) -> holds J (Some (jenc J m)) s'.
Proof.
  intros m s' Hok Hm. split; [exact Hok|]. destruct HJ as (H1 & H2 & _).
  destruct (H1 m) as (m' & Hd & He).
  { intros k v Hk. rewrite Hm in Hk. destruct (s' k) as [b|] eqn:E; [|discriminate]. cbn in Hk. injection Hk as <-.
    destruct (Hok k b E) as [Ha Hb]. split; [exact Ha|now apply data_ascii]. }
  destruct (jenc J m) as [|z d] eqn:E; [now apply H2 in E|].
  exists m'. split; [exact Hd|]. intro k. now rewrite He.
Qed.

Definition upd_map (s : pmap binfo) (a : bytes) (v : option binfo) : pmap binfo := fun k => if beq_bytes k a then v else s k.
Lemma upd_puts : forall s a b, puts a b s (upd_map s a (Some b)).
Proof. intros s a b. split; unfold upd_map; [now rewrite beq_bytes_refl|]. intros k H. now rewrite (proj2 (beq_bytes_neq k a) H). Qed.
Lemma upd_drops : forall s a, drops a s (upd_map s a None).
Proof. intros s a. split; unfold upd_map; [now rewrite beq_bytes_refl|]. intros k H. now rewrite (proj2 (beq_bytes_neq k a) H). Qed.

Lemma store_set : forall f s m a b, holds J f s -> (forall k, mget k m = option_map createBondData (s k)) -> ascii a -> bond_ok b ->
  holds J (Some (jenc J (mset a (createBondData b) m))) (upd_map s a (Some b)).
Proof.
  intros f s m a b (Hok & _) Hm Ha Hb. apply holds_store.
  - intros k b'. unfold upd_map. destruct (beq_bytes k a) eqn:E; intro Hk; [|now apply Hok].
    apply beq_bytes_eq in E. injection Hk as <-. now subst k.
  - intro k. rewrite mget_mset. unfold upd_map. destruct (beq_bytes k a); [reflexivity|apply Hm].
Qed.
Lemma store_del : forall f s m a, holds J f s -> (forall k, mget k m = option_map createBondData (s k)) ->
  holds J (Some (jenc J (mdel a m))) (upd_map s a None).
Proof.
  intros f s m a (Hok & _) Hm. apply holds_store.
  - intros k b'. unfold upd_map. destruct (beq_bytes k a) eqn:E; intro Hk; [discriminate|now apply Hok].
  - intro k. rewrite mget_mdel. unfold upd_map. destruct (beq_bytes k a); [reflexivity|apply Hm].
Qed.

Lemma lift_exec : forall {A} (g : go A) f x f', exec F (lift g) f x f' -> x = g /\ f' = f.
Proof. intros A [a|] f x f' H; inversion H; subst; split; reflexivity. Qed.

(** ** One call *)
Lemma same_refl : forall (s : pmap binfo), same s s. Proof. intros s k. reflexivity. Qed.

Context (HF : write_ok F).

Lemma store_exec : forall m f x f', exec F (storeBonds J m) f x f' ->
  (x = Ret true /\ f' = Some (jenc J m)) \/ (any_fault F /\ x = Ret false /\ f' = f).
Proof.
  intros m f x f' H. destruct (WriteFile_exec _ _ _ _ _ H) as [H1|[(H1 & H2 & H3)|(H1 & _)]]; [now left| |now apply HF in H1].
  right. split; [now exists FOpen|now split].
Qed.

Lemma load_keeps : forall f s f', holds J f s -> (f' = f \/ f' = fexists f) -> holds J f' s.
Proof. intros f s f' H [->| ->]; [exact H|now apply holds_exists]. Qed.

Lemma call_spec : forall s f o x f', bop_ok o -> holds J f s -> exec F (bcall J o) f x f' ->
  exists r s', x = Ret r /\ bspec (any_fault F) s o r s' /\ holds J f' s'.
Proof.
  intros s f o x f' Ho Hs H.
  assert (Hl12 : forall a, Nat.eqb (length a) 12 = true -> addr12 a) by (intros a E; now apply Nat.eqb_eq in E).
  assert (Hn12 : forall a, Nat.eqb (length a) 12 = false -> ~ addr12 a) by (intros a E; now apply Nat.eqb_neq in E).
  destruct o as [a|a|a ob|a]; unfold bcall in H; cbn [block bearly bbody] in H.
  - destruct (Nat.eqb (length a) 12) eqn:E.
    + unfold exists_body in H. apply exec_bind in H. destruct H as [(l & f1 & H1 & H2)|(H1 & _)].
      2:{ apply load_exec in H1. destruct H1 as (_ & [(_ & H1)|(_ & H1)]); discriminate. }
      apply load_exec in H1. destruct H1 as (Hf & Hl). pose proof (load_keeps _ _ _ Hs Hf) as Hs1.
      destruct Hl as [(_ & Hl)|(Hfl & Hl)]; injection Hl as ->.
      * destruct (holds_load _ _ Hs) as (m & Em & Hm). rewrite Em in H2. inversion H2; subst. eexists _, s.
        split; [reflexivity|]. split; [|exact Hs1]. split; [apply same_refl|]. split; [|intro Hc; destruct (Hc (Hl12 a E))].
        intros _. rewrite Hm. destruct (s a); cbn [option_map]; [left|right]; (split; [reflexivity|]); [discriminate|now left].
      * inversion H2; subst. eexists _, s. split; [reflexivity|]. split; [|exact Hs1]. split; [apply same_refl|].
        split; [|reflexivity]. intros _. right. split; [reflexivity|now right].
    + inversion H; subst. eexists _, s. split; [reflexivity|]. split; [|exact Hs]. split; [apply same_refl|].
      split; [|reflexivity]. intro Hc. now apply Hn12 in E.
  - destruct (Nat.eqb (length a) 12) eqn:E.
    + unfold find_body in H. apply exec_bind in H. destruct H as [(l & f1 & H1 & H2)|(H1 & _)].
      2:{ apply load_exec in H1. destruct H1 as (_ & [(_ & H1)|(_ & H1)]); discriminate. }
      apply load_exec in H1. destruct H1 as (Hf & Hl). pose proof (load_keeps _ _ _ Hs Hf) as Hs1.
      destruct Hl as [(_ & Hl)|(Hfl & Hl)]; injection Hl as ->.
      * destruct (holds_load _ _ Hs) as (m & Em & Hm). rewrite Em in H2. rewrite Hm in H2. destruct (s a) as [b|] eqn:Es; cbn [option_map] in H2.
        -- assert (bond_ok b) as Hb by (destruct Hs as (Hok & _); now apply (Hok a)).
           rewrite create_round in H2 by exact Hb. cbn [lift pbind] in H2.
           destruct (Nat.eqb (length (bi_ltk b)) 0) eqn:El.
           ++ apply exec_bind in H2. destruct H2 as [(w & f2 & H2 & H3)|(H2 & _)].
              ** inversion H3; subst. apply store_exec in H2. destruct H2 as [(_ & H2)|(Hfl & _ & H2)].
                 --- exists RErr, (upd_map s a None). split; [reflexivity|]. split.
                     +++ right; right; right; left. split; [now apply Hl12|]. split; [exists b; split; [exact Es|]|].
                         { apply Nat.eqb_eq in El. now destruct (bi_ltk b). }
                         split; [reflexivity|apply upd_drops].
                     +++ subst f'. now apply (store_del f).
                 --- exists RErr, s. subst f'. split; [reflexivity|]. split; [|exact Hs1]. right; right; right; right. repeat split; exact Hfl.
              ** apply store_exec in H2. destruct H2 as [(H2 & _)|(_ & H2 & _)]; discriminate.
           ++ inversion H2; subst. eexists _, s. split; [reflexivity|]. split; [|exact Hs1]. right; right; left.
              split; [now apply Hl12|]. split; [|apply same_refl]. exists b. split; [exact Es|]. split; [|reflexivity].
              intro Hn. rewrite Hn in El. discriminate.
        -- inversion H2; subst. eexists _, s. split; [reflexivity|]. split; [|exact Hs1]. right; left.
           split; [now apply Hl12|]. split; [exact Es|]. split; [reflexivity|apply same_refl].
      * inversion H2; subst. eexists _, s. split; [reflexivity|]. split; [|exact Hs1]. right; right; right; right. repeat split; exact Hfl.
    + inversion H; subst. eexists _, s. split; [reflexivity|]. split; [|exact Hs]. left. split; [now apply Hn12|]. split; [reflexivity|apply same_refl].
  - destruct (Nat.eqb (length a) 12) eqn:E.
    + destruct ob as [b|].
      * destruct Ho as [Ha Hb]. unfold save_body in H. apply exec_bind in H. destruct H as [(l & f1 & H1 & H2)|(H1 & _)].
        2:{ apply load_exec in H1. destruct H1 as (_ & [(_ & H1)|(_ & H1)]); discriminate. }
        apply load_exec in H1. destruct H1 as (Hf & Hl). pose proof (load_keeps _ _ _ Hs Hf) as Hs1.
        destruct Hl as [(_ & Hl)|(Hfl & Hl)]; injection Hl as ->.
        -- destruct (holds_load _ _ Hs) as (m & Em & Hm). rewrite Em in H2.
           apply exec_bind in H2. destruct H2 as [(w & f2 & H2 & H3)|(H2 & _)].
           ++ inversion H3; subst. apply store_exec in H2. destruct H2 as [(Hw & H2)|(Hfl & Hw & H2)]; injection Hw as ->; subst f'.
              ** exists RDone, (upd_map s a (Some b)). split; [reflexivity|]. split; [|now apply (store_set f)].
                 right; left. exists b. split; [now apply Hl12|]. split; [reflexivity|]. split; [reflexivity|apply upd_puts].
              ** exists RErr, s. split; [reflexivity|]. split; [|exact Hs1]. right; right. repeat split; exact Hfl.
           ++ apply store_exec in H2. destruct H2 as [(H2 & _)|(_ & H2 & _)]; discriminate.
        -- inversion H2; subst. eexists _, s. split; [reflexivity|]. split; [|exact Hs1]. right; right. repeat split; exact Hfl.
      * inversion H; subst. eexists _, s. split; [reflexivity|]. split; [|exact Hs]. left. split; [now right|]. split; [reflexivity|apply same_refl].
    + inversion H; subst. eexists _, s. split; [reflexivity|]. split; [|exact Hs]. left. split; [left; now apply Hn12|]. split; [reflexivity|apply same_refl].
  - unfold delete_body in H. apply exec_bind in H. destruct H as [(l & f1 & H1 & H2)|(H1 & _)].
    2:{ apply load_exec in H1. destruct H1 as (_ & [(_ & H1)|(_ & H1)]); discriminate. }
    apply load_exec in H1. destruct H1 as (Hf & Hl). pose proof (load_keeps _ _ _ Hs Hf) as Hs1.
    destruct Hl as [(_ & Hl)|(Hfl & Hl)]; injection Hl as ->.
    + destruct (holds_load _ _ Hs) as (m & Em & Hm). rewrite Em in H2. rewrite Hm in H2. destruct (s a) as [b|] eqn:Es; cbn [option_map] in H2.
      * apply exec_bind in H2. destruct H2 as [(w & f2 & H2 & H3)|(H2 & _)].
        -- inversion H3; subst. apply store_exec in H2. destruct H2 as [(Hw & H2)|(Hfl & Hw & H2)]; injection Hw as ->; subst f'.
           ++ exists RDone, (upd_map s a None). split; [reflexivity|]. split; [|now apply (store_del f)].
              left. split; [now rewrite Es|]. split; [reflexivity|apply upd_drops].
           ++ exists RErr, s. split; [reflexivity|]. split; [|exact Hs1]. right; right. repeat split; exact Hfl.
        -- apply store_exec in H2. destruct H2 as [(H2 & _)|(_ & H2 & _)]; discriminate.
      * inversion H2; subst. eexists _, s. split; [reflexivity|]. split; [|exact Hs1]. right; left. split; [exact Es|]. split; [reflexivity|apply same_refl].
    + inversion H2; subst. eexists _, s. split; [reflexivity|]. split; [|exact Hs1]. right; right. repeat split; exact Hfl.
Qed.

Lemma seq_spec : forall f l f', calls F (bcall J) f l f' -> Forall (fun x => bop_ok (fst x)) l -> forall s, holds J f s ->
  exists s', legal (bspec (any_fault F)) s l s' /\ holds J f' s'.
Proof.
  intros f l f' H. induction H as [f|f o r f1 l f2 H1 H2 IH]; intros Hok s Hs.
  - exists s. split; [constructor|exact Hs].
  - apply Forall_cons_iff in Hok. destruct Hok as [Ho Hok]. destruct (call_spec _ _ _ _ _ Ho Hs H1) as (r' & s1 & Hr & Hsp & Hs1).
    injection Hr as <-. destruct (IH Hok s1 Hs1) as (s2 & Hl & Hs2). exists s2. split; [econstructor; eassumption|exact Hs2].
Qed.

(** ** Many goroutines *)
Definition Rep (f : file) (s : pmap binfo) : Prop := holds J f s /\ forall k b, s k = Some b -> bi_ltk b <> [].

Lemma rsafe_bind : forall {A} (Rp : file -> pmap binfo -> Prop) s Q (g : option A -> prog bres) (p : prog (option A)) ex (Qa : bool -> option A -> Prop),
  (fix rs ex p := match p with PRet a => Qa ex a | PPanic => True | PIo c k => forall f r f', Rp f s -> (ex = true -> f <> None) -> io F c f r f' ->
     Rp f' s /\ (f <> None -> f' <> None) /\ rs (ex || there f')%bool (k r) end) ex p ->
  (forall ex a, Qa ex a -> rsafe F Rp s ex Q (g a)) -> rsafe F Rp s ex Q (pbind p g).
Proof.
  intros A Rp s Q g p. induction p as [a| |c k IH]; intros ex Qa H Hg; cbn [pbind rsafe].
  - now apply Hg.
  - exact I.
  - intros f r f' Hrep Hex Hio. destruct (H f r f' Hrep Hex Hio) as (H1 & H2 & H3). split; [exact H1|split; [exact H2|]].
    exact (IH r _ Qa H3 Hg).
Qed.

Lemma load_rsafe : forall s Q (g : option (list (bytes * bdata)) -> prog bres) ex,
  (forall m, (forall k, mget k m = option_map createBondData (s k)) -> forall ex, rsafe F Rep s ex Q (g (Some m))) ->
  (any_fault F -> forall ex, rsafe F Rep s ex Q (g None)) ->
  rsafe F Rep s ex Q (pbind (loadBonds J) g).
Proof.
  intros s Q g ex Hm Hn. apply (rsafe_bind Rep s Q g _ ex (fun _ a => match a with Some m => forall k, mget k m = option_map createBondData (s k) | None => any_fault F end)).
  2:{ intros ex' [m|] Ha; [now apply Hm|now apply Hn]. }
  unfold loadBonds.
  assert (Hrd : forall f r f', Rep f s -> f <> None \/ any_fault F -> io F Read f r f' -> Rep f' s /\ (f <> None -> f' <> None) /\
     match match r with Fail => PRet None | Ok d => if Nat.ltb 0 (length d) then PRet (jdec J d) else PRet (Some []) end with
     | PRet a => match a with Some m => forall k, mget k m = option_map createBondData (s k) | None => any_fault F end
     | PPanic => True | PIo _ _ => False end).
  { intros f r f' Hrep Hne Hio. inversion Hio; subst.
    - split; [exact Hrep|split; [easy|]]. destruct Hrep as ((Hok & Hh) & _). destruct d as [|z d]; cbn [length Nat.ltb Nat.leb].
      + intro k. rewrite (Hh k). reflexivity.
      + destruct Hh as (m & -> & Hm'). exact Hm'.
    - split; [exact Hrep|split; [easy|]]. destruct Hne; [easy|assumption].
    - split; [exact Hrep|split; [easy|]]. now exists FRead. }
  assert (Hfin : forall ex r, match match r with Fail => PRet None | Ok d => if Nat.ltb 0 (length d) then PRet (jdec J d) else PRet (Some []) end with
     | PRet a => match a with Some m => forall k, mget k m = option_map createBondData (s k) | None => any_fault F end
     | PPanic => True | PIo _ _ => False end ->
    (fix rs (ex : bool) (p : prog (option (list (bytes * bdata)))) : Prop := match p with PRet a => match a with Some m => forall k, mget k m = option_map createBondData (s k) | None => any_fault F end
      | PPanic => True | PIo c k => forall f r f', Rep f s -> (ex = true -> f <> None) -> io F c f r f' ->
     Rep f' s /\ (f <> None -> f' <> None) /\ rs (ex || there f')%bool (k r) end) ex
     (match r with Fail => PRet None | Ok d => if Nat.ltb 0 (length d) then PRet (jdec J d) else PRet (Some []) end)).
  { intros ex' [d|]; [destruct (Nat.ltb 0 (length d))|]; easy. }
  intros f r f' Hrep Hex Hio. inversion Hio; subst.
  - split; [exact Hrep|split; [easy|]]. intros f1 r1 f1' Hrep1 Hex1 Hio1. destruct (Hrd f1 r1 f1' Hrep1) as (A1 & A2 & A3); [|exact Hio1|].
    { left. apply Hex1. cbn [there]. apply orb_true_r. }
    split; [exact A1|split; [exact A2|now apply Hfin]].
  - split; [exact Hrep|split; [easy|]]. intros f1 r1 f1' Hrep1 Hex1 Hio1.
    assert (Hn0 : same none s) by (destruct Hrep as ((_ & Hh) & _); exact Hh).
    inversion Hio1; subst.
    + split; [|split; [easy|]].
      { destruct Hrep as ((Hok & _) & Hk). split; [split; [exact Hok|exact Hn0]|exact Hk]. }
      intros f2 r2 f2' Hrep2 Hex2 Hio2. destruct (Hrd f2 r2 f2' Hrep2) as (A1 & A2 & A3); [|exact Hio2|].
      { left. apply Hex2. cbn [there]. apply orb_true_r. }
      split; [exact A1|split; [exact A2|now apply Hfin]].
    + split; [exact Hrep1|split; [easy|]]. now exists FCreate.
  - split; [exact Hrep|split; [easy|]]. intros f1 r1 f1' Hrep1 Hex1 Hio1. destruct (Hrd f1 r1 f1' Hrep1) as (A1 & A2 & A3); [|exact Hio1|].
    { right. now exists FStat. }
    split; [exact A1|split; [exact A2|now apply Hfin]].
Qed.

Lemma conc_spec : forall f s h g, Rep f s -> sruns F block (bbody J) bearly (sys0 f) h g ->
  (forall i o, In (EvCall i o) h -> bop_ok o /\ bop_key o) ->
  exists s', legal (bspec (any_fault F)) s (returned h) s' /\
   ((forall i o m p, sy_thr g i <> Some (TRun o m p)) -> Rep (sy_file g) s').
Proof.
  intros f s h g Hrep Hrun Hok.
  destruct (Inv_runs F block (bbody J) bearly Rep (bspec (any_fault F)) (fun o => bop_ok o /\ bop_key o)) with (6 := Hok) (g := @sys0 bop bres f) (g' := g) (s := s) as (s' & Hl & Hi).
  - intros s0 o [Ho _] Hlock. destruct o as [a|a|a ob|a]; cbn [block] in Hlock; cbn [bearly bspec].
    + destruct (Nat.eqb (length a) 12) eqn:E; [discriminate|]. apply Nat.eqb_neq in E. split; [apply same_refl|]. split; [|reflexivity]. intro Hc. now apply E in Hc.
    + destruct (Nat.eqb (length a) 12) eqn:E; [discriminate|]. apply Nat.eqb_neq in E. left. split; [exact E|]. split; [reflexivity|apply same_refl].
    + left. split; [|split; [reflexivity|apply same_refl]]. destruct (Nat.eqb (length a) 12) eqn:E; [|left; now apply Nat.eqb_neq in E].
      right. now destruct ob.
    + discriminate.
  - intros s0 f0 o r f' [Ho Hkey] Hlock [Hh Hk] Hx.
    destruct (call_spec s0 f0 o (Ret r) f' Ho Hh) as (r' & s1 & Hr & Hsp & Hh1).
    { unfold bcall. rewrite Hlock. exact Hx. }
    injection Hr as <-. exists s1. split; [exact Hsp|]. split; [exact Hh1|].
    assert (Hsame : same s0 s1 -> forall k b, s1 k = Some b -> bi_ltk b <> []) by (intros Hs k b Hkb; rewrite (Hs k) in Hkb; now apply (Hk k)).
    assert (Hdrop : forall a, drops a s0 s1 -> forall k b, s1 k = Some b -> bi_ltk b <> []).
    { intros a [Hd1 Hd2] k b Hkb. destruct (bytes_eq_dec k a) as [->|n]; [congruence|]. rewrite Hd2 in Hkb by exact n. now apply (Hk k). }
    destruct o as [a|a|a ob|a]; cbn [bspec] in Hsp.
    + now apply Hsame.
    + destruct Hsp as [(_ & _ & H)|[(_ & _ & _ & H)|[(_ & _ & H)|[(_ & _ & _ & H)|(_ & _ & H)]]]]; eauto.
    + destruct Hsp as [(_ & _ & H)|[(b & _ & -> & _ & (H1 & H2))|(_ & _ & H)]]; eauto.
      intros k b' Hkb. destruct (bytes_eq_dec k a) as [->|n]; [|rewrite H2 in Hkb by exact n; now apply (Hk k)].
      cbn in Hkey. congruence.
    + destruct Hsp as [(_ & _ & H)|[(_ & _ & H)|(_ & _ & H)]]; eauto.
  - intros s0 f0 o [(Hok0 & _) Hk0] [Ho _] Hlock. destruct o as [a|a|a ob|a]; cbn [block] in Hlock.
    + destruct (Nat.eqb (length a) 12) eqn:E; [|discriminate]. apply Nat.eqb_eq in E. cbn [bbody]. unfold exists_body. apply load_rsafe.
      * intros m Hm ex. cbn [rsafe bspec]. split; [apply same_refl|]. split; [|intro Hc; now apply Hc in E].
        intros _. rewrite Hm. destruct (s0 a); cbn [option_map]; [left|right]; (split; [reflexivity|]); [discriminate|now left].
      * intros Hfl ex. cbn [rsafe bspec]. split; [apply same_refl|]. split; [|reflexivity]. intros _. right. split; [reflexivity|now right].
    + destruct (Nat.eqb (length a) 12) eqn:E; [|discriminate]. apply Nat.eqb_eq in E. cbn [bbody]. unfold find_body.
      apply load_rsafe.
      * intros m Hm ex. rewrite Hm. destruct (s0 a) as [b|] eqn:Es; cbn [option_map].
        -- destruct (Hok0 a b Es) as [_ Hb]. rewrite create_round by exact Hb. specialize (Hk0 a b Es).
           destruct (Nat.eqb (length (bi_ltk b)) 0) eqn:El; [apply Nat.eqb_eq in El; destruct (bi_ltk b); [easy|discriminate]|].
           cbn [lift pbind rsafe bspec]. right; right; left. split; [exact E|]. split; [|apply same_refl]. exists b. repeat split; assumption.
        -- cbn [rsafe bspec]. right; left. split; [exact E|]. split; [exact Es|]. split; [reflexivity|apply same_refl].
      * intros Hfl ex. cbn [rsafe bspec]. right; right; right; right. split; [exact Hfl|]. split; [reflexivity|apply same_refl].
    + destruct (Nat.eqb (length a) 12); [destruct ob|]; discriminate.
    + discriminate.
  - exact Hrun.
  - now apply Inv_start.
  - exists s'. split; [exact Hl|]. intro Hq. now apply (Inv_quiet F block (bbody J) Rep (bspec (any_fault F)) (fun o => bop_ok o /\ bop_key o) s' g).
Qed.
End B.
