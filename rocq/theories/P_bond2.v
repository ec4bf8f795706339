(** The bond store: crashes, and the race of two calls of Find. *)
Require Import Verif.S_store Verif.P_store Verif.P_bond.

Section C.
Context (J : jcodec) (HJ : json_ok J).

Lemma load_crash : forall F f f', crash F (loadBonds J) f f' -> f' = f \/ f' = fexists f.
Proof.
  intros F f f' H. unfold loadBonds in H. inversion H as [|c0 k0 f0 r f1 f2 Hio Hk]; subst; [now left|].
  assert (Hrd : forall h g, crash F (PIo Read (fun x => match x with Fail => PRet None | Ok d => if Nat.ltb 0 (length d) then PRet (jdec J d) else PRet (Some []) end)) h g -> g = h).
  { intros h g Hg. inversion Hg as [|c1 k1 f3 r1 f4 f5 Hio1 Hk1]; subst; [reflexivity|].
    inversion Hio1; subst; try (destruct (Nat.ltb 0 (length d)) in Hk1); now inversion Hk1. }
  inversion Hio; subst.
  - apply Hrd in Hk. now left.
  - inversion Hk as [|c1 k1 f3 r1 f4 f5 Hio1 Hk1]; subst; [now left|]. inversion Hio1; subst.
    + apply Hrd in Hk1. now right.
    + inversion Hk1; subst. now left.
  - apply Hrd in Hk. now left.
Qed.

Lemma corrupt_unusable : forall d, d <> [] -> jdec J d = None -> unusable J (Some d).
Proof.
  intros d Hd Hj F o x f' H.
  assert (Hl : forall (g : option (list (bytes * bdata)) -> prog bres) y h, exec F (pbind (loadBonds J) g) (Some d) y h -> exec F (g None) (Some d) y h).
  { intros g y h Hg. apply exec_bind in Hg. destruct Hg as [(l & f1 & H1 & H2)|(H1 & _)]; apply load_exec in H1; destruct H1 as (Hf & Hl).
    - assert (f1 = Some d) as -> by (cbn [fexists] in Hf; tauto).
      destruct Hl as [(_ & Hl)|(_ & Hl)]; injection Hl as ->; [|exact H2]. destruct d as [|z d]; [easy|]. now rewrite Hj in H2.
    - destruct Hl as [(_ & Hl)|(_ & Hl)]; discriminate. }
  assert (Hret : forall (r : bres) y h, exec F (PRet r) (Some d) y h -> y = Ret r /\ h = Some d) by (intros r y h Hq; now inversion Hq).
  unfold bcall in H. destruct o as [a|a|a ob|a]; cbn [block bbody bearly failed] in *.
  - destruct (Nat.eqb (length a) 12); [apply Hl in H|]; now apply Hret in H.
  - destruct (Nat.eqb (length a) 12); [apply Hl in H|]; now apply Hret in H.
  - destruct (Nat.eqb (length a) 12); [destruct ob; [apply Hl in H|]|]; now apply Hret in H.
  - apply Hl in H; now apply Hret in H.
Qed.

Lemma holds_empty : holds J (Some []) none.
Proof. split; [discriminate|]. intro k. reflexivity. Qed.

(** A crash while the file is being rewritten. *)
Lemma store_crash : forall F m s' f g, (forall k, mget k m = option_map createBondData (s' k)) -> (holds J (Some (jenc J m)) s') -> crash F (storeBonds J m) f g ->
  g = f \/ holds J g s' \/ holds J g none \/ unusable J g.
Proof.
  intros F m s' f g Hm Hs Hc. destruct (WriteFile_crash _ _ _ _ Hc) as [->|(p & q & E & ->)]; [now left|].
  destruct q as [|z q].
  - rewrite app_nil_r in E. subst p. right; now left.
  - destruct p as [|y p]; [right; right; left; apply holds_empty|]. right; right; right. apply corrupt_unusable; [discriminate|].
    destruct HJ as (_ & _ & H3). apply (H3 m _ _ (map_ascii m s' (proj1 Hs) Hm) E); discriminate.
Qed.

Lemma crash_cases : forall F s f o g, bop_ok o -> holds J f s -> crash F (bcall J o) f g ->
  holds J g s \/ (exists r s', bspec False s o r s' /\ holds J g s') \/ holds J g none \/ unusable J g.
Proof.
  intros F s f o g Ho Hs H.
  assert (Hret : forall (r : bres) h, crash F (PRet r) h g -> g = h) by (intros r h Hq; now inversion Hq).
  assert (Hl : forall (p : option (list (bytes * bdata)) -> prog bres), crash F (pbind (loadBonds J) p) f g ->
     holds J g s \/ exists l f1, holds J f1 s /\ (l = None \/ exists m, l = Some m /\ forall k, mget k m = option_map createBondData (s k)) /\ crash F (p l) f1 g).
  { intros p Hp. apply crash_bind in Hp. destruct Hp as [Hp|(l & f1 & H1 & H2)].
    - left. apply load_crash in Hp. now apply (load_keeps J f s).
    - right. apply load_exec in H1. destruct H1 as (Hf & Hl). exists l, f1. split; [now apply (load_keeps J f s)|]. split; [|exact H2].
      destruct Hl as [(_ & Hl)|(_ & Hl)]; injection Hl as ->; [|now left]. right.
      destruct (holds_load J f s Hs) as (m & Em & Hm). rewrite Em. now exists m. }
  assert (Hl12 : forall a, Nat.eqb (length a) 12 = true -> addr12 a) by (intros a E; now apply Nat.eqb_eq in E).
  destruct o as [a|a|a ob|a]; unfold bcall in H; cbn [block bearly bbody] in H.
  - left. destruct (Nat.eqb (length a) 12); [|apply Hret in H; now subst g].
    apply Hl in H. destruct H as [H|(l & f1 & Hs1 & [->|(m & -> & Hm)] & H)]; [exact H| |]; apply Hret in H; now subst g.
  - destruct (Nat.eqb (length a) 12) eqn:E; [|left; apply Hret in H; now subst g].
    apply Hl in H. destruct H as [H|(l & f1 & Hs1 & [->|(m & -> & Hm)] & H)]; [now left|left; apply Hret in H; now subst g|].
    rewrite Hm in H. destruct (s a) as [b|] eqn:Es; cbn [option_map] in H; [|left; apply Hret in H; now subst g].
    assert (bond_ok b) as Hb by (destruct Hs as (Hok & _); now apply (Hok a)).
    rewrite create_round in H by exact Hb. cbn [lift pbind] in H.
    destruct (Nat.eqb (length (bi_ltk b)) 0) eqn:El; [|left; apply Hret in H; now subst g].
    pose proof (store_del J HJ f1 s m a Hs1 Hm) as Hd.
    assert (Hg : forall k, mget k (mdel a m) = option_map createBondData (upd_map s a None k)) by (intro k; rewrite mget_mdel; unfold upd_map; destruct (beq_bytes k a); [reflexivity|apply Hm]).
    assert (Hc : crash F (storeBonds J (mdel a m)) f1 g).
    { apply crash_bind in H. destruct H as [H|(w & f2 & H1 & H2)]; [exact H|]. apply Hret in H2. subst g. now apply exec_crash in H1. }
    destruct (store_crash F _ _ _ _ Hg Hd Hc) as [->|[H1|[H1|H1]]]; [now left| |right; right; now left|right; right; now right].
    right; left. exists RErr, (upd_map s a None). split; [|exact H1]. right; right; right; left. split; [now apply Hl12|].
    split; [|split; [reflexivity|apply upd_drops]]. exists b. split; [exact Es|]. apply Nat.eqb_eq in El. now destruct (bi_ltk b).
  - destruct (Nat.eqb (length a) 12) eqn:E; [|left; apply Hret in H; now subst g].
    destruct ob as [b|]; [|left; apply Hret in H; now subst g]. destruct Ho as [Ha Hb].
    apply Hl in H. destruct H as [H|(l & f1 & Hs1 & [->|(m & -> & Hm)] & H)]; [now left|left; apply Hret in H; now subst g|].
    pose proof (store_set J HJ f1 s m a b Hs1 Hm Ha Hb) as Hd.
    assert (Hg : forall k, mget k (mset a (createBondData b) m) = option_map createBondData (upd_map s a (Some b) k)) by (intro k; rewrite mget_mset; unfold upd_map; destruct (beq_bytes k a); [reflexivity|apply Hm]).
    assert (Hc : crash F (storeBonds J (mset a (createBondData b) m)) f1 g).
    { apply crash_bind in H. destruct H as [H|(w & f2 & H1 & H2)]; [exact H|]. apply Hret in H2. subst g. now apply exec_crash in H1. }
    destruct (store_crash F _ _ _ _ Hg Hd Hc) as [->|[H1|[H1|H1]]]; [now left| |right; right; now left|right; right; now right].
    right; left. exists RDone, (upd_map s a (Some b)). split; [|exact H1]. right; left. exists b.
    split; [now apply Hl12|]. split; [reflexivity|]. split; [reflexivity|apply upd_puts].
  - apply Hl in H. destruct H as [H|(l & f1 & Hs1 & [->|(m & -> & Hm)] & H)]; [now left|left; apply Hret in H; now subst g|].
    rewrite Hm in H. destruct (s a) as [b|] eqn:Es; cbn [option_map] in H; [|left; apply Hret in H; now subst g].
    pose proof (store_del J HJ f1 s m a Hs1 Hm) as Hd.
    assert (Hg : forall k, mget k (mdel a m) = option_map createBondData (upd_map s a None k)) by (intro k; rewrite mget_mdel; unfold upd_map; destruct (beq_bytes k a); [reflexivity|apply Hm]).
    assert (Hc : crash F (storeBonds J (mdel a m)) f1 g).
    { apply crash_bind in H. destruct H as [H|(w & f2 & H1 & H2)]; [exact H|]. apply Hret in H2. subst g. now apply exec_crash in H1. }
    destruct (store_crash F _ _ _ _ Hg Hd Hc) as [->|[H1|[H1|H1]]]; [now left| |right; right; now left|right; right; now right].
    right; left. exists RDone, (upd_map s a None). split; [|exact H1]. left. split; [now rewrite Es|]. split; [reflexivity|apply upd_drops].
Qed.

(** A save passes through the empty file, and through every prefix of what it writes. *)
Lemma save_crash_prefix : forall F s f a b, addr12 a -> holds J f s -> exists m, (forall k, mget k m = option_map createBondData (s k)) /\
  forall p q, jenc J (mset a (createBondData b) m) = p ++ q -> crash F (bcall J (BSave a (Some b))) f (Some p).
Proof.
  intros F s f a b Ha Hs. destruct (holds_load J f s Hs) as (m & Em & Hm). exists m. split; [exact Hm|]. intros p q Epq.
  unfold bcall. cbn [block]. rewrite (proj2 (Nat.eqb_eq _ _) Ha). cbn [bbody]. unfold save_body.
  eapply crash_bind_intro; [apply load_total|]. rewrite Em. unfold storeBonds. rewrite Epq.
  assert (Hx : forall (x : prog bool) (k : bool -> prog bres) h g, crash F x h g -> crash F (pbind x k) h g).
  { intros x k h g Hc. induction Hc; cbn [pbind]; [constructor|econstructor; eassumption]. }
  apply Hx. apply WriteFile_crash_intro.
Qed.
End C.

(** ** Running one goroutine for a while *)
Inductive reaches {A} (F : fault -> Prop) : prog A -> file -> prog A -> file -> Prop :=
| rc_here : forall p f, reaches F p f p f
| rc_io : forall c k f r f1 p f2, io F c f r f1 -> reaches F (k r) f1 p f2 -> reaches F (PIo c k) f p f2.

Lemma reaches_bind : forall {A B} F (p : prog A) (g : A -> prog B) f a f1 q f2,
  exec F p f (Ret a) f1 -> reaches F (g a) f1 q f2 -> reaches F (pbind p g) f q f2.
Proof.
  intros A B F p g. induction p as [b| |c k IH]; intros f a f1 q f2 H1 H2; cbn [pbind].
  - inversion H1; subst. exact H2.
  - inversion H1.
  - inversion H1 as [| |c0 k0 f0 r f3 x0 f4 Hio Hk]; subst. econstructor; [exact Hio|]. eapply IH; eassumption.
Qed.

Lemma sruns_app : forall {O R} F lo bo (ea : O -> R) s h s1 h' s2,
  sruns F lo bo ea s h s1 -> sruns F lo bo ea s1 h' s2 -> sruns F lo bo ea s (h ++ h') s2.
Proof.
  intros O R F lo bo ea s h s1 h' s2 H H'. induction H' as [t|t h' t1 e t2 H1 IH H2]; [now rewrite app_nil_r|].
  rewrite app_assoc. econstructor; [now apply IH|exact H2].
Qed.

Lemma solo : forall {O R} F lo bo (ea : O -> R) g i o m p q f',
  sy_thr g i = Some (TRun o m p) -> reaches F p (sy_file g) q f' ->
  exists g', sruns F lo bo ea g [] g' /\ sy_file g' = f' /\ sy_thr g' i = Some (TRun o m q) /\
    forall j, j <> i -> sy_thr g' j = sy_thr g j.
Proof.
  intros O R F lo bo ea g i o m p q f' Ht Hr. remember (sy_file g) as f eqn:Ef. revert g Ef Ht.
  induction Hr as [p f|c k f r f1 p f2 Hio Hr IH]; intros g Ef Ht.
  - exists g. split; [constructor|]. split; [now symmetry|]. split; [exact Ht|easy].
  - destruct (IH (mkSys f1 (setT (sy_thr g) i (Some (TRun o m (k r)))))) as (g' & R1 & R2 & R3 & R4); [reflexivity| |].
    + cbn [sy_thr]. apply setT_same.
    + exists g'. split; [|split; [exact R2|split; [exact R3|]]].
      * change (@nil (ev O R)) with (([] ++ []) ++ @nil (ev O R)). eapply sruns_app; [|exact R1].
        eapply sr_snoc; [apply sr_nil|]. eapply ss_io; [exact Ht|]. now rewrite <- Ef.
      * intros j Hj. rewrite R4 by exact Hj. cbn [sy_thr]. now apply setT_other.
Qed.

(** Two calls of Find at the same time: one finds a bond without a key and rewrites the file; the other, for a good bond,
    reads the file in between. *)
Lemma find_race : forall J, json_ok J -> forall a b va vb, addr12 a -> addr12 b -> a <> b -> ascii a -> ascii b ->
  bond_ok va -> bond_ok vb -> bi_ltk va = [] -> bi_ltk vb <> [] ->
  exists f g h, holds J f (fun k => if beq_bytes k a then Some va else if beq_bytes k b then Some vb else None) /\
    sruns no_faults block (bbody J) bearly (sys0 f) h g /\ returned h = [(BFind b, RErr); (BFind a, RErr)] /\
    holds J (sy_file g) (fun k => if beq_bytes k b then Some vb else None).
Proof.
  intros J HJ a b va vb Ha Hb Hab Aa Ab Va Vb Ea Eb.
  set (s0 := fun k => if beq_bytes k a then Some va else if beq_bytes k b then Some vb else None).
  set (m0 := mset a (createBondData va) (mset b (createBondData vb) [])).
  assert (Hm0 : forall k, mget k m0 = option_map createBondData (s0 k)).
  { intro k. unfold m0. rewrite !mget_mset. unfold s0. destruct (beq_bytes k a); [reflexivity|]. now destruct (beq_bytes k b). }
  assert (Hh : holds J (Some (jenc J m0)) s0).
  { apply holds_store; [exact HJ| |exact Hm0]. intros k x. unfold s0. destruct (beq_bytes k a) eqn:E1.
    - apply beq_bytes_eq in E1. subst k. intro Hx. injection Hx as <-. now split.
    - destruct (beq_bytes k b) eqn:E2; [|discriminate]. apply beq_bytes_eq in E2. subst k. intro Hx. injection Hx as <-. now split. }
  set (f := Some (jenc J m0)).
  (* where the first call stands after reading the file *)
  destruct (holds_load J f s0 Hh) as (m & Em & Hm).
  assert (HX : forall (k1 : prog bres), (forall k, mget k m = option_map createBondData (s0 k)) ->
    (match mget a m with
     | None => PRet RErr
     | Some bd => do bi <- lift (createBondInfo bd); match bi with None => do _ <- storeBonds J (mdel a m); PRet RErr | Some x => PRet (RBond x) end end)
     = (do _ <- storeBonds J (mdel a m); PRet RErr)).
  { intros _ _. rewrite Hm. unfold s0. rewrite beq_bytes_refl. cbn [option_map]. rewrite create_round by exact Va. rewrite Ea. reflexivity. }
  specialize (HX (PRet RErr) Hm).
  set (bd := jenc J (mdel a m)).
  (* after the write *)
  assert (Hh2 : holds J (Some bd) (fun k => if beq_bytes k b then Some vb else None)).
  { apply holds_store; [exact HJ| |].
    - intros k x. destruct (beq_bytes k b) eqn:E2; [|discriminate]. apply beq_bytes_eq in E2. subst k. intro Hx. injection Hx as <-. now split.
    - intro k. rewrite mget_mdel, Hm. unfold s0. destruct (beq_bytes k a) eqn:E1; [|reflexivity].
      apply beq_bytes_eq in E1. subst k. now rewrite (proj2 (beq_bytes_neq a b) Hab). }
  destruct (jenc J m0) as [|z0 d0] eqn:E0; [now apply (proj1 (proj2 HJ)) in E0|].
  (* the schedule *)
  set (RUN := sruns no_faults block (bbody J) bearly (sys0 (Some (z0 :: d0)))).
  assert (La : block (BFind a) = Some MRead) by (cbn [block]; now rewrite (proj2 (Nat.eqb_eq _ _) Ha)).
  assert (Lb : block (BFind b) = Some MRead) by (cbn [block]; now rewrite (proj2 (Nat.eqb_eq _ _) Hb)).
  assert (R1 : exists h g, RUN h g /\ returned h = [] /\ sy_file g = Some (z0 :: d0) /\
     sy_thr g 0%nat = Some (TRun (BFind a) MRead (find_body J a)) /\ sy_thr g 1%nat = Some (TRun (BFind b) MRead (find_body J b))).
  { eexists _, _. split; [|split; [|split; [|split]]].
    - eapply sr_snoc; [eapply sr_snoc; [eapply sr_snoc; [eapply sr_snoc; [apply sr_nil|apply (ss_call _ _ _ _ _ 0%nat (BFind a)); reflexivity]|
        apply (ss_call _ _ _ _ _ 1%nat (BFind b)); reflexivity]|apply (ss_lock _ _ _ _ _ 0%nat (BFind a) MRead); [reflexivity|exact La|]]|
        apply (ss_lock _ _ _ _ _ 1%nat (BFind b) MRead); [reflexivity|exact Lb|]].
      + intros [|[|j]] o m' p Hj; discriminate.
      + intros [|[|j]] o m' p Hj; [|discriminate|discriminate]. cbn in Hj. injection Hj as <- <- <-. now split.
    - reflexivity.
    - reflexivity.
    - reflexivity.
    - reflexivity. }
  destruct R1 as (h1 & g1 & R1 & Hh1 & Hf1 & T0 & T1).
  destruct (solo no_faults block (bbody J) bearly g1 0%nat (BFind a) MRead (pbind (loadBonds J) (fun l => match l with
    | None => PRet RErr | Some m => match mget a m with None => PRet RErr | Some bd =>
      do bi <- lift (createBondInfo bd); match bi with None => do _ <- storeBonds J (mdel a m); PRet RErr | Some b => PRet (RBond b) end end end))
    (do _ <- storeBonds J (mdel a m); PRet RErr) (Some (z0 :: d0)) T0) as (g2 & R2 & Hf2 & T0' & T1').
  { rewrite Hf1. apply reaches_bind with (a := Some m) (f1 := Some (z0 :: d0)).
    - rewrite <- Em. exact (load_total J no_faults (Some (z0 :: d0))).
    - rewrite HX. apply rc_here. }
  destruct (solo no_faults block (bbody J) bearly g2 0%nat (BFind a) MRead _ (do _ <- write_from 0 bd; PRet RErr) (Some []) T0') as (g3 & R3 & Hf3 & T0'' & T1'').
  { unfold storeBonds, WriteFile. cbn [pbind]. eapply rc_io; [apply io_trunc|]. apply rc_here. }
  destruct (solo no_faults block (bbody J) bearly g3 1%nat (BFind b) MRead (find_body J b) (PRet RErr) (Some [])) as (g4 & R4 & Hf4 & T4 & T4').
  { rewrite T1'', T1' by discriminate. exact T1. }
  { rewrite Hf3. unfold find_body. apply reaches_bind with (a := Some []) (f1 := Some []); [exact (load_total J no_faults (Some []))|]. cbn [mget]. apply rc_here. }
  set (g5 := mkSys (sy_file g4) (setT (sy_thr g4) 1%nat None)).
  assert (R5 : sstep no_faults block (bbody J) bearly g4 [EvRet 1%nat (BFind b) RErr] g5) by (eapply ss_ret; exact T4).
  destruct (solo no_faults block (bbody J) bearly g5 0%nat (BFind a) MRead (do _ <- write_from 0 bd; PRet RErr) (PRet RErr) (Some bd)) as (g6 & R6 & Hf6 & T6 & _).
  { cbn [g5 sy_thr]. rewrite setT_other by discriminate. rewrite T4' by discriminate. exact T0''. }
  { cbn [g5 sy_file]. rewrite Hf4. apply reaches_bind with (a := true) (f1 := Some bd); [exact (write_from_total no_faults bd [])|]. apply rc_here. }
  exists f, (mkSys (sy_file g6) (setT (sy_thr g6) 0%nat None)), (((((h1 ++ []) ++ []) ++ []) ++ [EvRet 1%nat (BFind b) RErr]) ++ [] ++ [EvRet 0%nat (BFind a) RErr]).
  split; [exact Hh|]. split; [|split].
  - rewrite app_assoc. apply sr_snoc with (s1 := g6); [|eapply ss_ret; exact T6].
    apply (sruns_app _ _ _ _ _ _ g5); [|exact R6]. apply sr_snoc with (s1 := g4); [|exact R5].
    apply (sruns_app _ _ _ _ _ _ g3); [|exact R4]. apply (sruns_app _ _ _ _ _ _ g2); [|exact R3].
    apply (sruns_app _ _ _ _ _ _ g1); [|exact R2]. exact R1.
  - rewrite !app_nil_r, !returned_app, Hh1. reflexivity.
  - cbn [sy_file]. rewrite Hf6. exact Hh2.
Qed.
