(** The bond store: two calls of Find that rewrite the file at the same time. *)
Require Import Verif.S_store Verif.P_store Verif.P_bond Verif.P_bond2.

Lemma put_over : forall d b x t, put (length d) b (d ++ x :: t) = d ++ b :: t.
Proof.
  intros d b x t. unfold put. rewrite firstn_app, firstn_all, Nat.sub_diag, app_length. cbn [firstn length]. rewrite app_nil_r.
  replace (length d - (length d + S (length t)))%nat with 0%nat by lia. cbn [repeat app]. f_equal. f_equal.
  replace (S (length d)) with (length (d ++ [x])) by (rewrite app_length; cbn; lia). change (x :: t) with ([x] ++ t). rewrite app_assoc, skipn_app, skipn_all, Nat.sub_diag. reflexivity.
Qed.
Lemma write_over : forall F data d t, exec F (write_from (length d) data) (Some (d ++ t)) (Ret true) (Some (d ++ data ++ skipn (length data) t)).
Proof.
  intros F. induction data as [|b data IH]; intros d t; cbn [write_from].
  - cbn [app length skipn]. constructor.
  - econstructor; [constructor|]. cbv beta iota. replace (S (length d)) with (length (d ++ [b])) by (rewrite app_length; cbn; lia). destruct t as [|x t].
    + rewrite app_nil_r, put_end. assert (H := IH (d ++ [b]) []). rewrite app_nil_r in H. rewrite skipn_nil in *. rewrite !app_nil_r in *. rewrite <- app_assoc in H. exact H.
    + rewrite put_over. assert (H := IH (d ++ [b]) t). rewrite <- !app_assoc in H. exact H.
Qed.

Lemma finds_overlap : forall J d m a c va vc, jdec J d = Some m -> d <> [] -> addr12 a -> addr12 c ->
  mget a m = Some (createBondData va) -> mget c m = Some (createBondData vc) -> bond_ok va -> bond_ok vc -> bi_ltk va = [] -> bi_ltk vc = [] ->
  exists h g, sruns no_faults block (bbody J) bearly (sys0 (Some d)) h g /\ returned h = [(BFind c, RErr); (BFind a, RErr)] /\ (forall i, sy_thr g i = None) /\
    sy_file g = Some (jenc J (mdel a m) ++ skipn (length (jenc J (mdel a m))) (jenc J (mdel c m))).
Proof.
  intros J d m a c va vc Em Nd Ha Hc Ma Mc Va Vc Ka Kc. destruct d as [|z0 d0] eqn:Ed; [contradiction|]. rewrite <- Ed in *. clear Nd.
  assert (LD : exec no_faults (loadBonds J) (Some d) (Ret (Some m)) (Some d)).
  { pose proof (load_total J no_faults (Some d)) as H. rewrite Ed in *. cbn in H. rewrite Em in H. exact H. }
  assert (HX : forall x vx, mget x m = Some (createBondData vx) -> bond_ok vx -> bi_ltk vx = [] -> reaches no_faults (find_body J x) (Some d) (do _ <- storeBonds J (mdel x m); PRet RErr) (Some d)).
  { intros x vx Mx Vx Kx. unfold find_body. apply reaches_bind with (a := Some m) (f1 := Some d); [exact LD|]. cbv beta iota. rewrite Mx. rewrite create_round by exact Vx. rewrite Kx. apply rc_here. }
  set (e1 := jenc J (mdel a m)). set (e2 := jenc J (mdel c m)).
  set (RUN := sruns no_faults block (bbody J) bearly (sys0 (Some d))).
  assert (La : block (BFind a) = Some MRead) by (cbn [block]; now rewrite (proj2 (Nat.eqb_eq _ _) Ha)).
  assert (Lc : block (BFind c) = Some MRead) by (cbn [block]; now rewrite (proj2 (Nat.eqb_eq _ _) Hc)).
  assert (R1 : exists h g, RUN h g /\ returned h = [] /\ sy_file g = Some d /\ (forall i, (2 <= i)%nat -> sy_thr g i = None) /\
     sy_thr g 0%nat = Some (TRun (BFind a) MRead (find_body J a)) /\ sy_thr g 1%nat = Some (TRun (BFind c) MRead (find_body J c))).
  { eexists _, _. split; [|split; [|split; [|split; [|split]]]].
    - eapply sr_snoc; [eapply sr_snoc; [eapply sr_snoc; [eapply sr_snoc; [apply sr_nil|apply (ss_call _ _ _ _ _ 0%nat (BFind a)); reflexivity]|
        apply (ss_call _ _ _ _ _ 1%nat (BFind c)); reflexivity]|apply (ss_lock _ _ _ _ _ 0%nat (BFind a) MRead); [reflexivity|exact La|]]|
        apply (ss_lock _ _ _ _ _ 1%nat (BFind c) MRead); [reflexivity|exact Lc|]].
      + intros [|[|j]] o m' p Hj; discriminate.
      + intros [|[|j]] o m' p Hj; [|discriminate|discriminate]. cbn in Hj. injection Hj as <- <- <-. now split.
    - reflexivity.
    - reflexivity.
    - intros [|[|i]] Hi; [lia|lia|reflexivity].
    - reflexivity.
    - reflexivity. }
  destruct R1 as (h1 & g1 & R1 & Hh1 & Hf1 & N1 & T0 & T1).
  destruct (solo no_faults block (bbody J) bearly g1 0%nat (BFind a) MRead (find_body J a) (do _ <- storeBonds J (mdel a m); PRet RErr) (Some d) T0) as (g2 & R2 & Hf2 & T2 & O2).
  { rewrite Hf1. now apply (HX a va). }
  destruct (solo no_faults block (bbody J) bearly g2 1%nat (BFind c) MRead (find_body J c) (do _ <- storeBonds J (mdel c m); PRet RErr) (Some d)) as (g3 & R3 & Hf3 & T3 & O3).
  { rewrite O2 by discriminate. exact T1. }
  { rewrite Hf2. now apply (HX c vc). }
  destruct (solo no_faults block (bbody J) bearly g3 0%nat (BFind a) MRead (do _ <- storeBonds J (mdel a m); PRet RErr) (do _ <- write_from 0 e1; PRet RErr) (Some [])) as (g4 & R4 & Hf4 & T4 & O4).
  { rewrite O3 by discriminate. exact T2. }
  { unfold storeBonds, WriteFile. cbn [pbind]. eapply rc_io; [apply io_trunc|]. apply rc_here. }
  destruct (solo no_faults block (bbody J) bearly g4 1%nat (BFind c) MRead (do _ <- storeBonds J (mdel c m); PRet RErr) (PRet RErr) (Some e2)) as (g5 & R5 & Hf5 & T5 & O5).
  { rewrite O4 by discriminate. exact T3. }
  { unfold storeBonds. apply reaches_bind with (a := true) (f1 := Some e2); [apply WriteFile_total|]. apply rc_here. }
  set (g6 := mkSys (sy_file g5) (setT (sy_thr g5) 1%nat None)).
  assert (R6 : sstep no_faults block (bbody J) bearly g5 [EvRet 1%nat (BFind c) RErr] g6) by (eapply ss_ret; exact T5).
  destruct (solo no_faults block (bbody J) bearly g6 0%nat (BFind a) MRead (do _ <- write_from 0 e1; PRet RErr) (PRet RErr) (Some (e1 ++ skipn (length e1) e2))) as (g7 & R7 & Hf7 & T7 & O7).
  { cbn [g6 sy_thr]. rewrite setT_other by discriminate. rewrite O5 by discriminate. exact T4. }
  { cbn [g6 sy_file]. rewrite Hf5. apply reaches_bind with (a := true) (f1 := Some (e1 ++ skipn (length e1) e2)); [exact (write_over no_faults e1 [] e2)|]. apply rc_here. }
  exists (((((h1 ++ []) ++ []) ++ []) ++ []) ++ [EvRet 1%nat (BFind c) RErr] ++ [] ++ [EvRet 0%nat (BFind a) RErr]), (mkSys (sy_file g7) (setT (sy_thr g7) 0%nat None)).
  split; [|split; [|split]].
  - rewrite !app_assoc. apply sr_snoc with (s1 := g7); [|eapply ss_ret; exact T7].
    apply (sruns_app _ _ _ _ _ _ g6); [|exact R7]. apply sr_snoc with (s1 := g5); [|exact R6].
    apply (sruns_app _ _ _ _ _ _ g4); [|exact R5]. apply (sruns_app _ _ _ _ _ _ g3); [|exact R4]. apply (sruns_app _ _ _ _ _ _ g2); [|exact R3].
    apply (sruns_app _ _ _ _ _ _ g1); [|exact R2]. exact R1.
  - rewrite !app_nil_r, !returned_app, Hh1. reflexivity.
  - intros [|[|i]]; cbn [sy_thr]; [reflexivity| |].
    + rewrite setT_other by discriminate. rewrite O7 by discriminate. reflexivity.
    + rewrite setT_other by discriminate. rewrite O7 by discriminate. cbn [g6 sy_thr]. rewrite setT_other by discriminate. rewrite O5, O4, O3, O2 by discriminate. apply N1. lia.
  - cbn [sy_file]. exact Hf7.
Qed.
