(** Lemmas: programs over a file, and goroutines under the lock. *)
Require Import Verif.S_store.

Lemma exec_bind : forall {A B} F (p : prog A) (g : A -> prog B) f x f',
  exec F (pbind p g) f x f' ->
  (exists a f1, exec F p f (Ret a) f1 /\ exec F (g a) f1 x f') \/ (exec F p f Panic f' /\ x = Panic).
Proof.
  intros A B F p g. induction p as [a| |c k IH]; intros f x f' H; cbn [pbind] in H.
  - left. exists a, f. split; [constructor|exact H].
  - inversion H; subst. right. split; [constructor|reflexivity].
  - inversion H as [| |c0 k0 f0 r f1 x0 f2 Hio Hk]; subst. destruct (IH r _ _ _ Hk) as [(a & fa & H1 & H2)|(H1 & H2)].
    + left. exists a, fa. split; [econstructor; eassumption|exact H2].
    + right. split; [econstructor; eassumption|exact H2].
Qed.

Lemma exec_bind_intro : forall {A B} F (p : prog A) (g : A -> prog B) f a f1 x f',
  exec F p f (Ret a) f1 -> exec F (g a) f1 x f' -> exec F (pbind p g) f x f'.
Proof.
  intros A B F p g. induction p as [b| |c k IH]; intros f a f1 x f' H1 H2; cbn [pbind].
  - inversion H1; subst. exact H2.
  - inversion H1.
  - inversion H1 as [| |c0 k0 f0 r f2 x0 f3 Hio Hk]; subst. econstructor; [exact Hio|]. eapply IH; eassumption.
Qed.

Lemma crash_bind : forall {A B} F (p : prog A) (g : A -> prog B) f f',
  crash F (pbind p g) f f' ->
  crash F p f f' \/ exists a f1, exec F p f (Ret a) f1 /\ crash F (g a) f1 f'.
Proof.
  intros A B F p g. induction p as [a| |c k IH]; intros f f' H; cbn [pbind] in H.
  - right. exists a, f. split; [constructor|exact H].
  - left. inversion H; subst. constructor.
  - inversion H as [|c0 k0 f0 r f1 f2 Hio Hk]; subst; [left; constructor|]. destruct (IH r _ _ Hk) as [H1|(a & fa & H1 & H2)].
    + left. econstructor; eassumption.
    + right. exists a, fa. split; [econstructor; eassumption|exact H2].
Qed.

Lemma crash_bind_intro : forall {A B} F (p : prog A) (g : A -> prog B) f a f1 f',
  exec F p f (Ret a) f1 -> crash F (g a) f1 f' -> crash F (pbind p g) f f'.
Proof.
  intros A B F p g. induction p as [b| |c k IH]; intros f a f1 f' H1 H2; cbn [pbind].
  - inversion H1; subst. exact H2.
  - inversion H1.
  - inversion H1 as [| |c0 k0 f0 r f2 x0 f3 Hio Hk]; subst. econstructor; [exact Hio|]. eapply IH; eassumption.
Qed.

(** A crash at the very end is like the end. *)
Lemma exec_crash : forall {A} F (p : prog A) f x f', exec F p f x f' -> crash F p f f'.
Proof. intros A F p f x f' H. induction H; econstructor; eassumption. Qed.

(** ** Writing a file *)
Lemma put_end : forall d b, put (length d) b d = d ++ [b].
Proof. intros d b. unfold put. rewrite firstn_all, Nat.sub_diag, skipn_all2 by lia. cbn. now rewrite ?app_nil_r. Qed.

Lemma write_from_exec : forall F data d x f', exec F (write_from (length d) data) (Some d) x f' ->
  (x = Ret true /\ f' = Some (d ++ data)) \/
  (F FWrite /\ x = Ret false /\ exists p q, data = p ++ q /\ q <> [] /\ f' = Some (d ++ p)).
Proof.
  intros F. induction data as [|b data IH]; intros d x f' H; cbn [write_from] in H.
  - inversion H; subst. left. now rewrite app_nil_r.
  - inversion H as [| |c0 k0 f0 r f1 x0 f2 Hio Hk]; subst. inversion Hio; subst.
    + rewrite put_end in Hk. replace (S (length d)) with (length (d ++ [b])) in Hk by (rewrite app_length; cbn; lia).
      destruct (IH _ _ _ Hk) as [(-> & ->)|(HF & -> & p & q & -> & Hq & ->)].
      * left. now rewrite <- app_assoc.
      * right. split; [exact HF|split; [reflexivity|]]. exists (b :: p), q. rewrite <- app_assoc. repeat split; assumption.
    + inversion Hk; subst. right. split; [assumption|split; [reflexivity|]]. exists [], (b :: data).
      rewrite app_nil_r. repeat split; discriminate.
Qed.

Lemma write_from_crash : forall F data d f', crash F (write_from (length d) data) (Some d) f' ->
  exists p q, data = p ++ q /\ f' = Some (d ++ p).
Proof.
  intros F. induction data as [|b data IH]; intros d f' H; cbn [write_from] in H.
  - inversion H; subst. exists [], []. split; [reflexivity|now rewrite app_nil_r].
  - inversion H as [|c0 k0 f0 r f1 f2 Hio Hk]; subst; [exists [], (b :: data); split; [reflexivity|now rewrite app_nil_r]|]. inversion Hio; subst.
    + rewrite put_end in Hk. replace (S (length d)) with (length (d ++ [b])) in Hk by (rewrite app_length; cbn; lia).
      destruct (IH _ _ Hk) as (p & q & -> & ->). exists (b :: p), q. split; [reflexivity|now rewrite <- app_assoc].
    + inversion Hk; subst. exists [], (b :: data). split; [reflexivity|now rewrite app_nil_r].
Qed.

Lemma write_from_total : forall F data d, exec F (write_from (length d) data) (Some d) (Ret true) (Some (d ++ data)).
Proof.
  intros F. induction data as [|b data IH]; intro d; cbn [write_from]; [rewrite app_nil_r; constructor|].
  econstructor; [constructor|]. cbv beta iota. rewrite put_end.
  replace (S (length d)) with (length (d ++ [b])) by (rewrite app_length; cbn; lia).
  replace (d ++ b :: data) with ((d ++ [b]) ++ data) by now rewrite <- app_assoc. apply IH.
Qed.

Lemma WriteFile_exec : forall F data f x f', exec F (WriteFile data) f x f' ->
  (x = Ret true /\ f' = Some data) \/
  (F FOpen /\ x = Ret false /\ f' = f) \/
  (F FWrite /\ x = Ret false /\ exists p q, data = p ++ q /\ q <> [] /\ f' = Some p).
Proof.
  intros F data f x f' H. unfold WriteFile in H. inversion H as [| |c0 k0 f0 r f1 x0 f2 Hio Hk]; subst. inversion Hio; subst.
  - destruct (write_from_exec F data [] _ _ Hk) as [(-> & ->)|(HF & -> & p & q & -> & Hq & ->)]; [now left|].
    right; right. split; [assumption|split; [reflexivity|]]. exists p, q. repeat split; assumption.
  - inversion Hk; subst. right; left. repeat split; assumption.
Qed.

Lemma WriteFile_total : forall F data f, exec F (WriteFile data) f (Ret true) (Some data).
Proof. intros F data f. unfold WriteFile. econstructor; [apply io_trunc|]. exact (write_from_total F data []). Qed.

Lemma WriteFile_crash : forall F data f f', crash F (WriteFile data) f f' ->
  f' = f \/ exists p q, data = p ++ q /\ f' = Some p.
Proof.
  intros F data f f' H. unfold WriteFile in H. inversion H as [|c0 k0 f0 r f1 f2 Hio Hk]; subst; [now left|]. inversion Hio; subst.
  - right. destruct (write_from_crash F data [] _ Hk) as (p & q & -> & ->). now exists p, q.
  - inversion Hk; subst. now left.
Qed.

Lemma WriteFile_crash_empty : forall F data f, crash F (WriteFile data) f (Some []).
Proof. intros F data f. unfold WriteFile. econstructor; [apply io_trunc|]. constructor. Qed.

(** Crash after any number of octets. *)
Lemma write_from_crash_intro : forall F p q d, crash F (write_from (length d) (p ++ q)) (Some d) (Some (d ++ p)).
Proof.
  intros F. induction p as [|b p IH]; intros q d; cbn [write_from app]; [rewrite app_nil_r; constructor|].
  econstructor; [constructor|]. cbv beta iota. rewrite put_end.
  replace (S (length d)) with (length (d ++ [b])) by (rewrite app_length; cbn; lia).
  replace (d ++ b :: p) with ((d ++ [b]) ++ p) by now rewrite <- app_assoc. apply IH.
Qed.
Lemma WriteFile_crash_intro : forall F p q f, crash F (WriteFile (p ++ q)) f (Some p).
Proof. intros F p q f. unfold WriteFile. econstructor; [apply io_trunc|]. exact (write_from_crash_intro F p q []). Qed.

(** ** Maps *)
Lemma mget_mset : forall {V} k (v : V) m k', mget k' (mset k v m) = if beq_bytes k' k then Some v else mget k' m.
Proof. reflexivity. Qed.
Lemma mget_mdel : forall {V} k (m : list (bytes * V)) k', mget k' (mdel k m) = if beq_bytes k' k then None else mget k' m.
Proof.
  intros V k m k'. induction m as [|[a v] m IH]; cbn [mdel filter mget fst].
  - now destruct (beq_bytes k' k).
  - destruct (beq_bytes k a) eqn:E; cbn [negb].
    + apply beq_bytes_eq in E. subst a. fold (mdel k m). rewrite IH. now destruct (beq_bytes k' k).
    + cbn [mget]. fold (mdel k m). rewrite IH. destruct (beq_bytes k' a) eqn:E2; [|reflexivity].
      apply beq_bytes_eq in E2. subst a. apply beq_bytes_neq in E. now rewrite (proj2 (beq_bytes_neq k' k)) by congruence.
Qed.

Lemma legal_app : forall {St O R} (spec : St -> O -> R -> St -> Prop) s l s1 l' s2,
  legal spec s l s1 -> legal spec s1 l' s2 -> legal spec s (l ++ l') s2.
Proof. intros St O R spec s l s1 l' s2 H. induction H; cbn [app]; [easy|]. intro H'. econstructor; [eassumption|now apply IHlegal]. Qed.

Lemma legal_app_inv : forall {St O R} (spec : St -> O -> R -> St -> Prop) l l' s s2,
  legal spec s (l ++ l') s2 -> exists s1, legal spec s l s1 /\ legal spec s1 l' s2.
Proof.
  intros St O R spec. induction l as [|[o r] l IH]; intros l' s s2 H; cbn [app] in H.
  - exists s. split; [constructor|exact H].
  - inversion H; subst. destruct (IH _ _ _ H6) as (t & H1 & H2). exists t. split; [econstructor; eassumption|exact H2].
Qed.

Lemma returned_app : forall {O R} (h h' : list (ev O R)), returned (h ++ h') = returned h ++ returned h'.
Proof. intros O R h h'. induction h as [|[i o|i o r] h IH]; cbn [returned app]; [easy|easy|now rewrite IH]. Qed.

(** ** Goroutines: a store whose readers do not change what the file holds is a map, whatever the schedule. *)
Section Lin.
Context {O R St : Type} (F : fault -> Prop) (lockof : O -> option mode) (body : O -> prog R) (early : O -> R).
Context (Rep : file -> St -> Prop) (spec : St -> O -> R -> St -> Prop) (okop : O -> Prop).

Definition there (f : file) : bool := match f with None => false | Some _ => true end.

Fixpoint rsafe (s : St) (ex : bool) (Q : R -> Prop) (p : prog R) : Prop :=
  match p with
  | PRet a => Q a
  | PPanic => True
  | PIo c k => forall f r f', Rep f s -> (ex = true -> f <> None) -> io F c f r f' ->
      Rep f' s /\ (f <> None -> f' <> None) /\ rsafe s (ex || there f') Q (k r)
  end.

Context (Hearly : forall s o, okop o -> lockof o = None -> spec s o (early o) s).
Context (Hw : forall s f o r f', okop o -> lockof o = Some MWrite -> Rep f s -> exec F (body o) f (Ret r) f' ->
  exists s', spec s o r s' /\ Rep f' s').
Context (Hr : forall s f o, Rep f s -> okop o -> lockof o = Some MRead -> rsafe s false (fun r => spec s o r s) (body o)).

Definition reading (s : St) (g : sys O R) : Prop :=
  Rep (sy_file g) s /\
  forall i o m p, sy_thr g i = Some (TRun o m p) -> m = MRead /\
    exists ex, (ex = true -> sy_file g <> None) /\ rsafe s ex (fun r => spec s o r s) p.
Definition writing (s : St) (g : sys O R) : Prop :=
  exists i o p f0, sy_thr g i = Some (TRun o MWrite p) /\ (forall j o' m' p', sy_thr g j = Some (TRun o' m' p') -> j = i) /\
    okop o /\ lockof o = Some MWrite /\ Rep f0 s /\
    forall x f', exec F p (sy_file g) x f' -> exec F (body o) f0 x f'.
Definition calls_ok (g : sys O R) : Prop := forall i o, sy_thr g i = Some (TWait o) -> okop o.
Definition Inv (s : St) (g : sys O R) : Prop := calls_ok g /\ (reading s g \/ writing s g).

Lemma setT_same : forall (t : nat -> option (thr O R)) i x, setT t i x i = x.
Proof. intros. unfold setT. now rewrite Nat.eqb_refl. Qed.
Lemma setT_other : forall (t : nat -> option (thr O R)) i x j, j <> i -> setT t i x j = t j.
Proof. intros t i x j H. unfold setT. rewrite (proj2 (Nat.eqb_neq i j)); [reflexivity|congruence]. Qed.

Lemma Inv_step : forall s g e g', Inv s g -> (forall i o, In (EvCall i o) e -> okop o) ->
  sstep F lockof body early g e g' -> exists s', legal spec s (returned e) s' /\ Inv s' g'.
Proof.
  intros s g e g' [Hc Hi] He H. inversion H; subst.
  - (* call *)
    exists s. split; [constructor|]. split.
    + intros j o' Hj. cbn [sy_thr] in Hj. destruct (Nat.eq_dec j i) as [->|n].
      * rewrite setT_same in Hj. injection Hj as <-. apply (He i). now left.
      * rewrite setT_other in Hj by exact n. now apply (Hc j).
    + destruct Hi as [[Hrep Ht]|(i0 & o0 & p0 & f0 & Ht & Hu & Hok & Hl & Hrep & Hx)]; [left|right].
      * split; [exact Hrep|]. intros j o' m' p' Hj. cbn [sy_thr] in Hj. destruct (Nat.eq_dec j i) as [->|n].
        -- rewrite setT_same in Hj. discriminate.
        -- rewrite setT_other in Hj by exact n. now apply (Ht j).
      * assert (i0 <> i) as Hn by congruence.
        exists i0, o0, p0, f0. cbn [sy_thr sy_file]. rewrite setT_other by exact Hn. split; [exact Ht|]. split; [|repeat split; assumption].
        intros j o' m' p' Hj. destruct (Nat.eq_dec j i) as [->|n]; [rewrite setT_same in Hj; discriminate|].
        rewrite setT_other in Hj by exact n. now apply (Hu _ _ _ _ Hj).
  - (* early return *)
    exists s. split; [econstructor; [apply Hearly; [now apply (Hc i)|assumption]|constructor]|]. split.
    + intros j o' Hj. cbn [sy_thr] in Hj. destruct (Nat.eq_dec j i) as [->|n]; [rewrite setT_same in Hj; discriminate|].
      rewrite setT_other in Hj by exact n. now apply (Hc j).
    + destruct Hi as [[Hrep Ht]|(i0 & o0 & p0 & f0 & Ht & Hu & Hok & Hl & Hrep & Hx)]; [left|right].
      * split; [exact Hrep|]. intros j o' m' p' Hj. cbn [sy_thr] in Hj. destruct (Nat.eq_dec j i) as [->|n].
        -- rewrite setT_same in Hj. discriminate.
        -- rewrite setT_other in Hj by exact n. now apply (Ht j).
      * assert (i0 <> i) as Hn by congruence.
        exists i0, o0, p0, f0. cbn [sy_thr sy_file]. rewrite setT_other by exact Hn. split; [exact Ht|]. split; [|repeat split; assumption].
        intros j o' m' p' Hj. destruct (Nat.eq_dec j i) as [->|n]; [rewrite setT_same in Hj; discriminate|].
        rewrite setT_other in Hj by exact n. now apply (Hu _ _ _ _ Hj).
  - (* lock *)
    exists s. split; [constructor|]. split.
    + intros j o' Hj. cbn [sy_thr] in Hj. destruct (Nat.eq_dec j i) as [->|n]; [rewrite setT_same in Hj; discriminate|].
      rewrite setT_other in Hj by exact n. now apply (Hc j).
    + destruct Hi as [[Hrep Ht]|(i0 & o0 & p0 & f0 & Ht & Hu & Hok & Hl & Hrep & Hx)].
      * destruct m.
        -- left. split; [exact Hrep|]. intros j o' m' p' Hj. cbn [sy_thr] in Hj. destruct (Nat.eq_dec j i) as [->|n].
           ++ rewrite setT_same in Hj. injection Hj as <- <- <-. split; [reflexivity|]. exists false.
              split; [discriminate|]. apply (Hr s (sy_file g)); [exact Hrep|now apply (Hc i)|assumption].
           ++ rewrite setT_other in Hj by exact n. exact (Ht _ _ _ _ Hj).
        -- right. exists i, o, (body o), (sy_file g). cbn [sy_thr sy_file]. rewrite setT_same.
           split; [reflexivity|]. split.
           ++ intros j o' m' p' Hj. destruct (Nat.eq_dec j i) as [->|n]; [reflexivity|]. rewrite setT_other in Hj by exact n.
              destruct (H2 _ _ _ _ Hj) as [Hq _]. discriminate.
           ++ split; [now apply (Hc i)|]. repeat split; [assumption|assumption|easy].
      * destruct (H2 _ _ _ _ Ht) as [_ Hq]. discriminate.
  - (* system call *)
    exists s. split; [constructor|]. split.
    + intros j o' Hj. cbn [sy_thr] in Hj. destruct (Nat.eq_dec j i) as [->|n]; [rewrite setT_same in Hj; discriminate|].
      rewrite setT_other in Hj by exact n. now apply (Hc j).
    + destruct Hi as [[Hrep Ht]|(i0 & o0 & p0 & f0 & Ht & Hu & Hok & Hl & Hrep & Hx)].
      * left. destruct (Ht _ _ _ _ H0) as (Hm & ex & Hex & Hs). subst m. cbn [rsafe] in Hs.
        destruct (Hs _ _ _ Hrep Hex H1) as (Hrep' & Hmono & Hs').
        split; [exact Hrep'|]. intros j o' m' p' Hj. cbn [sy_thr sy_file] in *. destruct (Nat.eq_dec j i) as [->|n].
        -- rewrite setT_same in Hj. injection Hj as <- <- <-. split; [reflexivity|]. exists (ex || there f'). split; [|exact Hs'].
           intro Ho. apply orb_true_iff in Ho. destruct Ho as [Ho|Ho]; [now apply Hmono, Hex|]. now destruct f'.
        -- rewrite setT_other in Hj by exact n. destruct (Ht _ _ _ _ Hj) as (Hm & ex' & Hex' & Hs2). split; [exact Hm|].
           exists ex'. split; [|exact Hs2]. intro Ho. now apply Hmono, Hex'.
      * right. pose proof (Hu _ _ _ _ H0) as Hii. subst i0. rewrite H0 in Ht. injection Ht as <- -> <-.
        exists i, o, (k r), f0. cbn [sy_thr sy_file]. rewrite setT_same. split; [reflexivity|]. split; [|split; [assumption|split; [assumption|split; [assumption|]]]].
        -- intros j o' m' p' Hj. destruct (Nat.eq_dec j i) as [->|n]; [reflexivity|]. rewrite setT_other in Hj by exact n. now apply (Hu _ _ _ _ Hj).
        -- intros x fx Hk. apply Hx. econstructor; eassumption.
  - (* return *)
    destruct Hi as [[Hrep Ht]|(i0 & o0 & p0 & f0 & Ht & Hu & Hok & Hl & Hrep & Hx)].
    + exists s. destruct (Ht _ _ _ _ H0) as (Hm & ex & Hex & Hs). cbn [rsafe] in Hs.
      split; [econstructor; [exact Hs|constructor]|]. split.
      * intros j o' Hj. cbn [sy_thr] in Hj. destruct (Nat.eq_dec j i) as [->|n]; [rewrite setT_same in Hj; discriminate|].
        rewrite setT_other in Hj by exact n. now apply (Hc j).
      * left. split; [exact Hrep|]. intros j o' m' p' Hj. cbn [sy_thr sy_file] in *. destruct (Nat.eq_dec j i) as [->|n]; [rewrite setT_same in Hj; discriminate|].
        rewrite setT_other in Hj by exact n. exact (Ht _ _ _ _ Hj).
    + pose proof (Hu _ _ _ _ H0) as Hii. subst i0. rewrite H0 in Ht. injection Ht as <- -> <-.
      destruct (Hw s f0 o r (sy_file g) Hok Hl Hrep) as (s' & Hsp & Hrep'). { apply Hx. constructor. }
      exists s'. split; [econstructor; [exact Hsp|constructor]|]. split.
      * intros j o' Hj. cbn [sy_thr] in Hj. destruct (Nat.eq_dec j i) as [->|n]; [rewrite setT_same in Hj; discriminate|].
        rewrite setT_other in Hj by exact n. now apply (Hc j).
      * left. split; [exact Hrep'|]. intros j o' m' p' Hj. cbn [sy_thr sy_file] in *. destruct (Nat.eq_dec j i) as [->|n]; [rewrite setT_same in Hj; discriminate|].
        rewrite setT_other in Hj by exact n. pose proof (Hu _ _ _ _ Hj). congruence.
Qed.

Lemma Inv_runs : forall g h g', sruns F lockof body early g h g' -> forall s, Inv s g ->
  (forall i o, In (EvCall i o) h -> okop o) -> exists s', legal spec s (returned h) s' /\ Inv s' g'.
Proof.
  intros g h g' H. induction H as [g|g h g1 e g2 H1 IH H2]; intros s Hi Hok.
  - exists s. split; [constructor|exact Hi].
  - destruct (IH s Hi) as (s1 & Hl1 & Hi1). { intros i o Hin. apply (Hok i). apply in_or_app. now left. }
    destruct (Inv_step s1 g1 e g2 Hi1) as (s2 & Hl2 & Hi2); [|exact H2|].
    { intros i o Hin. apply (Hok i). apply in_or_app. now right. }
    exists s2. split; [|exact Hi2]. rewrite returned_app. eapply legal_app; eassumption.
Qed.

Lemma Inv_start : forall f s, Rep f s -> Inv s (sys0 f).
Proof. intros f s H. split; [intros i o Hi; discriminate|]. left. split; [exact H|]. intros i o m p Hi. discriminate. Qed.

(** Nobody is running: the file holds the map. *)
Lemma Inv_quiet : forall s g, Inv s g -> (forall i o m p, sy_thr g i <> Some (TRun o m p)) -> Rep (sy_file g) s.
Proof. intros s g [_ [[H _]|(i & o & p & f0 & Ht & _)]] Hq; [exact H|]. now destruct (Hq i o MWrite p). Qed.
End Lin.
