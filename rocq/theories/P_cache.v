(** Lemmas about the GATT profile cache. *)
Require Import Verif.S_store Verif.P_store Verif.P_bond2.

Section Ca.
Context {V : Type} (J : ccodec V) (okv : V -> Prop) (HJ : cjson_ok J okv) (F : fault -> Prop).

Definition cread (f : file) : option (option (list (bytes * V))) := match f with None => Some (Some []) | Some d => cdec J d end.

Lemma cload_exec : forall f x f', exec F (loadExisting J) f x f' -> f' = f /\ (x = Ret (cread f) \/ any_fault F /\ x = Ret None).
Proof.
  intros f x f' H. unfold loadExisting in H. inversion H as [| |c0 k0 f0 r f1 x0 f2 Hio Hk]; subst.
  assert (Hrd : forall h y g, exec F (PIo Read (fun x => match x with Fail => PRet None | Ok d => PRet (cdec J d) end)) h y g -> g = h /\
     ((exists d, h = Some d /\ y = Ret (cdec J d)) \/ (h = None \/ any_fault F) /\ y = Ret None)).
  { intros h y g Hg. inversion Hg as [| |c1 k1 f3 r1 f4 x1 f5 Hio1 Hk1]; subst.
    inversion Hio1; subst; inversion Hk1; subst; (split; [reflexivity|]).
    - left. now exists d.
    - right. split; [now left|reflexivity].
    - right. split; [right; now exists FRead|reflexivity]. }
  inversion Hio; subst.
  - apply Hrd in Hk. destruct Hk as (-> & [(d' & E & ->)|([E|Hf] & ->)]); [|discriminate|]; (split; [reflexivity|]).
    + left. injection E as ->. reflexivity.
    + right. now split.
  - inversion Hk; subst. split; [reflexivity|]. now left.
  - assert (any_fault F) as Hf by now exists FStat. apply Hrd in Hk. destruct Hk as (-> & [(d' & -> & ->)|(_ & ->)]); (split; [reflexivity|]).
    + now left.
    + now right.
Qed.

Lemma cload_total : forall f, exec F (loadExisting J) f (Ret (cread f)) f.
Proof.
  intros [d|]; unfold loadExisting.
  - econstructor; [apply io_stat|]. econstructor; [apply io_read|]. constructor.
  - econstructor; [apply io_stat_none|]. constructor.
Qed.

Lemma cload_crash : forall f f', crash F (loadExisting J) f f' -> f' = f.
Proof.
  intros f f' H. unfold loadExisting in H. inversion H as [|c0 k0 f0 r f1 f2 Hio Hk]; subst; [reflexivity|].
  assert (Hrd : forall h g, crash F (PIo Read (fun x => match x with Fail => PRet None | Ok d => PRet (cdec J d) end)) h g -> g = h).
  { intros h g Hg. inversion Hg as [|c1 k1 f3 r1 f4 f5 Hio1 Hk1]; subst; [reflexivity|].
    inversion Hio1; subst; now inversion Hk1. }
  inversion Hio; subst; [now apply Hrd in Hk|now inversion Hk|now apply Hrd in Hk].
Qed.

Lemma cholds_read : forall f s, cholds J okv f s -> exists m, cread f = Some (Some m) /\ forall k, mget k m = look s k.
Proof.
  intros f s (Hok & H). destruct f as [d|], s as [s|]; cbn in *; try easy. now exists [].
Qed.

Definition putm (s : option (pmap V)) (k : bytes) (p : V) : pmap V := fun k' => if beq_bytes k' k then Some p else look s k'.
Lemma putm_puts : forall s k p, puts k p (look s) (putm s k p).
Proof. intros s k p. split; unfold putm; [now rewrite beq_bytes_refl|]. intros k' H. now rewrite (proj2 (beq_bytes_neq k' k) H). Qed.

Lemma cstore_holds : forall f s m k p, cholds J okv f s -> (forall k, mget k m = look s k) -> ascii k -> okv p ->
  exists d, cenc J (mset k p m) = Some d /\ cholds J okv (Some d) (Some (putm s k p)) /\ (forall k' v, mget k' (mset k p m) = Some v -> ascii k' /\ okv v).
Proof.
  intros f s m k p (Hok & _) Hm Hk Hp. destruct HJ as (H1 & _).
  assert (Hg : forall k', mget k' (mset k p m) = putm s k p k').
  { intro k'. rewrite mget_mset. unfold putm. destruct (beq_bytes k' k); [reflexivity|apply Hm]. }
  assert (Hok' : forall k' v, putm s k p k' = Some v -> ascii k' /\ okv v).
  { intros k' v. unfold putm. destruct (beq_bytes k' k) eqn:E; [|apply Hok]. apply beq_bytes_eq in E. subst k'. intro Hv. injection Hv as <-. now split. }
  destruct (H1 (mset k p m)) as (d & m' & E1 & E2 & E3). { intros k' v Hv. rewrite Hg in Hv. now apply Hok'. }
  exists d. split; [exact E1|]. split; [split; [exact Hok'|]; exists m'; split; [exact E2|]; intro k'; now rewrite E3|]. intros k' v Hv. rewrite Hg in Hv. now apply Hok'.
Qed.

(** Whatever fails, the calls never panic on such a file. *)
Lemma cexec_no_panic : forall s f o x f', cop_ok okv o -> cholds J okv f s -> exec F (cbody J o) f x f' -> x <> Panic.
Proof.
  intros s f o x f' Ho Hs H. destruct (cholds_read f s Hs) as (m & Em & Hm).
  destruct o as [k p rep|k|]; cbn [cbody] in H.
  - unfold store_body in H. apply exec_bind in H. destruct H as [(l & f1 & H1 & H2)|(H1 & _)]; apply cload_exec in H1; destruct H1 as (-> & Hl).
    + destruct Hl as [Hl|(_ & Hl)]; injection Hl as ->; [|inversion H2; subst; discriminate]. rewrite Em in H2.
      cbv zeta in H2. destruct ((match mget k m with Some _ => true | None => false end && negb rep)%bool); [inversion H2; subst; discriminate|].
      apply exec_bind in H2. destruct H2 as [(w & f2 & H2 & H3)|(H2 & _)]; [inversion H3; subst; discriminate|].
      unfold storeCache in H2. destruct (cenc J (mset k p m)); [|inversion H2]. apply WriteFile_exec in H2.
      destruct H2 as [(H2 & _)|[(_ & H2 & _)|(_ & H2 & _)]]; discriminate.
    + destruct Hl as [Hl|(_ & Hl)]; discriminate.
  - unfold load_body in H. apply exec_bind in H. destruct H as [(l & f1 & H1 & H2)|(H1 & _)]; apply cload_exec in H1; destruct H1 as (-> & Hl).
    + destruct Hl as [Hl|(_ & Hl)]; injection Hl as ->; [|inversion H2; subst; discriminate]. rewrite Em in H2.
      destruct (mget k m); inversion H2; subst; discriminate.
    + destruct Hl as [Hl|(_ & Hl)]; discriminate.
  - unfold clear_body in H. inversion H as [| |c0 k0 f0 r f1 x0 f2 Hio Hk]; subst. destruct r; inversion Hk; subst; discriminate.
Qed.

Lemma load_body_spec : forall s f k x f', cholds J okv f s -> exec F (load_body J k) f x f' ->
  f' = f /\ exists r, x = Ret r /\ ((exists p, look s k = Some p /\ r = CProfile p) \/ look s k = None /\ r = CErr \/ any_fault F /\ r = CErr).
Proof.
  intros s f k x f' Hs H. destruct (cholds_read f s Hs) as (m & Em & Hm).
  unfold load_body in H. apply exec_bind in H. destruct H as [(l & f1 & H1 & H2)|(H1 & _)]; apply cload_exec in H1; destruct H1 as (-> & Hl).
  - destruct Hl as [Hl|(Hfl & Hl)]; injection Hl as ->.
    + rewrite Em, Hm in H2. destruct (look s k) as [p|] eqn:E; inversion H2; subst; (split; [reflexivity|]); eexists; (split; [reflexivity|]).
      * left. now exists p.
      * right; left. now split.
    + inversion H2; subst. split; [reflexivity|]. eexists. split; [reflexivity|]. right; right. now split.
  - destruct Hl as [Hl|(_ & Hl)]; discriminate.
Qed.

Context (HF : write_ok F).

Lemma ccall_spec : forall s f o r f', cop_ok okv o -> cholds J okv f s -> exec F (cbody J o) f (Ret r) f' ->
  exists s', cspec (any_fault F) s o r s' /\ cholds J okv f' s'.
Proof.
  intros s f o r f' Ho Hs H. destruct (cholds_read f s Hs) as (m & Em & Hm).
  destruct o as [k p rep|k|]; cbn [cbody] in H.
  - destruct Ho as [Hk Hp]. unfold store_body in H. apply exec_bind in H. destruct H as [(l & f1 & H1 & H2)|(_ & H2)]; [|discriminate].
    apply cload_exec in H1; destruct H1 as (-> & Hl). destruct Hl as [Hl|(Hfl & Hl)]; injection Hl as ->.
    + rewrite Em in H2. cbv zeta in H2. rewrite Hm in H2. destruct (cstore_holds f s m k p Hs Hm Hk Hp) as (d & Ed & Hd & Hda).
      destruct (match look s k with Some _ => true | None => false end && negb rep)%bool eqn:E.
      * inversion H2; subst. exists s. split; [|exact Hs]. right; left. apply andb_true_iff in E. destruct E as [E1 E2].
        split; [now destruct (look s k)|]. split; [now destruct rep|]. now split.
      * apply exec_bind in H2. destruct H2 as [(w & f2 & H2 & H3)|(_ & H2)]; [|discriminate]. inversion H3; subst.
        unfold storeCache in H2. rewrite Ed in H2. apply WriteFile_exec in H2.
        destruct H2 as [(Hw & ->)|[(Hfl & Hw & ->)|(Hfl & _)]]; [| |now apply HF in Hfl]; injection Hw as ->.
        -- exists (Some (putm s k p)). split; [|exact Hd]. left. split; [|split; [reflexivity|]].
           ++ destruct (look s k); [right; now destruct rep|now left].
           ++ eexists. split; [reflexivity|apply putm_puts].
        -- exists s. split; [|exact Hs]. right; right. split; [now exists FOpen|now split].
    + inversion H2; subst. exists s. split; [|exact Hs]. right; right. split; [exact Hfl|now split].
  - destruct (load_body_spec s f k _ f' Hs H) as (-> & r' & Hr & Hsp). injection Hr as <-. exists s. split; [now split|exact Hs].
  - unfold clear_body in H. inversion H as [| |c0 k0 f0 q f1 x0 f2 Hio Hk]; subst. inversion Hio; subst; inversion Hk; subst.
    + exists None. split; [left|split; [discriminate|exact I]]. split; [|now split]. destruct Hs as (_ & Hs). now destruct s.
    + exists s. split; [right; left|exact Hs]. split; [|now split]. destruct Hs as (_ & Hs). now destruct s.
    + exists s. split; [|exact Hs]. right; right. split; [now exists FRemove|now split].
Qed.

Lemma cseq_spec : forall f l f', calls F (cbody J) f l f' -> Forall (fun x => cop_ok okv (fst x)) l -> forall s, cholds J okv f s ->
  exists s', legal (cspec (any_fault F)) s l s' /\ cholds J okv f' s'.
Proof.
  intros f l f' H. induction H as [f|f o r f1 l f2 H1 H2 IH]; intros Hok s Hs.
  - exists s. split; [constructor|exact Hs].
  - apply Forall_cons_iff in Hok. destruct Hok as [Ho Hok]. destruct (ccall_spec _ _ _ _ _ Ho Hs H1) as (s1 & Hsp & Hs1).
    destruct (IH Hok s1 Hs1) as (s2 & Hl & Hs2). exists s2. split; [econstructor; eassumption|exact Hs2].
Qed.

Lemma cconc_spec : forall f s h g, cholds J okv f s -> sruns F clock (cbody J) (fun _ => CErr) (sys0 f) h g ->
  (forall i o, In (EvCall i o) h -> cop_ok okv o) ->
  exists s', legal (cspec (any_fault F)) s (returned h) s' /\
   ((forall i o m p, sy_thr g i <> Some (TRun o m p)) -> cholds J okv (sy_file g) s').
Proof.
  intros f s h g Hrep Hrun Hok.
  destruct (Inv_runs F clock (cbody J) (fun _ => CErr) (cholds J okv) (cspec (any_fault F)) (cop_ok okv)) with (6 := Hok) (g := @sys0 (cop V) (cres V) f) (g' := g) (s := s) as (s' & Hl & Hi).
  - intros s0 o _ Hlock. now destruct o.
  - intros s0 f0 o r f' Ho _ Hh Hx. now apply (ccall_spec s0 f0 o r f').
  - intros s0 f0 o Hh Ho Hlock. destruct o as [k p rep|k|]; [discriminate| |discriminate]. cbn [cbody]. unfold load_body, loadExisting. cbn [pbind].
    assert (Hone : forall g1 r g1', cholds J okv g1 s0 -> io F Stat g1 r g1' -> g1' = g1 /\ (r = Fail -> g1 = None)).
    { intros g1 r g1' _ Hio. inversion Hio; subst; now split. }
    intros f1 r1 f1' Hh1 _ Hio1. destruct (Hone _ _ _ Hh1 Hio1) as (-> & Hr1). split; [exact Hh1|]. split; [easy|].
    destruct r1 as [d1|].
    + intros f2 r2 f2' Hh2 Hex Hio2.
      assert (Hx : exec F (load_body J k) f2 (match r2 with Fail => Ret CErr | Ok d => match cdec J d with None => Ret CErr | Some None => Ret CErr | Some (Some m) => match mget k m with None => Ret CErr | Some p => Ret (CProfile p) end end end) f2' \/ r2 = Fail /\ f2' = f2 /\ (f2 = None \/ any_fault F)).
      { inversion Hio2; subst; [left|right; repeat split; now left|right; repeat split; right; now exists FRead].
        unfold load_body, loadExisting. cbn [pbind]. econstructor; [apply io_stat|]. cbn [pbind]. econstructor; [apply io_read|]. cbn [pbind].
        destruct (cdec J d) as [[m|]|]; [destruct (mget k m)| |]; constructor. }
      destruct Hx as [Hx|(-> & -> & Hx)].
      * destruct (load_body_spec s0 f2 k _ f2' Hh2 Hx) as (-> & r & Er & Hsp). split; [exact Hh2|split; [easy|]].
        destruct r2 as [d|]; cbn [pbind]; [destruct (cdec J d) as [[m|]|]; cbn [pbind]; [destruct (mget k m)| |]|]; cbn [pbind rsafe]; injection Er as <-; (split; [reflexivity|exact Hsp]).
      * split; [exact Hh2|split; [easy|]]. cbn [pbind rsafe]. split; [reflexivity|]. destruct Hx as [->|Hfl]; [|right; right; now split].
        right; left. destruct Hh2 as (_ & Hh2). destruct s0; [easy|now split].
    + cbn [pbind rsafe mget]. split; [reflexivity|]. right; left. destruct Hh1 as (_ & Hh1). rewrite (Hr1 eq_refl) in Hh1. destruct s0; [easy|now split].
  - exact Hrun.
  - now apply Inv_start.
  - exists s'. split; [exact Hl|]. intro Hq. now apply (Inv_quiet F clock (cbody J) (cholds J okv) (cspec (any_fault F)) (cop_ok okv) s' g).
Qed.
End Ca.

(** ** Crashes *)
Section Cr.
Context {V : Type} (J : ccodec V) (okv : V -> Prop) (HJ : cjson_ok J okv).

(** Every Load and Store on such a file fails and leaves it as it is. *)
Definition cbroken (f : file) : Prop := exists d, f = Some d /\ cdec J d = None.

Lemma ccrash_cases : forall F s f o g, cop_ok okv o -> cholds J okv f s -> crash F (cbody J o) f g ->
  cholds J okv g s \/ (exists r s', cspec False s o r s' /\ cholds J okv g s') \/ cbroken g.
Proof.
  intros F s f o g Ho Hs H. destruct (cholds_read J okv f s Hs) as (m & Em & Hm).
  destruct o as [k p rep|k|]; cbn [cbody] in H.
  - destruct Ho as [Hk Hp]. unfold store_body in H. apply crash_bind in H. destruct H as [H|(l & f1 & H1 & H2)].
    + apply cload_crash in H. subst g. now left.
    + apply cload_exec in H1. destruct H1 as (-> & Hl). destruct Hl as [Hl|(_ & Hl)]; injection Hl as ->; [|inversion H2; subst; now left].
      rewrite Em in H2. cbv zeta in H2. rewrite Hm in H2. destruct (cstore_holds J okv HJ f s m k p Hs Hm Hk Hp) as (d & Ed & Hd & Hda).
      destruct (match look s k with Some _ => true | None => false end && negb rep)%bool eqn:E; [inversion H2; subst; now left|].
      assert (Hc : crash F (storeCache J (mset k p m)) f g).
      { apply crash_bind in H2. destruct H2 as [H2|(w & f2 & H2 & H3)]; [exact H2|]. inversion H3; subst. now apply exec_crash in H2. }
      unfold storeCache in Hc. rewrite Ed in Hc. destruct (WriteFile_crash _ _ _ _ Hc) as [->|(a & b & Eab & ->)]; [now left|].
      destruct b as [|z b].
      * rewrite app_nil_r in Eab. subst a. right; left. exists CDone, (Some (putm s k p)). split; [|exact Hd]. left. split; [|split; [reflexivity|]].
        -- destruct (look s k); [right; now destruct rep|now left].
        -- eexists. split; [reflexivity|apply putm_puts].
      * right; right. exists a. split; [reflexivity|]. destruct HJ as (_ & H2'). now apply (H2' _ _ _ _ Hda Ed Eab).
  - left. unfold load_body in H. apply crash_bind in H. destruct H as [H|(l & f1 & H1 & H2)].
    + apply cload_crash in H. now subst g.
    + apply cload_exec in H1. destruct H1 as (-> & Hl).
      assert (g = f) as ->; [|exact Hs]. destruct l as [[m'|]|]; [destruct (mget k m')| |]; now inversion H2.
  - unfold clear_body in H. inversion H as [|c0 k0 f0 q f1 f2 Hio Hk]; subst; [now left|].
    assert (g = f1) as -> by (destruct q; now inversion Hk).
    inversion Hio; subst; [|now left|now left].
    right; left. exists CDone, None. split; [|split; [discriminate|exact I]]. left. split; [|now split]. destruct Hs as (_ & Hs). now destruct s.
Qed.

Lemma cbroken_calls : forall F f o x f', cbroken f -> exec F (cbody J o) f x f' ->
  o <> CClear -> x = Ret CErr /\ f' = f.
Proof.
  intros F f o x f' (d & -> & Ed) H Hn.
  assert (Hl : forall (g : option (option (list (bytes * V))) -> prog (cres V)) y h, exec F (pbind (loadExisting J) g) (Some d) y h -> exec F (g None) (Some d) y h).
  { intros g y h Hg. apply exec_bind in Hg. destruct Hg as [(l & f1 & H1 & H2)|(H1 & _)]; apply cload_exec in H1; destruct H1 as (-> & Hl).
    - destruct Hl as [Hl|(_ & Hl)]; injection Hl as ->; [|exact H2]. cbn [cread] in H2. now rewrite Ed in H2.
    - destruct Hl as [Hl|(_ & Hl)]; discriminate. }
  destruct o as [k p rep|k|]; cbn [cbody] in H; [| |easy]; apply Hl in H; now inversion H.
Qed.

Lemma store_crash_prefix : forall F s f k p rep, cop_ok okv (CStore k p rep) -> cholds J okv f s -> look s k = None \/ rep = true ->
  exists d, forall a b, d = a ++ b -> crash F (cbody J (CStore k p rep)) f (Some a).
Proof.
  intros F s f k p rep [Hk Hp] Hs Hrep. destruct (cholds_read J okv f s Hs) as (m & Em & Hm).
  destruct (cstore_holds J okv HJ f s m k p Hs Hm Hk Hp) as (d & Ed & Hd & Hda). exists d. intros a b Eab.
  cbn [cbody]. unfold store_body. eapply crash_bind_intro; [apply cload_total|]. rewrite Em. cbv zeta. rewrite Hm.
  assert ((match look s k with Some _ => true | None => false end && negb rep)%bool = false) as ->.
  { destruct Hrep as [->| ->]; [reflexivity|apply andb_false_r]. }
  assert (Hx : forall (x : prog bool) (k : bool -> prog (cres V)) h g, crash F x h g -> crash F (pbind x k) h g).
  { intros x k' h g Hc. induction Hc; cbn [pbind]; [constructor|econstructor; eassumption]. }
  apply Hx. unfold storeCache. rewrite Ed, Eab. apply WriteFile_crash_intro.
Qed.
End Cr.
