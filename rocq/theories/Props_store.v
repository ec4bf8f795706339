(** C46, C47: the bond store. C48, C53, C54: the GATT profile cache. *)
Require Import Verif.S_store Verif.P_store Verif.P_bond Verif.P_bond2 Verif.P_bond3 Verif.P_cache Verif.P_json.
Require Coq.Strings.String.
Import Coq.Strings.String.StringSyntax.
Local Open Scope string_scope.
Local Open Scope Z_scope.

(** * C46: the bond store is a map *)

(** Calls one after the other on a fresh store, whatever system calls fail (except a write once begun), return what a map
    from addresses to bonds returns; none of them crashes. A restart of the process in between changes nothing: the file
    is all the state there is. *)
Theorem C46_store_is_a_map : forall J, json_ok J -> forall F, write_ok F -> forall l f,
  calls F (bcall J) None l f -> Forall (fun x => bop_ok (fst x)) l ->
  exists s, legal (bspec (any_fault F)) none l s.
Proof.
  intros J HJ F HF l f H Hok. destruct (seq_spec J HJ F HF None l f H Hok none) as (s & Hl & _).
  - split; [discriminate|]. intro k. reflexivity.
  - now exists s.
Qed.
Print Assumptions C46_store_is_a_map.

Theorem C46_no_crash : forall J, json_ok J -> forall F, write_ok F -> forall l f o x f',
  calls F (bcall J) None l f -> Forall (fun x => bop_ok (fst x)) l -> bop_ok o -> exec F (bcall J o) f x f' -> x <> Panic.
Proof.
  intros J HJ F HF l f o x f' H Hok Ho Hx. destruct (seq_spec J HJ F HF None l f H Hok none) as (s & _ & Hs).
  - split; [discriminate|]. intro k. reflexivity.
  - destruct (call_spec J HJ F HF s f o x f' Ho Hs Hx) as (r & s' & -> & _). discriminate.
Qed.
Print Assumptions C46_no_crash.

(** The bond last saved for an address is found, byte for byte, as long as it is neither replaced nor deleted; the bonds
    of the other addresses do not matter. *)
Definition touches (a : bytes) (o : bop) : Prop := match o with BSave a' _ => a' = a | BDelete a' => a' = a | _ => False end.

Lemma untouched : forall a l s s', legal (bspec False) s l s' -> Forall (fun x => ~ touches a (fst x)) l ->
  (forall b, s a = Some b -> bi_ltk b <> []) -> s' a = s a.
Proof.
  intros a l s s' H. induction H as [s|s o r s1 l s2 H1 H2 IH]; intros Hn Hk; [reflexivity|].
  apply Forall_cons_iff in Hn. destruct Hn as [Ho Hn]. cbn [fst] in Ho.
  assert (E : s1 a = s a).
  { destruct o as [a'|a'|a' ob|a']; cbn [bspec touches] in *.
    - apply H1.
    - destruct H1 as [(_ & _ & H)|[(_ & _ & _ & H)|[(_ & _ & H)|[(_ & (b & E1 & E2) & _ & (_ & H))|(H & _)]]]]; try apply H; [|easy].
      intros ->. now apply (Hk b).
    - destruct H1 as [(_ & _ & H)|[(b & _ & _ & _ & (_ & H))|(H & _)]]; [apply H| |easy]. apply H. congruence.
    - destruct H1 as [(_ & _ & (_ & H))|[(_ & _ & H)|(H & _)]]; [|apply H|easy]. apply H. congruence. }
  rewrite IH; [exact E|exact Hn|]. intros b Hb. rewrite E in Hb. now apply Hk.
Qed.

Lemma legal_flt : forall (P Q : Prop) s l s', (P -> Q) -> legal (bspec P) s l s' -> legal (bspec Q) s l s'.
Proof.
  intros P Q s l s' HPQ H. induction H as [s|s o r s1 l s2 H1 H2 IH]; [constructor|]. econstructor; [|exact IH].
  destruct o as [a|a|a ob|a]; cbn [bspec] in *; tauto.
Qed.

Theorem C46_find_returns_last_saved : forall J, json_ok J -> forall l1 l2 a b r f,
  calls no_faults (bcall J) None (l1 ++ [(BSave a (Some b), RDone)] ++ l2 ++ [(BFind a, r)]) f ->
  Forall (fun x => bop_ok (fst x)) l1 -> Forall (fun x => bop_ok (fst x)) l2 -> Forall (fun x => ~ touches a (fst x)) l2 ->
  ascii a -> bond_ok b -> bi_ltk b <> [] -> r = RBond b.
Proof.
  intros J HJ l1 l2 a b r f H Hok1 Hok2 Hnt Ha Hb Hk.
  assert (Hnf : any_fault no_faults -> False) by (intros (x & []); fail).
  destruct (C46_store_is_a_map J HJ no_faults (fun h => h) _ _ H) as (s & Hl).
  { apply Forall_app. split; [exact Hok1|]. apply Forall_cons; [split; assumption|]. apply Forall_app. split; [exact Hok2|]. apply Forall_cons; [exact I|apply Forall_nil]. }
  apply (legal_flt _ _ _ _ _ Hnf) in Hl.
  apply legal_app_inv in Hl. destruct Hl as (s1 & _ & Hl). cbn [app] in Hl. inversion Hl as [|s2 o r0 s3 l s4 Hs Hl' E]; subst.
  apply legal_app_inv in Hl'. destruct Hl' as (s5 & Hl2 & Hl3).
  cbn [bspec] in Hs. destruct Hs as [(_ & Hs & _)|[(b' & A12 & Eb & _ & (Hs & _))|(Hs & _)]]; [discriminate| |easy]. injection Eb as <-.
  assert (s5 a = Some b) as E5 by (rewrite (untouched a l2 s3 s5 Hl2 Hnt); [exact Hs|intros b' E'; congruence]).
  inversion Hl3 as [|s6 o6 r6 s7 l7 s8 Hs6 Hl7 E6]; subst. cbn [bspec] in Hs6. rewrite E5 in Hs6.
  destruct Hs6 as [(H1 & _)|[(_ & H1 & _)|[(_ & (b' & Eb & _ & ->) & _)|[(_ & (b' & Eb & Ek) & _)|(H1 & _)]]]]; try easy; congruence.
Qed.
Print Assumptions C46_find_returns_last_saved.

(** After a Delete, the address is not found and does not exist, until it is saved again. *)
Theorem C46_deleted_is_gone : forall J, json_ok J -> forall l1 l2 a r e f,
  calls no_faults (bcall J) None (l1 ++ [(BDelete a, RDone)] ++ l2 ++ [(BFind a, r); (BExists a, e)]) f ->
  Forall (fun x => bop_ok (fst x)) l1 -> Forall (fun x => bop_ok (fst x)) l2 -> Forall (fun x => ~ touches a (fst x)) l2 ->
  r = RErr /\ e = RBool false.
Proof.
  intros J HJ l1 l2 a r e f H Hok1 Hok2 Hnt.
  assert (Hnf : any_fault no_faults -> False) by (intros (x & []); fail).
  destruct (C46_store_is_a_map J HJ no_faults (fun h => h) _ _ H) as (s & Hl).
  { apply Forall_app. split; [exact Hok1|]. apply Forall_cons; [exact I|]. apply Forall_app. split; [exact Hok2|].
    apply Forall_cons; [exact I|]. apply Forall_cons; [exact I|apply Forall_nil]. }
  apply (legal_flt _ _ _ _ _ Hnf) in Hl.
  apply legal_app_inv in Hl. destruct Hl as (s1 & _ & Hl). cbn [app] in Hl. inversion Hl as [|s2 o r0 s3 l s4 Hs Hl' E]; subst.
  apply legal_app_inv in Hl'. destruct Hl' as (s5 & Hl2 & Hl3).
  cbn [bspec] in Hs. destruct Hs as [(_ & _ & (Hs & _))|[(_ & Hs & _)|(Hs & _)]]; [|discriminate|easy].
  assert (s5 a = None) as E5 by (rewrite (untouched a l2 s3 s5 Hl2 Hnt); [exact Hs|intros b' E'; congruence]).
  inversion Hl3 as [|s6 o6 r6 s7 l7 s8 Hs6 Hl7 E6]; subst. cbn [bspec] in Hs6. rewrite E5 in Hs6.
  assert (r = RErr /\ same s5 s7) as (-> & Hsame).
  { destruct Hs6 as [(_ & H1 & H2)|[(_ & _ & H1 & H2)|[(_ & (b' & Eb & _) & _)|[(_ & (b' & Eb & _) & _)|(H1 & _)]]]]; easy. }
  split; [reflexivity|]. inversion Hl7 as [|s9 o9 r9 s10 l10 s11 Hs9 Hl10 E9]; subst. cbn [bspec] in Hs9.
  destruct Hs9 as (_ & H12 & Hn12). destruct (Nat.eq_dec (length a) 12) as [E12|E12].
  - destruct (H12 E12) as [(_ & Hc)|(He & _)]; [|exact He]. rewrite (Hsame a), E5 in Hc. now destruct Hc.
  - now apply Hn12.
Qed.
Print Assumptions C46_deleted_is_gone.

(** Calls from many goroutines at once, also across a restart of the process while no call is running: the calls, in the
    order in which they return, behave as calls on one map. Restricted to histories in which no bond without a key is stored, as Find
    rewrites the file holding the lock for reading only when it meets one. *)
Theorem C46_concurrent : forall J, json_ok J -> forall F, write_ok F -> forall h1 g1 h2 g2,
  sruns F block (bbody J) bearly (sys0 None) h1 g1 -> (forall i o m p, sy_thr g1 i <> Some (TRun o m p)) ->
  sruns F block (bbody J) bearly (sys0 (sy_file g1)) h2 g2 ->
  (forall i o, In (EvCall i o) (h1 ++ h2) -> bop_ok o /\ bop_key o) ->
  exists s, legal (bspec (any_fault F)) none (returned h1 ++ returned h2) s.
Proof.
  intros J HJ F HF h1 g1 h2 g2 H1 Hq H2 Hok.
  destruct (conc_spec J HJ F HF None none h1 g1) as (s1 & L1 & R1); [|exact H1| |].
  - split; [split; [discriminate|intro k; reflexivity]|discriminate].
  - intros i o Hin. apply (Hok i). apply in_or_app. now left.
  - destruct (conc_spec J HJ F HF (sy_file g1) s1 h2 g2 (R1 Hq) H2) as (s2 & L2 & _).
    + intros i o Hin. apply (Hok i). apply in_or_app. now right.
    + exists s2. eapply legal_app; eassumption.
Qed.
Print Assumptions C46_concurrent.

(** With a keyless bond stored, a concurrent Find can miss a good bond: the calls return errors both, although the good
    bond was in the file before and is in it after. *)
Theorem C102_concurrent_find_misses_bond_refuted : forall J, json_ok J -> forall a b va vb,
  addr12 a -> addr12 b -> a <> b -> ascii a -> ascii b -> bond_ok va -> bond_ok vb -> bi_ltk va = [] -> bi_ltk vb <> [] ->
  exists f g h, holds J f (fun k => if beq_bytes k a then Some va else if beq_bytes k b then Some vb else None) /\
    sruns no_faults block (bbody J) bearly (sys0 f) h g /\ returned h = [(BFind b, RErr); (BFind a, RErr)] /\
    holds J (sy_file g) (fun k => if beq_bytes k b then Some vb else None).
Proof. exact find_race. Qed.
Print Assumptions C102_concurrent_find_misses_bond_refuted.

(** Exists does not agree with Find: a bond without a key can be saved and exists, but is not found. *)
Theorem C102_exists_disagrees_refuted : forall J, json_ok J -> forall a b, addr12 a -> ascii a -> bond_ok b -> bi_ltk b = [] ->
  exists f, calls no_faults (bcall J) None [(BSave a (Some b), RDone); (BExists a, RBool true); (BFind a, RErr); (BExists a, RBool false)] f.
Proof.
  intros J HJ a b A12 Aa Hb Hk.
  pose (s0 := @none binfo). assert (H0 : holds J None s0) by (split; [discriminate|intro k; reflexivity]).
  assert (Hm0 : forall k, mget k (@nil (bytes * bdata)) = option_map createBondData (s0 k)) by reflexivity.
  pose proof (store_set J HJ None s0 [] a b H0 Hm0 Aa Hb) as H1.
  destruct (holds_load J _ _ H1) as (m & Em & Hm).
  pose proof (store_del J HJ _ _ m a H1 Hm) as H2. destruct (holds_load J _ _ H2) as (m2 & Em2 & Hm2).
  set (d1 := jenc J (mset a (createBondData b) [])) in *. set (d2 := jenc J (mdel a m)) in *.
  assert (B12 : Nat.eqb (length a) 12 = true) by now apply Nat.eqb_eq.
  exists (fexists (Some d2)).
  apply sq_cons with (f1 := Some d1); [|apply sq_cons with (f1 := fexists (Some d1)); [|apply sq_cons with (f1 := Some d2); [|apply sq_cons with (f1 := fexists (Some d2)); [|apply sq_nil]]]].
  - unfold bcall. cbn [block]. rewrite B12. cbn [bbody]. unfold save_body. eapply exec_bind_intro; [apply load_total|].
    eapply exec_bind_intro; [apply WriteFile_total|]. constructor.
  - unfold bcall. cbn [block]. rewrite B12. cbn [bbody]. unfold exists_body. eapply exec_bind_intro; [apply load_total|].
    rewrite Em, Hm. unfold upd_map. rewrite beq_bytes_refl. constructor.
  - unfold bcall. cbn [block]. rewrite B12. cbn [bbody]. unfold find_body. eapply exec_bind_intro; [apply load_total|].
    cbn [fexists] in *. rewrite Em, Hm. unfold upd_map at 1. rewrite beq_bytes_refl. cbn [option_map]. rewrite create_round by exact Hb. rewrite Hk.
    cbn [length Nat.eqb lift pbind]. eapply exec_bind_intro; [apply WriteFile_total|]. constructor.
  - unfold bcall. cbn [block]. rewrite B12. cbn [bbody]. unfold exists_body. eapply exec_bind_intro; [apply load_total|].
    rewrite Em2, Hm2. unfold upd_map at 1. rewrite beq_bytes_refl. constructor.
Qed.
Print Assumptions C102_exists_disagrees_refuted.

(** An edited file can crash the process: an entry whose diversifier is too short. *)
Theorem C102_short_entry_crashes_refuted : forall J d a m bd ltk e r, jdec J d = Some m -> d <> [] -> addr12 a -> mget a m = Some bd ->
  hexdec (bd_ltk bd) = Some ltk -> ltk <> [] -> hexdec (bd_ediv bd) = Some e -> hexdec (bd_rand bd) = Some r -> (length e < 2)%nat ->
  forall F, exec F (bcall J (BFind a)) (Some d) Panic (Some d).
Proof.
  intros J d a m bd ltk e r Hd Hne A12 Hm H1 Hl H2 H3 He F.
  unfold bcall. cbn [block]. rewrite (proj2 (Nat.eqb_eq _ _) A12). cbn [bbody]. unfold find_body. eapply exec_bind_intro; [apply load_total|].
  destruct d as [|z d]; [easy|]. rewrite Hd, Hm. unfold createBondInfo. rewrite H1, H2, H3.
  destruct ltk as [|y ltk]; [easy|]. cbn [length Nat.eqb].
  destruct e as [|e0 [|e1 e]]; [| |cbn [length] in He; lia]; constructor.
Qed.
Print Assumptions C102_short_entry_crashes_refuted.

(** The hypotheses are met. *)
Definition ba : bytes := txt "c0ffee123456".
Definition bb : bytes := txt "0123456789ab".
Definition vb : binfo := mkBI (repeat 7 16) 4660 81985529216486895 false.
Lemma ascii_check : forall s, forallb (fun c => (0 <=? c) && (c <? 128)) s = true -> ascii s.
Proof. intros s H. apply Forall_forall. intros c Hc. rewrite forallb_forall in H. specialize (H c Hc). lia. Qed.
Lemma txt_ascii_ba : ascii ba. Proof. now apply ascii_check. Qed.
Lemma vb_ok : bond_ok vb. Proof. split; [|cbn; lia]. repeat (apply Forall_cons; [unfold is_byte; lia|]). apply Forall_nil. Qed.
Example C46_run_example : exists f, calls no_faults (bcall json_bonds) None [(BSave ba (Some vb), RDone); (BFind bb, RErr); (BFind ba, RBond vb)] f.
Proof.
  exists (Some (jenc json_bonds [(ba, createBondData vb)])).
  eapply sq_cons; [|eapply sq_cons; [|eapply sq_cons; [|apply sq_nil]]].
  - unfold bcall. cbn [block bbody]. unfold save_body. eapply exec_bind_intro; [apply load_total|].
    eapply exec_bind_intro; [apply WriteFile_total|]. constructor.
  - unfold bcall. cbn [block bbody]. unfold find_body. eapply exec_bind_intro; [apply load_total|]. vm_compute. constructor.
  - unfold bcall. cbn [block bbody]. unfold find_body. eapply exec_bind_intro; [apply load_total|]. vm_compute. constructor.
Qed.
Example C46_codec_example : json_ok json_bonds /\ write_ok no_faults /\ bop_ok (BSave ba (Some vb)) /\ bop_key (BSave ba (Some vb)) /\ addr12 ba /\ addr12 bb /\ ba <> bb.
Proof.
  split; [exact json_bonds_ok|]. split; [intro H; exact H|]. split; [split; [exact txt_ascii_ba|exact vb_ok]|]. split; [discriminate|].
  split; [reflexivity|]. split; [reflexivity|discriminate].
Qed.
Example C46_short_entry_example : forall F, let d := jenc json_bonds [(ba, mkBD (txt "00") [] [] false)] in
  exec F (bcall json_bonds (BFind ba)) (Some d) Panic (Some d).
Proof.
  intros F d. apply (C102_short_entry_crashes_refuted json_bonds d ba [(ba, mkBD (txt "00") [] [] false)] (mkBD (txt "00") [] [] false) [0] [] []);
    try reflexivity; try discriminate. cbn. lia.
Qed.

(** Two bonds without a key, looked up at the same time, can cost all bonds: both calls rewrite the file, sharing the lock for reading, and what
    they leave cannot be decoded, so that every call fails from then on. Nothing but two calls of Find takes place, and no system call fails. *)
Definition bc : bytes := txt "fedcba987654".
Definition nokey (legacy : bool) : binfo := mkBI [] 0 0 legacy.
Theorem C102_concurrent_finds_destroy_bonds_refuted : exists J, json_ok J /\ exists s f h g,
  holds J f s /\ s bb = Some vb /\ sruns no_faults block (bbody J) bearly (sys0 f) h g /\ returned h = [(BFind bc, RErr); (BFind ba, RErr)] /\
  (forall i, sy_thr g i = None) /\ unusable J (sy_file g).
Proof.
  exists json_bonds. split; [exact json_bonds_ok|].
  set (s := fun k => if beq_bytes k ba then Some (nokey false) else if beq_bytes k bc then Some (nokey true) else if beq_bytes k bb then Some vb else None).
  set (m0 := mset ba (createBondData (nokey false)) (mset bc (createBondData (nokey true)) (mset bb (createBondData vb) []))).
  assert (Hm0 : forall k, mget k m0 = option_map createBondData (s k)).
  { intro k. unfold m0. rewrite !mget_mset. unfold s. destruct (beq_bytes k ba); [reflexivity|]. destruct (beq_bytes k bc); [reflexivity|]. now destruct (beq_bytes k bb). }
  assert (Hh : holds json_bonds (Some (jenc json_bonds m0)) s).
  { apply holds_store; [exact json_bonds_ok| |exact Hm0]. intros k x. unfold s. destruct (beq_bytes k ba) eqn:E1; [|destruct (beq_bytes k bc) eqn:E2; [|destruct (beq_bytes k bb) eqn:E3; [|discriminate]]].
    - apply beq_bytes_eq in E1. subst k. intro Hx. injection Hx as <-. split; [now apply ascii_check|]. split; [apply Forall_nil|cbn; lia].
    - apply beq_bytes_eq in E2. subst k. intro Hx. injection Hx as <-. split; [now apply ascii_check|]. split; [apply Forall_nil|cbn; lia].
    - apply beq_bytes_eq in E3. subst k. intro Hx. injection Hx as <-. split; [now apply ascii_check|exact vb_ok]. }
  assert (Em : jdec json_bonds (jenc json_bonds m0) = Some m0) by (vm_compute; reflexivity).
  destruct (finds_overlap json_bonds (jenc json_bonds m0) m0 ba bc (nokey false) (nokey true) Em) as (h & g & R & Rh & Q & F).
  - discriminate.
  - reflexivity.
  - reflexivity.
  - reflexivity.
  - reflexivity.
  - split; [apply Forall_nil|cbn; lia].
  - split; [apply Forall_nil|cbn; lia].
  - reflexivity.
  - reflexivity.
  - exists s, (Some (jenc json_bonds m0)), h, g. split; [exact Hh|]. split; [reflexivity|]. split; [exact R|]. split; [exact Rh|]. split; [exact Q|]. rewrite F.
    apply corrupt_unusable; [vm_compute; discriminate|vm_compute; reflexivity].
Qed.
Print Assumptions C102_concurrent_finds_destroy_bonds_refuted.

(** * C47: crashes *)

(** If the process dies anywhere in a call (or a write fails), then afterwards the file holds the old bonds, the new bonds,
    no bonds, or cannot be used any more. Partial: the last two must not happen. *)
Theorem C47_crash_outcomes_partial : forall J, json_ok J -> forall F s f o g, bop_ok o -> holds J f s -> crash F (bcall J o) f g ->
  holds J g s \/ (exists r s', bspec False s o r s' /\ holds J g s') \/ holds J g none \/ unusable J g.
Proof. exact crash_cases. Qed.
Print Assumptions C47_crash_outcomes_partial.

(** Looking up never loses anything: only a crash in Save, in Delete, or in a Find that meets a keyless bond can. *)
Theorem C47_lookups_are_safe : forall J, json_ok J -> forall F s f o g, holds J f s ->
  (exists a, o = BExists a \/ o = BFind a /\ forall b, s a = Some b -> bi_ltk b <> []) ->
  crash F (bcall J o) f g -> holds J g s.
Proof.
  intros J HJ F s f o g Hs (a & Ho) H.
  assert (Hret : forall (r : bres) h, crash F (PRet r) h g -> g = h) by (intros r h Hq; now inversion Hq).
  assert (Hl : forall (p : option (list (bytes * bdata)) -> prog bres),
     (forall h, crash F (p None) h g -> g = h) ->
     (forall m h, (forall k, mget k m = option_map createBondData (s k)) -> crash F (p (Some m)) h g -> g = h) ->
     crash F (pbind (loadBonds J) p) f g -> holds J g s).
  { intros p Hn Hm Hp. apply crash_bind in Hp. destruct Hp as [Hp|(l & f1 & H1 & H2)].
    - apply load_crash in Hp. now apply (load_keeps J f s).
    - apply load_exec in H1. destruct H1 as (Hf & Hl). assert (g = f1) as ->; [|now apply (load_keeps J f s)].
      destruct Hl as [(_ & Hl)|(_ & Hl)]; injection Hl as ->; [|now apply Hn].
      destruct (holds_load J f s Hs) as (m & Em & Hm'). rewrite Em in H2. now apply (Hm m). }
  destruct Ho as [->|(-> & Hk)]; unfold bcall in H; cbn [block bearly bbody] in H; (destruct (Nat.eqb (length a) 12); [|apply Hret in H; now subst g]).
  - apply Hl in H; [exact H|intros h Hh; now apply Hret in Hh|intros m h _ Hh; now apply Hret in Hh].
  - apply Hl in H; [exact H|intros h Hh; now apply Hret in Hh|]. intros m h Hm Hh. rewrite Hm in Hh.
    destruct (s a) as [b|] eqn:Es; cbn [option_map] in Hh; [|now apply Hret in Hh].
    assert (bond_ok b) as Hb by (destruct Hs as (Hok & _); now apply (Hok a)). rewrite create_round in Hh by exact Hb.
    specialize (Hk b eq_refl). destruct (bi_ltk b); [easy|]. cbn [length Nat.eqb lift pbind] in Hh. now apply Hret in Hh.
Qed.
Print Assumptions C47_lookups_are_safe.

(** A crash during a save can lose every bond: afterwards no address is found, and nothing tells so. *)
Theorem C47_crash_loses_all_bonds_refuted : forall J, json_ok J -> forall s f a b x vx, addr12 a -> ascii a -> bond_ok b -> holds J f s ->
  s x = Some vx -> exists g, crash no_faults (bcall J (BSave a (Some b))) f g /\
    forall r f', exec no_faults (bcall J (BFind x)) g r f' -> r = Ret RErr.
Proof.
  intros J HJ s f a b x vx A12 Aa Hb Hs Hx. destruct (save_crash_prefix J no_faults s f a b A12 Hs) as (m & _ & Hc).
  exists (Some []). split; [now apply (Hc [] _ eq_refl)|]. intros r f' H.
  destruct (call_spec J HJ no_faults (fun h => h) none (Some []) (BFind x) r f' I (holds_empty J) H) as (r' & s' & -> & Hsp & _).
  cbn [bspec] in Hsp. f_equal.
  destruct Hsp as [(_ & H1 & _)|[(_ & _ & H1 & _)|[(_ & (b' & Eb & _) & _)|[(_ & (b' & Eb & _) & _)|(_ & H1 & _)]]]]; easy.
Qed.
Print Assumptions C47_crash_loses_all_bonds_refuted.

(** Or it can leave a file on which every call fails from then on, also Save and Delete. *)
Theorem C47_crash_makes_store_unusable_refuted : forall J, json_ok J -> forall s f a b, addr12 a -> ascii a -> bond_ok b -> holds J f s ->
  (forall m, (2 <= length (jenc J m))%nat) ->
  exists g, crash no_faults (bcall J (BSave a (Some b))) f g /\ unusable J g.
Proof.
  intros J HJ s f a b A12 Aa Hb Hs Hlen. destruct (save_crash_prefix J no_faults s f a b A12 Hs) as (m & Hm & Hc).
  destruct (jenc J (mset a (createBondData b) m)) as [|z [|y d]] eqn:E; [specialize (Hlen (mset a (createBondData b) m)); rewrite E in Hlen; cbn in Hlen; lia
    |specialize (Hlen (mset a (createBondData b) m)); rewrite E in Hlen; cbn in Hlen; lia|].
  exists (Some [z]). split; [now apply (Hc [z] (y :: d))|]. apply corrupt_unusable; [discriminate|].
  destruct HJ as (_ & _ & H3). apply (H3 (mset a (createBondData b) m) [z] (y :: d)); [|exact E|discriminate|discriminate].
  intros k v Hk. rewrite mget_mset in Hk. destruct (beq_bytes k a) eqn:Ek.
  - apply beq_bytes_eq in Ek. injection Hk as <-. subst k. split; [exact Aa|now apply data_ascii].
  - now apply (map_ascii m s (proj1 Hs) Hm).
Qed.
Print Assumptions C47_crash_makes_store_unusable_refuted.

Example C47_hypotheses_met : exists f, holds json_bonds f (upd_map none ba (Some vb)) /\ upd_map none ba (Some vb) ba = Some vb /\
  (forall m, (2 <= length (jenc json_bonds m))%nat) /\
  (forall x, crash no_faults (bcall json_bonds (BSave bb (Some vb))) x x).
Proof.
  exists (Some (jenc json_bonds (mset ba (createBondData vb) []))). split; [|split; [|split]].
  - apply (store_set json_bonds json_bonds_ok None none []); [split; [discriminate|intro k; reflexivity]|reflexivity|exact txt_ascii_ba|exact vb_ok].
  - unfold upd_map. now rewrite beq_bytes_refl.
  - intro m. cbn [jenc json_bonds]. unfold enc_map, pr_map. cbn [length]. destruct (uniq [] m) as [|e l]; cbn [pr_entries length]; [lia|].
    pose proof (pr_entry_len pr_bd e). destruct l; rewrite app_length; lia.
  - intro x. apply cr_here.
Qed.

(** * C48: the GATT profile cache is a map *)

(** Calls one after the other on a fresh cache return what a map from addresses to profiles returns. Clear of a cache that
    holds nothing yet is an error. *)
Theorem C48_cache_is_a_map : forall V (J : ccodec V) okv, cjson_ok J okv -> forall F, write_ok F -> forall l f,
  calls F (cbody J) None l f -> Forall (fun x => cop_ok okv (fst x)) l -> exists s, legal (cspec (any_fault F)) None l s.
Proof.
  intros V J okv HJ F HF l f H Hok. destruct (cseq_spec J okv HJ F HF None l f H Hok None) as (s & Hl & _); [|now exists s].
  split; [discriminate|exact I].
Qed.
Print Assumptions C48_cache_is_a_map.

(** None of them crashes, whatever system calls fail. *)
Theorem C48_no_crash : forall V (J : ccodec V) okv, cjson_ok J okv -> forall F, write_ok F -> forall l f o x f',
  calls F (cbody J) None l f -> Forall (fun x => cop_ok okv (fst x)) l -> cop_ok okv o -> exec F (cbody J o) f x f' -> x <> Panic.
Proof.
  intros V J okv HJ F HF l f o x f' H Hok Ho Hx. destruct (cseq_spec J okv HJ F HF None l f H Hok None) as (s & _ & Hs).
  - split; [discriminate|exact I].
  - exact (cexec_no_panic J okv F s f o x f' Ho Hs Hx).
Qed.
Print Assumptions C48_no_crash.

(** From many goroutines at once, and across restarts: in the order in which the calls return they behave as calls on one map. *)
Theorem C48_concurrent : forall V (J : ccodec V) okv, cjson_ok J okv -> forall F, write_ok F -> forall h1 g1 h2 g2,
  sruns F clock (cbody J) (fun _ => CErr) (sys0 None) h1 g1 -> (forall i o m p, sy_thr g1 i <> Some (TRun o m p)) ->
  sruns F clock (cbody J) (fun _ => CErr) (sys0 (sy_file g1)) h2 g2 ->
  (forall i o, In (EvCall i o) (h1 ++ h2) -> cop_ok okv o) ->
  exists s, legal (cspec (any_fault F)) None (returned h1 ++ returned h2) s.
Proof.
  intros V J okv HJ F HF h1 g1 h2 g2 H1 Hq H2 Hok.
  destruct (cconc_spec J okv HJ F HF None None h1 g1) as (s1 & L1 & R1); [|exact H1| |].
  - split; [discriminate|exact I].
  - intros i o Hin. apply (Hok i). apply in_or_app. now left.
  - destruct (cconc_spec J okv HJ F HF (sy_file g1) s1 h2 g2 (R1 Hq) H2) as (s2 & L2 & _).
    + intros i o Hin. apply (Hok i). apply in_or_app. now right.
    + exists s2. eapply legal_app; eassumption.
Qed.
Print Assumptions C48_concurrent.

(** Load returns the profile last stored, as long as it is neither replaced nor cleared. *)
Definition ctouches {V} (k : bytes) (o : cop V) : Prop := match o with CStore k' _ _ => k' = k | CClear => True | CLoad _ => False end.

Lemma cuntouched : forall V k (l : list (cop V * cres V)) s s', legal (cspec False) s l s' -> Forall (fun x => ~ ctouches k (fst x)) l -> look s' k = look s k.
Proof.
  intros V k l s s' H. induction H as [s|s o r s1 l s2 H1 H2 IH]; intro Hn; [reflexivity|].
  apply Forall_cons_iff in Hn. destruct Hn as [Ho Hn]. cbn [fst] in Ho. rewrite IH by exact Hn.
  destruct o as [k' p rep|k'|]; cbn [cspec ctouches] in *; [| |now destruct Ho].
  - destruct H1 as [(_ & _ & m' & -> & (_ & H))|[(_ & _ & _ & ->)|(H & _)]]; [|reflexivity|easy]. cbn [look]. apply H. congruence.
  - destruct H1 as (-> & _). reflexivity.
Qed.

Lemma clegal_flt : forall V (P Q : Prop) (s : option (pmap V)) l s', (P -> Q) -> legal (cspec P) s l s' -> legal (cspec Q) s l s'.
Proof.
  intros V P Q s l s' HPQ H. induction H as [s|s o r s1 l s2 H1 H2 IH]; [constructor|]. econstructor; [|exact IH].
  destruct o as [k p rep|k|]; cbn [cspec] in *; tauto.
Qed.

Theorem C48_load_returns_last_stored : forall V (J : ccodec V) okv, cjson_ok J okv -> forall l1 l2 k p rep r f,
  calls no_faults (cbody J) None (l1 ++ [(CStore k p rep, CDone)] ++ l2 ++ [(CLoad k, r)]) f ->
  Forall (fun x => cop_ok okv (fst x)) l1 -> Forall (fun x => cop_ok okv (fst x)) l2 -> Forall (fun x => ~ ctouches k (fst x)) l2 ->
  ascii k -> okv p -> r = CProfile p.
Proof.
  intros V J okv HJ l1 l2 k p rep r f H Hok1 Hok2 Hnt Hk Hp.
  assert (Hnf : any_fault no_faults -> False) by (intros (x & []); fail).
  destruct (C48_cache_is_a_map V J okv HJ no_faults (fun h => h) _ _ H) as (s & Hl).
  { apply Forall_app. split; [exact Hok1|]. apply Forall_cons; [split; assumption|]. apply Forall_app. split; [exact Hok2|]. apply Forall_cons; [exact I|apply Forall_nil]. }
  apply (clegal_flt _ _ _ _ _ _ Hnf) in Hl.
  apply legal_app_inv in Hl. destruct Hl as (s1 & _ & Hl). cbn [app] in Hl. inversion Hl as [|s2 o r0 s3 l s4 Hs Hl' E]; subst.
  apply legal_app_inv in Hl'. destruct Hl' as (s5 & Hl2 & Hl3).
  cbn [cspec] in Hs. destruct Hs as [(_ & _ & m' & -> & (Hs & _))|[(_ & _ & Hs & _)|(Hs & _)]]; [|discriminate|easy].
  pose proof (cuntouched V k l2 _ _ Hl2 Hnt) as E5. cbn [look] in E5. rewrite Hs in E5.
  inversion Hl3 as [|s6 o6 r6 s7 l7 s8 Hs6 Hl7 E6]; subst. cbn [cspec] in Hs6. rewrite E5 in Hs6.
  destruct Hs6 as (_ & [(p' & Ep & ->)|[(H1 & _)|(H1 & _)]]); [congruence|discriminate|easy].
Qed.
Print Assumptions C48_load_returns_last_stored.

(** After a Clear nothing is found, until it is stored again. *)
Theorem C48_cleared_is_gone : forall V (J : ccodec V) okv, cjson_ok J okv -> forall l1 l2 k r f,
  calls no_faults (cbody J) None (l1 ++ [(CClear, CDone)] ++ l2 ++ [(CLoad k, r)]) f ->
  Forall (fun x => cop_ok okv (fst x)) l1 -> Forall (fun x => cop_ok okv (fst x)) l2 ->
  Forall (fun x => ~ ctouches k (fst x)) l2 -> r = CErr.
Proof.
  intros V J okv HJ l1 l2 k r f H Hok1 Hok2 Hnt.
  assert (Hnf : any_fault no_faults -> False) by (intros (x & []); fail).
  destruct (C48_cache_is_a_map V J okv HJ no_faults (fun h => h) _ _ H) as (s & Hl).
  { apply Forall_app. split; [exact Hok1|]. apply Forall_cons; [exact I|]. apply Forall_app. split; [exact Hok2|]. apply Forall_cons; [exact I|apply Forall_nil]. }
  apply (clegal_flt _ _ _ _ _ _ Hnf) in Hl.
  apply legal_app_inv in Hl. destruct Hl as (s1 & _ & Hl). cbn [app] in Hl. inversion Hl as [|s2 o r0 s3 l s4 Hs Hl' E]; subst.
  apply legal_app_inv in Hl'. destruct Hl' as (s5 & Hl2 & Hl3).
  cbn [cspec] in Hs. destruct Hs as [(_ & _ & ->)|[(_ & Hs & _)|(Hs & _)]]; [|discriminate|easy].
  pose proof (cuntouched V k l2 _ _ Hl2 Hnt) as E5. cbn [look] in E5.
  inversion Hl3 as [|s6 o6 r6 s7 l7 s8 Hs6 Hl7 E6]; subst. cbn [cspec] in Hs6. rewrite E5 in Hs6.
  destruct Hs6 as (_ & [(p' & Ep & _)|[(_ & H1)|(H1 & _)]]); [discriminate|exact H1|easy].
Qed.
Print Assumptions C48_cleared_is_gone.

(** A cache file that holds the JSON value null crashes Store (assignment to a nil map). *)
Theorem C103_null_file_crashes_refuted : forall V (J : ccodec V) d k p rep F, cdec J d = Some None ->
  exec F (cbody J (CStore k p rep)) (Some d) Panic (Some d).
Proof.
  intros V J d k p rep F H. cbn [cbody]. unfold store_body. eapply exec_bind_intro; [apply cload_total|]. cbn [cread]. rewrite H. constructor.
Qed.
Print Assumptions C103_null_file_crashes_refuted.

(** A profile that cannot be encoded (one with handler functions in it) is not stored: the call returns an error and the cache is
    as before; only a cache file holding null (C103) crashes first. *)
Theorem C48_unencodable_profile : forall V (J : ccodec V) F f k p rep x f',
  (forall m, mget k m = Some p -> cenc J m = None) -> (forall d, f = Some d -> cdec J d <> Some None) ->
  exec F (cbody J (CStore k p rep)) f x f' -> x = Ret CErr /\ f' = f.
Proof.
  intros V J F f k p rep x f' NE NN H. cbn [cbody] in H. unfold store_body in H. apply exec_bind in H.
  destruct H as [(l & f1 & H1 & H2)|(H1 & _)]; apply cload_exec in H1; destruct H1 as (-> & Hl).
  - destruct Hl as [Hl|(_ & Hl)]; injection Hl as ->; [|inversion H2; subst; auto].
    destruct (cread J f) as [[m|]|] eqn:E.
    + cbv zeta in H2. destruct (_ && _)%bool; [inversion H2; subst; auto|]. unfold storeCache in H2. rewrite (NE (mset k p m)) in H2 by (rewrite mget_mset, beq_bytes_refl; reflexivity).
      inversion H2; subst; auto.
    + exfalso. destruct f as [d|]; [exact (NN d eq_refl E)|discriminate E].
    + inversion H2; subst; auto.
  - destruct Hl as [Hl|(_ & Hl)]; discriminate.
Qed.
Print Assumptions C48_unencodable_profile.
Example C48_unencodable_example : let J := mkC (V := unit) (fun m => match m with [] => Some [] | _ => None end) (fun _ => Some (Some [])) in
  (forall m, mget ba m = Some tt -> cenc J m = None) /\ (forall d, Some [] = Some d -> cdec J d <> Some None) /\ exec no_faults (cbody J (CStore ba tt true)) (Some []) (Ret CErr) (Some []).
Proof.
  cbn [cenc cdec]. split; [intros [|x m]; [discriminate|reflexivity]|]. split; [discriminate|]. cbn [cbody]. unfold store_body.
  eapply exec_bind_intro; [apply cload_total|]. cbn. constructor.
Qed.

Example C48_codec_example : cjson_ok json_texts ascii /\ cop_ok ascii (CStore ba bb true).
Proof. split; [exact json_texts_ok|]. split; [exact txt_ascii_ba|now apply ascii_check]. Qed.
Example C48_run_example : exists f, calls no_faults (cbody json_texts) None
  [(CClear, CErr); (CStore ba bb false, CDone); (CStore ba ba false, CErr); (CLoad ba, CProfile bb); (CStore ba ba true, CDone); (CLoad ba, CProfile ba); (CClear, CDone); (CLoad ba, CErr)] f.
Proof.
  exists None.
  eapply sq_cons; [cbn [cbody]; unfold clear_body; econstructor; [apply io_remove_none|constructor]|].
  eapply sq_cons; [cbn [cbody]; unfold store_body; eapply exec_bind_intro; [apply cload_total|]; eapply exec_bind_intro; [apply WriteFile_total|constructor]|].
  eapply sq_cons; [cbn [cbody]; unfold store_body; eapply exec_bind_intro; [apply cload_total|]; vm_compute; constructor|].
  eapply sq_cons; [cbn [cbody]; unfold load_body; eapply exec_bind_intro; [apply cload_total|]; vm_compute; constructor|].
  eapply sq_cons; [cbn [cbody]; unfold store_body; eapply exec_bind_intro; [apply cload_total|];
     replace (cread json_texts _) with (Some (Some [(ba, bb)])) by (vm_compute; reflexivity); eapply exec_bind_intro; [apply WriteFile_total|constructor]|].
  eapply sq_cons; [cbn [cbody]; unfold load_body; eapply exec_bind_intro; [apply cload_total|]; vm_compute; constructor|].
  eapply sq_cons; [cbn [cbody]; unfold clear_body; econstructor; [apply io_remove|constructor]|].
  eapply sq_cons; [cbn [cbody]; unfold load_body; eapply exec_bind_intro; [apply cload_total|]; constructor|].
  apply sq_nil.
Qed.

(** * C53: the cache after a crash *)

(** Afterwards the cache holds the old profiles, the new ones, or cannot be read: then every Load and Store fails, and so
    never returns another profile. That it stays usable is C105. *)
Theorem C53_crash_outcomes : forall V (J : ccodec V) okv, cjson_ok J okv -> forall F s f o g,
  cop_ok okv o -> cholds J okv f s -> crash F (cbody J o) f g ->
  cholds J okv g s \/ (exists r s', cspec False s o r s' /\ cholds J okv g s') \/
  (forall F' o' x f', o' <> CClear -> exec F' (cbody J o') g x f' -> x = Ret CErr /\ f' = g).
Proof.
  intros V J okv HJ F s f o g Ho Hs H. destruct (ccrash_cases J okv HJ F s f o g Ho Hs H) as [H1|[H1|H1]]; [now left|right; now left|right; right].
  intros F' o' x f' Hn Hx. now apply (cbroken_calls J F' g o' x f' H1 Hx).
Qed.
Print Assumptions C53_crash_outcomes.

(** A crash in Store can leave a cache that never works again, until it is cleared. *)
Theorem C105_crash_breaks_the_cache_refuted : forall V (J : ccodec V) okv, cjson_ok J okv -> forall s f k p,
  ascii k -> okv p -> cholds J okv f s -> (forall m, cenc J m <> Some []) ->
  exists g, crash no_faults (cbody J (CStore k p true)) f g /\
    forall F' o' x f', o' <> CClear -> exec F' (cbody J o') g x f' -> x = Ret CErr /\ f' = g.
Proof.
  intros V J okv HJ s f k p Hk Hp Hs Hne. destruct (cholds_read J okv f s Hs) as (m & Em & Hm).
  destruct (cstore_holds J okv HJ f s m k p Hs Hm Hk Hp) as (d & Ed & Hd & Hda).
  exists (Some []). split.
  - cbn [cbody]. unfold store_body. eapply crash_bind_intro; [apply cload_total|]. rewrite Em. cbv zeta. rewrite andb_false_r.
    unfold storeCache. rewrite Ed. econstructor; [apply io_trunc|]. apply cr_here.
  - intros F' o' x f' Hn Hx. apply (cbroken_calls J F' (Some []) o' x f'); [|exact Hx|exact Hn].
    exists []. split; [reflexivity|]. destruct HJ as (_ & H2). apply (H2 _ d [] d Hda Ed eq_refl). intro E. subst d. now apply Hne in Ed.
Qed.
Print Assumptions C105_crash_breaks_the_cache_refuted.

(** Clear repairs it: whatever the file holds, it is empty afterwards. *)
Theorem C53_clear_repairs : forall V (J : ccodec V) okv d x f',
  exec no_faults (cbody J CClear) (Some d) x f' -> x = Ret CDone /\ f' = None /\ cholds J okv f' None.
Proof.
  intros V J okv d x f' H. cbn [cbody] in H. unfold clear_body in H. inversion H as [| |c0 k0 f0 r f1 x0 f2 Hio Hk]; subst.
  inversion Hio as [| | | | | | | | | | | | | | |]; subst; [|easy]. inversion Hk; subst. split; [reflexivity|]. split; [reflexivity|]. split; [discriminate|exact I].
Qed.
Print Assumptions C53_clear_repairs.

Example C53_hypotheses_met : cholds json_texts ascii None None /\ (forall m, cenc json_texts m <> Some []).
Proof. split; [split; [discriminate|exact I]|]. discriminate. Qed.

(** * C54: discovery through the cache *)

(** Without force, a cached profile is returned without asking the peer. *)
Theorem C54_cached_profile_is_used : forall V (J : ccodec V) okv, cjson_ok J okv -> forall s f a p disc x f',
  cholds J okv f s -> look s a = Some p ->
  exec no_faults (DiscoverAndCacheProfile J true false a disc) f x f' -> x = Ret (mkDR (Some p) false false) /\ f' = f.
Proof.
  intros V J okv HJ s f a p disc x f' Hs Hp H. unfold DiscoverAndCacheProfile in H. cbn [negb andb] in H.
  apply exec_bind in H. destruct H as [(r & f1 & H1 & H2)|(H1 & H2)]; (destruct (load_body_spec J okv no_faults s f a _ _ Hs H1) as (-> & r' & Er & Hr)); [|discriminate].
  injection Er as <-. destruct Hr as [(p' & Ep & ->)|[(E & _)|((z & []) & _)]]; [|congruence]. inversion H2; subst. split; [congruence|reflexivity].
Qed.
Print Assumptions C54_cached_profile_is_used.

(** Otherwise the peer is asked; what is discovered is returned and is what the cache holds from then on, for this address only. *)
Theorem C54_discovered_profile_is_cached : forall V (J : ccodec V) okv, cjson_ok J okv -> forall s f a p force x f',
  cholds J okv f s -> ascii a -> okv p -> (force = true \/ look s a = None) ->
  exec no_faults (DiscoverAndCacheProfile J true force a (Some p)) f x f' ->
  x = Ret (mkDR (Some p) false true) /\ exists m, puts a p (look s) m /\ cholds J okv f' (Some m).
Proof.
  intros V J okv HJ s f a p force x f' Hs Ha Hp Hf H. unfold DiscoverAndCacheProfile in H.
  assert (Hd : forall f1, f1 = f -> exec no_faults (do r <- store_body J a p true; PRet (mkDR (Some p) (match r with CDone => false | _ => true end) true)) f1 x f' ->
     x = Ret (mkDR (Some p) false true) /\ exists m, puts a p (look s) m /\ cholds J okv f' (Some m)).
  { intros f1 -> Hx. apply exec_bind in Hx. destruct Hx as [(r & f2 & H1 & H2)|(H1 & _)].
    - inversion H2; subst. destruct (ccall_spec J okv HJ no_faults (fun h => h) s f (CStore a p true) r f' (conj Ha Hp) Hs H1) as (s' & Hsp & Hs').
      cbn [cspec] in Hsp. destruct Hsp as [(_ & -> & m & -> & Hm)|[(_ & E & _)|((z & []) & _)]]; [|discriminate].
      split; [reflexivity|]. now exists m.
    - exfalso. exact (cexec_no_panic J okv no_faults s f (CStore a p true) Panic f' (conj Ha Hp) Hs H1 eq_refl). }
  destruct force; cbn [negb andb] in H; [now apply (Hd f)|]. destruct Hf as [Hf|Hf]; [discriminate|].
  apply exec_bind in H. destruct H as [(r & f1 & H1 & H2)|(H1 & H2)]; (destruct (load_body_spec J okv no_faults s f a _ _ Hs H1) as (-> & r' & Er & Hr)); [|discriminate].
  injection Er as <-. destruct Hr as [(p' & Ep & ->)|[(_ & ->)|((z & []) & _)]]; [congruence|]. now apply (Hd f).
Qed.
Print Assumptions C54_discovered_profile_is_cached.

(** A failed discovery leaves the cache as it was. *)
Theorem C54_failed_discovery : forall V (J : ccodec V) okv, cjson_ok J okv -> forall s f a force x f',
  cholds J okv f s -> (force = true \/ look s a = None) ->
  exec no_faults (DiscoverAndCacheProfile J true force a None) f x f' -> x = Ret (mkDR None true true) /\ f' = f.
Proof.
  intros V J okv HJ s f a force x f' Hs Hf H. unfold DiscoverAndCacheProfile in H.
  destruct force; cbn [negb andb] in H; [inversion H; subst; now split|]. destruct Hf as [Hf|Hf]; [discriminate|].
  apply exec_bind in H. destruct H as [(r & f1 & H1 & H2)|(H1 & H2)]; (destruct (load_body_spec J okv no_faults s f a _ _ Hs H1) as (-> & r' & Er & Hr)); [|discriminate].
  injection Er as <-. destruct Hr as [(p' & Ep & ->)|[(_ & ->)|((z & []) & _)]]; [congruence|]. inversion H2; subst. now split.
Qed.
Print Assumptions C54_failed_discovery.

(** Without a cache the call crashes once discovery has succeeded. *)
Theorem C106_no_cache_crashes_refuted : forall V (J : ccodec V) force a p f,
  exec no_faults (DiscoverAndCacheProfile J false force a (Some p)) f Panic f.
Proof. intros V J force a p f. unfold DiscoverAndCacheProfile. rewrite andb_false_r. constructor. Qed.
Print Assumptions C106_no_cache_crashes_refuted.
