Require Import Verif.Base Verif.M_h4 Verif.S_h4.

Definition start (x : Z) : bool := (x =? 4) || (x =? 2).

(** correspondence of implementation and specification states *)
Definition open_part (p : bytes) : Prop :=
  exists x r, p = x :: r /\ (x = 4 \/ x = 2) /\ match announced p with Some n => (length p < n)%nat | None => True end.
Definition corr (f : frame) (d : dec) : Prop :=
  fr_b f = d_part d /\
  match d_part d with
  | [] => fr_to f = None
  | x :: _ => open_part (d_part d) /\ fr_evt f = x /\ fr_to f = Some (d_since d + 500)
  end.

Lemma announced_head : forall p n, announced p = Some n -> exists x r, p = x :: r /\ (x = 4 \/ x = 2).
Proof.
  intros p n H. destruct p as [|x r]; [discriminate|]. exists x, r. split; [reflexivity|].
  unfold announced in H. destruct x as [|q|q]; try discriminate.
  destruct q as [q|q|]; try discriminate; destruct q as [q|q|]; try discriminate; auto; destruct q; try discriminate; auto.
Qed.
Lemma announced_4 : forall r, announced (4 :: r) = match r with _ :: n :: _ => Some (Z.to_nat n + 3)%nat | _ => None end.
Proof. reflexivity. Qed.
Lemma announced_2 : forall r, announced (2 :: r) = match r with _ :: _ :: l0 :: l1 :: _ => Some (Z.to_nat (l0 + 256 * l1) + 5)%nat | _ => None end.
Proof. reflexivity. Qed.
Lemma announced_app : forall p q n, announced p = Some n -> announced (p ++ q) = Some n.
Proof.
  intros p q n H. destruct (announced_head p n H) as (x & r & -> & [->| ->]); cbn [app].
  - rewrite announced_4 in *. destruct r as [|a [|b r]]; try discriminate. exact H.
  - rewrite announced_2 in *. destruct r as [|a [|b [|c [|e r]]]]; try discriminate. exact H.
Qed.
(** when the length first becomes known, it exceeds what is there or is exactly it *)
Lemma announced_first : forall p x n, announced p = None -> announced (p ++ [x]) = Some n -> (length (p ++ [x]) <= n)%nat.
Proof.
  intros p x n H1 H2. destruct (announced_head _ _ H2) as (y & r & E & Hy).
  destruct p as [|z p]; [cbn in *; injection E as -> <-; destruct Hy as [->| ->]; discriminate H2|].
  cbn [app] in E. injection E as -> <-. cbn [app] in *.
  destruct Hy as [->| ->].
  - rewrite announced_4 in *. destruct p as [|a [|b p]]; cbn [app] in *; try discriminate; injection H2 as <-; cbn [length]; lia.
  - rewrite announced_2 in *. destruct p as [|a [|b [|c [|e p]]]]; cbn [app] in *; try discriminate; injection H2 as <-; cbn [length]; lia.
Qed.

(** the implementation's frame() in terms of [announced] *)
Lemma fr_frame_spec : forall f x r, fr_b f = x :: r -> fr_evt f = x -> (x = 4 \/ x = 2) ->
  fr_frame f = Ret (match announced (fr_b f) with
                    | None => None
                    | Some n => if Nat.ltb (length (fr_b f)) n then None else Some (firstn n (fr_b f)) end).
Proof.
  intros f x r Eb Ee Hx. unfold fr_frame.
  assert (HD : data_length f = Ret (announced (fr_b f))).
  { unfold data_length, acl_length, event_length. rewrite Ee, Eb. destruct Hx as [->| ->].
    - change (4 =? 2) with false. change (4 =? 4) with true. rewrite announced_4. cbv iota.
      destruct r as [|a [|b r]]; reflexivity.
    - change (2 =? 2) with true. rewrite announced_2. cbv iota. destruct r as [|a [|b [|c [|e r]]]]; reflexivity. }
  rewrite HD. cbn [gbind]. destruct (announced (fr_b f)) as [n|]; [|reflexivity].
  destruct (Nat.ltb (length (fr_b f)) n) eqn:E; [reflexivity|].
  rewrite gslice_ok by lia. cbn [gbind skipn]. now rewrite Nat.sub_0_r.
Qed.

Definition at_t (t : Z) (b : bytes) : list (Z * Z) := map (fun x => (t, x)) b.

Lemma dec_run_app : forall a d b, dec_run d (a ++ b) =
  let '(d1, o1) := dec_run d a in let '(d2, o2) := dec_run d1 b in (d2, o1 ++ o2).
Proof.
  induction a as [|[t x] a IH]; intros d b; cbn [app dec_run].
  - destruct (dec_run d b); reflexivity.
  - destruct (dec_byte d t x) as [d1 o1]. rewrite IH. destruct (dec_run d1 a) as [d2 o2].
    destruct (dec_run d2 b) as [d3 o3]. now rewrite app_assoc.
Qed.

(** bytes of an unfinished packet accumulate *)
Lemma dec_accumulate : forall b p t0 t, open_part p -> t <= t0 + 500 ->
  (match announced (p ++ b) with Some n => (length (p ++ b) < n)%nat | None => True end) ->
  dec_run (mkDec p t0) (at_t t b) = (mkDec (p ++ b) t0, []) /\ open_part (p ++ b).
Proof.
  induction b as [|x b IH]; intros p t0 t Hp Ht Hn.
  - cbn. rewrite app_nil_r in *. auto.
  - cbn [at_t map dec_run]. destruct Hp as (y & r & -> & Hy & Hann).
    assert (HE : dec_byte (mkDec (y :: r) t0) t x = (mkDec ((y :: r) ++ [x]) t0, [])).
    { unfold dec_byte. cbn [d_since d_part]. replace (t0 + 500 <? t) with false by lia.
      destruct (announced ((y :: r) ++ [x])) as [n|] eqn:E; [|reflexivity].
      destruct (Nat.eqb n (length ((y :: r) ++ [x]))) eqn:En; [|reflexivity].
      assert (E2 := announced_app _ b _ E). rewrite <- app_assoc in E2. cbn [app] in E2. cbn [app] in Hn. rewrite E2 in Hn.
      apply Nat.eqb_eq in En. rewrite En in Hn. cbn [length] in Hn. rewrite !app_length in Hn. cbn [length] in Hn. lia. }
    rewrite HE.
    assert (Ho : open_part ((y :: r) ++ [x])).
    { exists y, (r ++ [x]). split; [reflexivity|]. split; [exact Hy|].
      destruct (announced ((y :: r) ++ [x])) as [n|] eqn:E; [|exact I].
      assert (E2 := announced_app _ b _ E). rewrite <- app_assoc in E2. cbn [app] in E2, Hn. rewrite E2 in Hn.
      cbn [length] in *. rewrite !app_length in *. cbn [length] in *. lia. }
    specialize (IH ((y :: r) ++ [x]) t0 t Ho Ht). rewrite <- app_assoc in IH. cbn [app] in IH, Hn. specialize (IH Hn).
    fold (at_t t b). cbn [app]. destruct IH as [I1 I2]. rewrite I1. split; [reflexivity|exact I2].
Qed.

(** a packet completes exactly at its announced length *)
Lemma dec_complete : forall b p t0 t n, open_part p -> t <= t0 + 500 ->
  announced (p ++ b) = Some n -> (n <= length (p ++ b))%nat -> all_bytes (p ++ b) ->
  dec_run (mkDec p t0) (at_t t b) =
  (let '(d, o) := dec_run (mkDec [] t) (at_t t (skipn n (p ++ b))) in (d, firstn n (p ++ b) :: o)).
Proof.
  induction b as [|x b IH]; intros p t0 t n Hp Ht Hn Hle Hb.
  - exfalso. rewrite app_nil_r in *. destruct Hp as (y & r & -> & _ & Hann). rewrite Hn in Hann. lia.
  - cbn [at_t map dec_run]. destruct Hp as (y & r & -> & Hy & Hann).
    replace ((y :: r) ++ x :: b) with (((y :: r) ++ [x]) ++ b) in * by (now rewrite <- app_assoc).
    unfold dec_byte. cbn [d_since d_part]. replace (t0 + 500 <? t) with false by lia.
    set (q := (y :: r) ++ [x]) in *.
    destruct (announced q) as [m|] eqn:E.
    + assert (E2 := announced_app _ b _ E). rewrite Hn in E2. injection E2 as <-.
      destruct (Nat.eqb n (length q)) eqn:En.
      * apply Nat.eqb_eq in En. rewrite En, skipn_app_exact, firstn_app_exact. fold (at_t t b).
        destruct (dec_run (mkDec [] t) (at_t t b)). reflexivity.
      * fold (at_t t b).
        assert (Ho : open_part q).
        { exists y, (r ++ [x]). split; [reflexivity|]. split; [exact Hy|]. rewrite E.
          destruct (announced (y :: r)) as [k|] eqn:Ek.
          - assert (E3 := announced_app _ [x] _ Ek). fold q in E3. rewrite E in E3. injection E3 as ->.
            unfold q in *. rewrite app_length in *. cbn [length] in *. lia.
          - assert (E3 := announced_first (y :: r) x n Ek E). fold q in E3. lia. }
        rewrite (IH q t0 t n Ho Ht Hn Hle Hb). destruct (dec_run (mkDec [] t) (at_t t (skipn n (q ++ b)))). reflexivity.
    + fold (at_t t b).
      assert (Ho : open_part q) by (exists y, (r ++ [x]); split; [reflexivity|]; split; [exact Hy|]; now rewrite E).
      rewrite (IH q t0 t n Ho Ht Hn Hle Hb). destruct (dec_run (mkDec [] t) (at_t t (skipn n (q ++ b)))). reflexivity.
Qed.

(** looking for the start byte *)
Lemma find_start_spec : forall b i, 
  match find_start b i with
  | None => Forall (fun x => start x = false) b
  | Some (j, v) => exists g r, b = g ++ v :: r /\ j = (i + length g)%nat /\ start v = true /\ Forall (fun x => start x = false) g
  end.
Proof.
  induction b as [|x b IH]; intro i; cbn [find_start]; [constructor|].
  destruct ((x =? 4) || (x =? 2))%bool eqn:E.
  - exists [], b. split; [reflexivity|]. split; [cbn; lia|]. split; [exact E|constructor].
  - specialize (IH (S i)). destruct (find_start b (S i)) as [[j v]|].
    + destruct IH as (g & r & -> & -> & Hv & Hg). exists (x :: g), r. split; [reflexivity|]. split; [cbn; lia|].
      split; [exact Hv|]. constructor; assumption.
    + constructor; assumption.
Qed.
Lemma dec_garbage : forall g t t0 , Forall (fun x => start x = false) g ->
  exists t1, dec_run (mkDec [] t0) (at_t t g) = (mkDec [] t1, []).
Proof.
  induction g as [|x g IH]; intros t t0 H; cbn [at_t map dec_run]; [eauto|].
  inversion H as [|? ? Hx Hg]; subst. unfold dec_byte. cbn [d_part d_since].
  replace (if t0 + 500 <? t then [] else []) with (@nil Z) by (destruct (t0 + 500 <? t); reflexivity).
  unfold start in Hx. rewrite Hx. fold (at_t t g). destruct (IH t t Hg) as [t1 E]. rewrite E. eauto.
Qed.

Lemma start_cases : forall v, start v = true -> v = 4 \/ v = 2.
Proof. unfold start. intros v H. lia. Qed.
Lemma dec_first : forall v t t0, start v = true -> dec_byte (mkDec [] t0) t v = (mkDec [v] t, []).
Proof.
  intros v t t0 H. unfold dec_byte. cbn [d_part d_since].
  replace (if t0 + 500 <? t then [] else []) with (@nil Z) by (destruct (t0 + 500 <? t); reflexivity).
  unfold start in H. now rewrite H.
Qed.
Lemma open_single : forall v, start v = true -> open_part [v].
Proof. intros v H. exists v, []. split; [reflexivity|]. split; [now apply start_cases|]. destruct (start_cases v H) as [->| ->]; exact I. Qed.

(** the part of Assemble after the buffer has been extended *)
Lemma assemble_refines : forall fuel f d now b, corr f d -> all_bytes (d_part d ++ b) ->
  (length (fr_b f) + length b < fuel)%nat ->
  exists f', assemble fuel f now b = Ret (f', snd (dec_run d (at_t now b))) /\ corr f' (fst (dec_run d (at_t now b)))
    /\ all_bytes (fr_b f').
Proof.
  induction fuel as [|fuel IH]; intros f d now b Hc Hb Hf; [lia|]. cbn [assemble].
  destruct b as [|b0 b1]; [exists f; cbn; destruct Hc as [Hc1 Hc2]; rewrite app_nil_r in Hb; rewrite Hc1; repeat split; auto|].
  set (b := b0 :: b1) in *.
  destruct d as [p t0]. cbn [d_part d_since] in *. destruct Hc as [Eb Hc]. cbn [d_part d_since] in *.
  (* common tail *)
  assert (TAIL : forall f2 q tq v r, fr_b f2 = q -> q = v :: r -> fr_evt f2 = v -> (v = 4 \/ v = 2) -> fr_to f2 = Some (tq + 500) ->
     all_bytes q -> (length q <= length p + length b)%nat -> now <= tq + 500 ->
     forall pre suf, q = pre ++ suf -> open_part pre ->
     exists f', (let! r0 := fr_frame f2 in
        match r0 with
        | Some rf => if Nat.ltb (length rf) (length (fr_b f2)) then
             let! rem := gfrom (fr_b f2) (length rf) in let! x := assemble fuel (fr_reset f2) now rem in Ret (fst x, rf :: snd x)
             else Ret (fr_reset f2, [rf])
        | None => Ret (f2, [])
        end) = Ret (f', snd (dec_run (mkDec pre tq) (at_t now suf))) /\ corr f' (fst (dec_run (mkDec pre tq) (at_t now suf))) /\ all_bytes (fr_b f')).
  { intros f2 q tq v r E1 E2 E3 E4 E5 E6 E7 E8 pre suf E9 E10.
    rewrite (fr_frame_spec f2 v r) by congruence. rewrite E1. cbn [gbind].
    destruct (announced q) as [n|] eqn:En.
    - destruct (Nat.ltb (length q) n) eqn:El.
      + destruct (dec_accumulate suf pre tq now E10 E8) as [A1 A2]; [rewrite <- E9, En; lia|].
        rewrite A1. exists f2. split; [reflexivity|]. split; [|congruence]. cbn [fst]. rewrite <- E9 in *.
        split; [exact E1|]. cbn [d_part d_since]. rewrite E2. rewrite <- E2. auto.
      + rewrite (dec_complete suf pre tq now n E10 E8) by (rewrite <- ?E9; auto; lia). rewrite <- E9.
        assert (Hn3 : (3 <= n)%nat).
        { rewrite E2 in En. destruct E4 as [->| ->]; [rewrite announced_4 in En; destruct r as [|? [|? ?]]; try discriminate; injection En as <-; lia|].
          rewrite announced_2 in En; destruct r as [|? [|? [|? [|? ?]]]]; try discriminate; injection En as <-; lia. }
        assert (Hl : length (firstn n q) = n) by (rewrite firstn_length; lia). rewrite Hl.
        destruct (Nat.ltb n (length q)) eqn:El2.
        * rewrite gfrom_ok by lia. cbn [gbind].
          destruct (IH (fr_reset f2) (mkDec [] now) now (skipn n q)) as (f' & F1 & F2 & F3).
          -- split; [reflexivity|]. reflexivity.
          -- cbn [app d_part]. now apply Forall_skipn.
          -- cbn [fr_reset fr_b length]. rewrite skipn_length. rewrite Eb in Hf. lia.
          -- rewrite F1. cbn [gbind fst snd]. destruct (dec_run (mkDec [] now) (at_t now (skipn n q))) as [d' o']. cbn [fst snd] in *.
             exists f'. auto.
        * rewrite skipn_all2 by lia. cbn. exists (fr_reset f2). split; [reflexivity|]. split; [split; reflexivity|constructor].
    - destruct (dec_accumulate suf pre tq now E10 E8) as [A1 A2]; [rewrite <- E9, En; exact I|].
      rewrite A1. exists f2. split; [reflexivity|]. split; [|congruence]. cbn [fst]. rewrite <- E9 in *.
      split; [exact E1|]. cbn [d_part d_since]. rewrite E2. rewrite <- E2. auto. }
  (* starting from an empty buffer *)
  assert (EMPTY : forall f1 t1, fr_b f1 = [] -> fr_to f1 = None -> all_bytes b ->
     exists f', (let! w := wait_start f1 now b in
       match w with None => Ret (f1, []) | Some f2 => let! r0 := fr_frame f2 in
        match r0 with
        | Some rf => if Nat.ltb (length rf) (length (fr_b f2)) then
             let! rem := gfrom (fr_b f2) (length rf) in let! x := assemble fuel (fr_reset f2) now rem in Ret (fst x, rf :: snd x)
             else Ret (fr_reset f2, [rf])
        | None => Ret (f2, [])
        end end) = Ret (f', snd (dec_run (mkDec [] t1) (at_t now b))) /\ corr f' (fst (dec_run (mkDec [] t1) (at_t now b))) /\ all_bytes (fr_b f')).
  { intros f1 t1 E1 E2 Hbb. unfold wait_start. assert (HS := find_start_spec b 0).
    destruct (find_start b 0) as [[j v]|].
    - destruct HS as (g & r & Eb' & -> & Hv & Hg). cbn [Nat.add]. rewrite gfrom_ok by (rewrite Eb', app_length; lia).
      replace (skipn (length g) b) with (v :: r) by (rewrite Eb'; symmetry; apply skipn_app_exact). rewrite E1. cbn [app gbind].
      unfold at_t. rewrite Eb', map_app. fold (at_t now g). rewrite dec_run_app.
      destruct (dec_garbage g now t1 Hg) as [t2 Eg]. rewrite Eg. cbn [map dec_run].
      rewrite (dec_first v now t2 Hv). cbn [app].
      destruct (TAIL (mkFrame (v :: r) (Some (now + 500)) v) (v :: r) now v r) with (pre := [v]) (suf := r) as (f' & F1 & F2 & F3); auto.
      + now apply start_cases.
      + rewrite Eb' in Hbb. apply Forall_app in Hbb. apply Hbb.
      + rewrite Eb', app_length. lia.
      + lia.
      + now apply open_single.
      + fold (at_t now r). cbn [fr_b] in *. rewrite F1. destruct (dec_run (mkDec [v] now) (at_t now r)). cbn [fst snd] in *. exists f'. auto.
    - cbn [gbind]. destruct (dec_garbage b now t1 HS) as [t2 Eg]. rewrite Eg. exists f1. cbn [fst snd].
      split; [reflexivity|]. split; [split; cbn; auto|]. rewrite E1. constructor. }
  assert (Hbb : all_bytes b) by (apply Forall_app in Hb; apply Hb).
  destruct p as [|x r].
  - rewrite Hc. cbn [app]. rewrite Eb. apply EMPTY; auto.
  - destruct Hc as (Ho & Ev & Et). rewrite Et.
    destruct (t0 + 500 <? now) eqn:Elate.
    + cbn [fr_reset fr_b]. 
      destruct (EMPTY (fr_reset f) t0 eq_refl eq_refl Hbb) as (f' & F1 & F2 & F3).
      exists f'. rewrite F1. clear TAIL EMPTY F1 IH.
      assert (EQ : dec_run (mkDec (x :: r) t0) (at_t now b) = dec_run (mkDec [] t0) (at_t now b)).
      { unfold b. cbn [at_t map dec_run]. unfold dec_byte. cbn [d_part d_since]. now rewrite Elate. }
      rewrite EQ. auto.
    + rewrite Eb. cbn [gbind].
      destruct Ho as (x' & r' & Ex & Hx & Hann). injection Ex as <- <-.
      destruct (TAIL (mkFrame ((x :: r) ++ b) (Some (t0 + 500)) x) ((x :: r) ++ b) t0 x (r ++ b)) with (pre := x :: r) (suf := b) as (f' & F1 & F2 & F3); auto.
      * rewrite app_length. lia.
      * lia.
      * exists x, r. auto.
      * rewrite Ev, ?Et. exists f'. repeat split; try assumption; apply F2.
Qed.

Lemma Assemble_refines : forall f d now b, corr f d -> all_bytes (fr_b f) -> all_bytes b ->
  exists f', Assemble f now b = Ret (f', snd (dec_run d (at_t now b))) /\ corr f' (fst (dec_run d (at_t now b))) /\ all_bytes (fr_b f').
Proof.
  intros f d now b Hc Hf Hb. apply assemble_refines; auto. destruct Hc as [<- _]. apply Forall_app. auto.
Qed.

Lemma rx_run_refines : forall chunks f d, corr f d -> all_bytes (fr_b f) -> Forall (fun c => all_bytes (snd c)) chunks ->
  exists f', rx_run f chunks = Ret (f', snd (dec_run d (timed chunks))) /\ corr f' (fst (dec_run d (timed chunks))).
Proof.
  induction chunks as [|[t b] r IH]; intros f d Hc Hf HF; cbn [rx_run timed flat_map].
  - exists f. cbn. auto.
  - inversion HF as [|? ? Hb HF']; subst. cbn [fst snd] in *.
    destruct (Assemble_refines f d t b Hc Hf Hb) as (f1 & E1 & C1 & B1). rewrite E1. cbn [gbind fst snd].
    fold (at_t t b). fold (timed r). rewrite dec_run_app.
    destruct (dec_run d (at_t t b)) as [d1 o1]. cbn [fst snd] in *.
    destruct (IH f1 d1 C1 B1 HF') as (f2 & E2 & C2). rewrite E2. cbn [gbind fst snd].
    destruct (dec_run d1 (timed r)) as [d2 o2]. cbn [fst snd] in *. exists f2. auto.
Qed.
Lemma corr0 : corr new_frame dec0. Proof. split; reflexivity. Qed.

(** ---- the byte-level decoder delivers exactly the packets of a well-formed stream ---- *)
Lemma dec_garbage_t : forall g t0, Forall (fun tx => snd tx <> 2 /\ snd tx <> 4) g ->
  exists t1, dec_run (mkDec [] t0) g = (mkDec [] t1, []).
Proof.
  induction g as [|[t x] g IH]; intros t0 H; cbn [dec_run]; [eauto|].
  inversion H as [|? ? Hx Hg]; subst. unfold dec_byte. cbn [d_part d_since snd] in *.
  replace (if t0 + 500 <? t then [] else []) with (@nil Z) by (destruct (t0 + 500 <? t); reflexivity).
  replace ((x =? 4) || (x =? 2))%bool with false by lia. destruct (IH t Hg) as [t1 E]. rewrite E. eauto.
Qed.
Lemma announced_packet : forall p, h4_packet p -> announced p = Some (length p) /\ exists x r, p = x :: r /\ (x = 4 \/ x = 2) /\ (2 <= length r)%nat.
Proof.
  intros p H. destruct H as [code params H|h0 h1 data H].
  - split; [rewrite announced_4; f_equal; cbn [length]; lia|]. eexists _, _. split; [reflexivity|]. cbn [length]. split; [auto|lia].
  - split.
    + rewrite announced_2. unfold le16. cbn [app]. f_equal. cbn [length]. unfold u8. lia.
    + eexists _, _. split; [reflexivity|]. split; [auto|]. cbn [length app]. lia.
Qed.
Lemma announced_strict : forall a b n, announced (a ++ b) = Some n -> (length (a ++ b) = n) -> b <> [] ->
  match announced a with Some m => (length a < m)%nat | None => True end.
Proof.
  intros a b n H1 H2 H3. destruct (announced a) as [m|] eqn:E; [|exact I].
  assert (E2 := announced_app a b m E). rewrite H1 in E2. injection E2 as <-.
  rewrite app_length in H2. destruct b; [congruence|cbn [length] in H2; lia].
Qed.
Lemma dec_packet : forall s pre t0, s <> [] -> pre <> [] ->
  announced (pre ++ map snd s) = Some (length (pre ++ map snd s)) -> 
  Forall (fun tx => fst tx <= t0 + 500) s ->
  exists t1, dec_run (mkDec pre t0) s = (mkDec [] t1, [pre ++ map snd s]).
Proof.
  induction s as [|[t x] s IH]; intros pre t0 Hs Hp Ha Ht; [congruence|].
  cbn [dec_run]. unfold dec_byte. cbn [d_part d_since]. inversion Ht as [|? ? Htx Ht']; subst. cbn [fst] in Htx.
  replace (t0 + 500 <? t) with false by lia. cbn [map snd] in *.
  destruct pre as [|y pre]; [congruence|].
  destruct s as [|tx s].
  - cbn [map] in *. rewrite Ha. rewrite Nat.eqb_refl. cbn [dec_run]. eauto.
  - replace ((y :: pre) ++ x :: map snd (tx :: s)) with (((y :: pre) ++ [x]) ++ map snd (tx :: s)) in * by now rewrite <- app_assoc.
    assert (H := announced_strict _ _ _ Ha eq_refl ltac:(discriminate)).
    set (q := (y :: pre) ++ [x]) in *.
    assert (HE : (match announced q with Some n => if Nat.eqb n (length q) then (mkDec [] t, [q]) else (mkDec q t0, []) | None => (mkDec q t0, []) end) = (mkDec q t0, [])).
    { destruct (announced q) as [m|]; [|reflexivity]. replace (Nat.eqb m (length q)) with false by lia. reflexivity. }
    rewrite HE. destruct (IH q t0) as [t1 E]; auto; [discriminate|unfold q; discriminate|]. rewrite E. eauto.
Qed.
Lemma packet_stream_decodes : forall s ps, packet_stream s ps -> forall t0, exists t1, dec_run (mkDec [] t0) s = (mkDec [] t1, ps).
Proof.
  intros s ps H. induction H as [g Hg|g s p ps rest Hg Hp Em Ht Hr IH]; intro t0.
  - destruct (dec_garbage_t g t0 Hg) as [t1 E]. eauto.
  - destruct (dec_garbage_t g t0 Hg) as [t1 E]. rewrite dec_run_app, E.
    destruct (announced_packet p Hp) as (Ha & x & r & Ep & Hx & Hl).
    destruct s as [|[t y] s]; [cbn in Em; subst p; discriminate|]. cbn [map snd] in Em. 
    assert (Ey : y = x) by congruence. subst y. assert (Er : map snd s = r) by congruence.
    specialize (Ht t x s eq_refl).
    cbn [app dec_run]. rewrite (dec_first x t t1) by (unfold start; lia).
    rewrite dec_run_app.
    destruct (dec_packet s [x] t) as [t2 E2]; [| discriminate | | exact Ht|].
    + intro C. subst s. cbn in Er. subst r. cbn in Hl. lia.
    + rewrite Er. cbn [app]. rewrite <- Ep. exact Ha.
    + rewrite E2. destruct (IH t2) as [t3 E3]. rewrite E3. cbn [app]. exists t3. rewrite Er, <- Ep. reflexivity.
Qed.
