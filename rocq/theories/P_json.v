(** A concrete JSON writer and reader for maps, showing that [json_ok] and [cjson_ok] can be met: the writer makes the text
    encoding/json makes for map[string]bondData (with ASCII strings); the reader accepts exactly such compact text. *)
Require Import Verif.S_store Verif.P_store Verif.P_bond Verif.S_uuid Verif.P_uuid.
Require Import String.
Export List ListNotations.
Open Scope Z_scope.

Fixpoint txt (s : string) : bytes :=
  match s with EmptyString => [] | String c r => Z.of_nat (Ascii.nat_of_ascii c) :: txt r end.

(** ** Strings *)
Definition pr_ch (c : Z) : bytes :=
  if c =? 34 then [92; 34] else if c =? 92 then [92; 92] else
  if c =? 10 then [92; 110] else if c =? 13 then [92; 114] else if c =? 9 then [92; 116] else
  if (c <? 32) || (c =? 60) || (c =? 62) || (c =? 38) then [92; 117; 48; 48; hex_digit (c / 16); hex_digit (c mod 16)] else [c].
Definition pr_str (s : bytes) : bytes := 34 :: flat_map pr_ch s ++ [34].

Definition put_ch (c : Z) (x : option (bytes * bytes)) : option (bytes * bytes) :=
  match x with Some (s, r) => Some (c :: s, r) | None => None end.
(** what follows a backslash: the character and the rest *)
Definition unesc (s : bytes) : option (Z * bytes) :=
  match s with
  | 34 :: r => Some (34, r)
  | 92 :: r => Some (92, r)
  | 110 :: r => Some (10, r)
  | 114 :: r => Some (13, r)
  | 116 :: r => Some (9, r)
  | 117 :: 48 :: 48 :: h1 :: h2 :: r => match from_hex h1, from_hex h2 with Some a, Some b => Some (16 * a + b, r) | _, _ => None end
  | _ => None
  end.
Fixpoint pa_body (n : nat) (s : bytes) : option (bytes * bytes) :=
  match n with
  | O => None
  | S n' =>
    match s with
    | [] => None
    | c :: r =>
      if c =? 34 then Some ([], r) else
      if c =? 92 then match unesc r with Some (x, r') => put_ch x (pa_body n' r') | None => None end
      else put_ch c (pa_body n' r)
    end
  end.
Definition pa_str (s : bytes) : option (bytes * bytes) :=
  match s with c :: r => if c =? 34 then pa_body (length r) r else None | [] => None end.

(** A reader [pa] of values written by [pr]. *)
Record good {V} (ok : V -> Prop) (pr : V -> bytes) (pa : bytes -> option (V * bytes)) : Prop := {
  g_round : forall v r, ok v -> pa (pr v ++ r) = Some (v, r);
  g_local : forall s v r q, pa s = Some (v, r) -> pa (s ++ q) = Some (v, r ++ q);
  g_less : forall s v r, pa s = Some (v, r) -> (length r < length s)%nat }.

Lemma unesc_local : forall s x r q, unesc s = Some (x, r) -> unesc (s ++ q) = Some (x, r ++ q).
Proof.
  intros s x r q H. unfold unesc in *.
  repeat match goal with
  | H : match ?a with _ => _ end = Some _ |- _ => destruct a eqn:?; try discriminate; cbn [app] in *
  end; try (injection H as <- <-; reflexivity).
Qed.
Lemma unesc_less : forall s x r, unesc s = Some (x, r) -> (length r < length s)%nat.
Proof.
  intros s x r H. unfold unesc in *.
  repeat match goal with
  | H : match ?a with _ => _ end = Some _ |- _ => destruct a eqn:?; try discriminate
  end; injection H as <- <-; cbn [length]; lia.
Qed.

Lemma pa_body_less : forall n s v r, pa_body n s = Some (v, r) -> (length r < length s)%nat.
Proof.
  induction n as [|n IH]; intros s v r H; [discriminate|]. cbn [pa_body] in H. destruct s as [|c s]; [discriminate|].
  destruct (c =? 34); [injection H as <- <-; cbn; lia|]. destruct (c =? 92).
  - destruct (unesc s) as [[x r']|] eqn:E; [|discriminate]. apply unesc_less in E. unfold put_ch in H.
    destruct (pa_body n r') as [[s1 r1]|] eqn:E2; [|discriminate]. injection H as <- <-. apply IH in E2. cbn [length]. lia.
  - unfold put_ch in H. destruct (pa_body n s) as [[s1 r1]|] eqn:E2; [|discriminate]. injection H as <- <-. apply IH in E2. cbn [length]. lia.
Qed.

Lemma pa_body_local : forall n s v r q k, pa_body n s = Some (v, r) -> pa_body (n + k) (s ++ q) = Some (v, r ++ q).
Proof.
  induction n as [|n IH]; intros s v r q k H; [discriminate|]. cbn [pa_body Nat.add] in *. destruct s as [|c s]; [discriminate|]. cbn [app].
  destruct (c =? 34); [injection H as <- <-; reflexivity|]. destruct (c =? 92).
  - destruct (unesc s) as [[x r']|] eqn:E; [|discriminate]. rewrite (unesc_local _ _ _ q E). unfold put_ch in *.
    destruct (pa_body n r') as [[s1 r1]|] eqn:E2; [|discriminate]. injection H as <- <-. now rewrite (IH _ _ _ q k E2).
  - unfold put_ch in *. destruct (pa_body n s) as [[s1 r1]|] eqn:E2; [|discriminate]. injection H as <- <-. now rewrite (IH _ _ _ q k E2).
Qed.

Lemma from_hex_digit : forall v, 0 <= v < 16 -> from_hex (hex_digit v) = Some v.
Proof. intros v H. now apply from_hex_spec, hex_digit_ok. Qed.

Lemma pa_body_round : forall s r n, ascii s -> (length (flat_map pr_ch s) < n)%nat -> pa_body n (flat_map pr_ch s ++ 34 :: r) = Some (s, r).
Proof.
  induction s as [|c s IH]; intros r n Ha Hn; cbn [flat_map app] in *.
  - destruct n; [lia|]. reflexivity.
  - apply Forall_cons_iff in Ha. destruct Ha as [Hc Ha]. rewrite app_length in Hn.
    assert (Hx : (0 < length (pr_ch c))%nat -> exists n', n = S n' /\ (length (flat_map pr_ch s) < n')%nat).
    { intros Hp. destruct n as [|n']; [lia|]. exists n'. split; [reflexivity|lia]. }
    destruct Hx as (n' & -> & Hn').
    { clear. unfold pr_ch. repeat match goal with |- context [if ?b then _ else _] => destruct b end; cbn; lia. }
    specialize (IH r n' Ha Hn'). rewrite <- app_assoc. set (fs := flat_map pr_ch s) in *. clearbody fs. unfold pr_ch.
    destruct (c =? 34) eqn:E1; [apply Z.eqb_eq in E1; subst c; cbn [app pa_body Z.eqb Pos.eqb unesc]; now rewrite IH|].
    destruct (c =? 92) eqn:E2; [apply Z.eqb_eq in E2; subst c; cbn [app pa_body Z.eqb Pos.eqb unesc]; now rewrite IH|].
    destruct (c =? 10) eqn:E3; [apply Z.eqb_eq in E3; subst c; cbn [app pa_body Z.eqb Pos.eqb unesc]; now rewrite IH|].
    destruct (c =? 13) eqn:E4; [apply Z.eqb_eq in E4; subst c; cbn [app pa_body Z.eqb Pos.eqb unesc]; now rewrite IH|].
    destruct (c =? 9) eqn:E5; [apply Z.eqb_eq in E5; subst c; cbn [app pa_body Z.eqb Pos.eqb unesc]; now rewrite IH|].
    destruct ((c <? 32) || (c =? 60) || (c =? 62) || (c =? 38)) eqn:E6.
    + cbn [app pa_body Z.eqb Pos.eqb unesc]. rewrite !from_hex_digit by lia. rewrite IH. cbn [put_ch].
      now replace (16 * (c / 16) + c mod 16) with c by lia.
    + cbn [app pa_body]. rewrite E1, E2, IH. reflexivity.
Qed.

Lemma good_str : good ascii pr_str pa_str.
Proof.
  split.
  - intros v r Hv. unfold pr_str. cbn [app pa_str Z.eqb Pos.eqb]. rewrite <- app_assoc. cbn [app].
    apply pa_body_round; [exact Hv|]. rewrite app_length. cbn [length]. lia.
  - intros s v r q H. unfold pa_str in *. destruct s as [|c s]; [discriminate|]. cbn [app]. destruct (c =? 34); [|discriminate].
    rewrite app_length. now apply pa_body_local.
  - intros s v r H. unfold pa_str in *. destruct s as [|c s]; [discriminate|]. destruct (c =? 34); [|discriminate].
    apply pa_body_less in H. cbn [length]. lia.
Qed.

(** ** Fixed text *)
Fixpoint strip (l s : bytes) : option bytes :=
  match l, s with
  | [], _ => Some s
  | a :: l', b :: s' => if a =? b then strip l' s' else None
  | _ :: _, [] => None
  end.
Lemma strip_app : forall l r, strip l (l ++ r) = Some r.
Proof. induction l as [|a l IH]; intro r; [reflexivity|]. cbn [strip app]. now rewrite Z.eqb_refl. Qed.
Lemma strip_local : forall l s r q, strip l s = Some r -> strip l (s ++ q) = Some (r ++ q).
Proof.
  induction l as [|a l IH]; intros s r q H; cbn [strip] in *; [now injection H as <-|].
  destruct s as [|b s]; [discriminate|]. cbn [app]. destruct (a =? b); [now apply IH|discriminate].
Qed.
Lemma strip_len : forall l s r, strip l s = Some r -> (length r + length l = length s)%nat.
Proof.
  induction l as [|a l IH]; intros s r H; cbn [strip] in *; [injection H as <-; cbn; lia|].
  destruct s as [|b s]; [discriminate|]. destruct (a =? b); [|discriminate]. apply IH in H. cbn [length]. lia.
Qed.

(** ** Bond data *)
Definition t1 := txt "{""longTermKey"":".
Definition t2 := txt ",""encryptionDiversifier"":".
Definition t3 := txt ",""randomValue"":".
Definition t4 := txt ",""legacy"":true}".
Definition t5 := txt ",""legacy"":false}".

Definition pr_bd (d : bdata) : bytes :=
  t1 ++ pr_str (bd_ltk d) ++ t2 ++ pr_str (bd_ediv d) ++ t3 ++ pr_str (bd_rand d) ++ (if bd_legacy d then t4 else t5).
Definition ob {A B} (x : option A) (f : A -> option B) : option B := match x with Some a => f a | None => None end.
Definition pa_bd (s : bytes) : option (bdata * bytes) :=
  ob (strip t1 s) (fun s => ob (pa_str s) (fun '(a, s) => ob (strip t2 s) (fun s => ob (pa_str s) (fun '(b, s) =>
  ob (strip t3 s) (fun s => ob (pa_str s) (fun '(c, s) =>
  match strip t4 s with Some r => Some (mkBD a b c true, r) | None =>
  match strip t5 s with Some r => Some (mkBD a b c false, r) | None => None end end)))))).

Lemma ob_inv : forall {A B} (x : option A) (f : A -> option B) y, ob x f = Some y -> exists a, x = Some a /\ f a = Some y.
Proof. intros A B [a|] f y H; [now exists a|discriminate]. Qed.

Lemma strip_t4_t5 : forall r, strip t4 (t5 ++ r) = None. Proof. reflexivity. Qed.
Lemma strip_t4_t5_local : forall s r q, strip t4 s = None -> strip t5 s = Some r -> strip t4 (s ++ q) = None.
Proof.
  intros s r q H4 H5. assert (s = t5 ++ r) as ->; [|rewrite <- app_assoc; apply strip_t4_t5].
  clear H4. revert s r H5. generalize t5 as l0. induction l0 as [|a l IH]; intros s r H; cbn [strip] in H; [now injection H as <-|].
  destruct s as [|b s]; [discriminate|]. destruct (a =? b) eqn:E; [|discriminate]. apply Z.eqb_eq in E. subst b. cbn [app]. f_equal. now apply IH.
Qed.

Lemma good_bd : good ascii_bd pr_bd pa_bd.
Proof.
  destruct good_str as [R L N]. split.
  - intros v r (H1 & H2 & H3). unfold pr_bd, pa_bd.
    rewrite <- !app_assoc. rewrite strip_app. cbn [ob]. rewrite R by exact H1. cbn [ob]. rewrite strip_app. cbn [ob].
    rewrite R by exact H2. cbn [ob]. rewrite strip_app. cbn [ob]. rewrite R by exact H3. cbn [ob].
    destruct v as [a b c [|]]; cbn [bd_legacy bd_ltk bd_ediv bd_rand].
    + now rewrite strip_app.
    + now rewrite strip_t4_t5, strip_app.
  - intros s v r q H. unfold pa_bd in *.
    apply ob_inv in H. destruct H as (s1 & E1 & H). apply ob_inv in H. destruct H as ([a s2] & E2 & H).
    apply ob_inv in H. destruct H as (s3 & E3 & H). apply ob_inv in H. destruct H as ([b s4] & E4 & H).
    apply ob_inv in H. destruct H as (s5 & E5 & H). apply ob_inv in H. destruct H as ([c s6] & E6 & H).
    rewrite (strip_local _ _ _ q E1). cbn [ob]. rewrite (L _ _ _ q E2). cbn [ob]. rewrite (strip_local _ _ _ q E3). cbn [ob].
    rewrite (L _ _ _ q E4). cbn [ob]. rewrite (strip_local _ _ _ q E5). cbn [ob]. rewrite (L _ _ _ q E6). cbn [ob].
    destruct (strip t4 s6) as [r4|] eqn:E7.
    + injection H as <- <-. now rewrite (strip_local _ _ _ q E7).
    + destruct (strip t5 s6) as [r5|] eqn:E8; [|discriminate]. injection H as <- <-.
      rewrite (strip_t4_t5_local _ _ q E7 E8). now rewrite (strip_local _ _ _ q E8).
  - intros s v r H. unfold pa_bd in *.
    apply ob_inv in H. destruct H as (s1 & E1 & H). apply ob_inv in H. destruct H as ([a s2] & E2 & H).
    apply ob_inv in H. destruct H as (s3 & E3 & H). apply ob_inv in H. destruct H as ([b s4] & E4 & H).
    apply ob_inv in H. destruct H as (s5 & E5 & H). apply ob_inv in H. destruct H as ([c s6] & E6 & H).
    apply strip_len in E1, E3, E5. apply N in E2, E4, E6.
    assert (length r <= length s6)%nat; [|lia].
    destruct (strip t4 s6) as [r4|] eqn:E7.
    + injection H as <- <-. apply strip_len in E7. lia.
    + destruct (strip t5 s6) as [r5|] eqn:E8; [|discriminate]. injection H as <- <-. apply strip_len in E8. lia.
Qed.

(** ** Maps *)
Section Maps.
Context {V : Type} (ok : V -> Prop) (pr : V -> bytes) (pa : bytes -> option (V * bytes)) (G : good ok pr pa).

Definition pr_entry (e : bytes * V) : bytes := pr_str (fst e) ++ 58 :: pr (snd e).
Fixpoint pr_entries (m : list (bytes * V)) : bytes :=
  match m with [] => [125] | [e] => pr_entry e ++ [125] | e :: m' => pr_entry e ++ 44 :: pr_entries m' end.
Definition pr_map (m : list (bytes * V)) : bytes := 123 :: pr_entries m.

Definition pa_entry (s : bytes) : option ((bytes * V) * bytes) :=
  ob (pa_str s) (fun '(k, s) => ob (strip [58] s) (fun s => ob (pa s) (fun '(v, s) => Some ((k, v), s)))).
Fixpoint pa_entries (n : nat) (s : bytes) : option (list (bytes * V) * bytes) :=
  match n with
  | O => None
  | S n' =>
    ob (pa_entry s) (fun '(e, s) =>
      match s with
      | 125 :: r => Some ([e], r)
      | 44 :: r => ob (pa_entries n' r) (fun '(m, r) => Some (e :: m, r))
      | _ => None
      end)
  end.
Definition pa_map_in (s : bytes) : option (list (bytes * V) * bytes) :=
  match s with
  | 123 :: 125 :: r => Some ([], r)
  | 123 :: r => pa_entries (length r) r
  | _ => None
  end.
Definition pa_map (s : bytes) : option (list (bytes * V)) := match pa_map_in s with Some (m, []) => Some m | _ => None end.

Lemma good_entry : good (fun e => ascii (fst e) /\ ok (snd e)) pr_entry pa_entry.
Proof.
  destruct good_str as [R L N]. destruct G as [R' L' N']. split.
  - intros [k v] r [H1 H2]. unfold pr_entry, pa_entry. cbn [fst snd]. rewrite <- app_assoc. rewrite R by exact H1. cbn [ob app strip Z.eqb Pos.eqb].
    now rewrite R' by exact H2.
  - intros s [k v] r q H. unfold pa_entry in *. apply ob_inv in H. destruct H as ([k1 s1] & E1 & H). apply ob_inv in H. destruct H as (s2 & E2 & H).
    apply ob_inv in H. destruct H as ([v1 s3] & E3 & H). rewrite (L _ _ _ q E1). cbn [ob]. rewrite (strip_local _ _ _ q E2). cbn [ob].
    rewrite (L' _ _ _ q E3). cbn [ob]. now injection H as <- <- <-.
  - intros s [k v] r H. unfold pa_entry in *. apply ob_inv in H. destruct H as ([k1 s1] & E1 & H). apply ob_inv in H. destruct H as (s2 & E2 & H).
    apply ob_inv in H. destruct H as ([v1 s3] & E3 & H). apply N in E1. apply strip_len in E2. apply N' in E3. injection H as <- <- <-. lia.
Qed.

Lemma pa_entries_local : forall n s m r q k, pa_entries n s = Some (m, r) -> pa_entries (n + k) (s ++ q) = Some (m, r ++ q).
Proof.
  induction n as [|n IH]; intros s m r q k H; [discriminate|]. cbn [pa_entries Nat.add] in *.
  apply ob_inv in H. destruct H as ([e s1] & E1 & H). rewrite (g_local _ _ _ good_entry _ _ _ q E1). cbn [ob].
  destruct s1 as [|c s1]; [discriminate|]. cbn [app].
  destruct (Z.eq_dec c 125) as [->|n125]; [injection H as <- <-; reflexivity|].
  destruct (Z.eq_dec c 44) as [->|n44].
  - apply ob_inv in H. destruct H as ([m1 r1] & E2 & H). injection H as <- <-. rewrite (IH _ _ _ q k E2). reflexivity.
  - exfalso. destruct c as [|p|p]; [discriminate| |discriminate].
    repeat (match goal with p : positive |- _ => destruct p; try discriminate H; try congruence end).
Qed.

Lemma pa_entries_round : forall m r n, m <> [] -> (forall k v, In (k, v) m -> ascii k /\ ok v) -> (length m <= n)%nat ->
  pa_entries n (pr_entries m ++ r) = Some (m, r).
Proof.
  induction m as [|e m IH]; intros r n Hne Hok Hn; [easy|]. destruct n as [|n]; [cbn in Hn; lia|]. cbn [pa_entries].
  assert (He : ascii (fst e) /\ ok (snd e)) by (apply Hok; left; now destruct e).
  destruct m as [|e' m].
  - cbn [pr_entries]. rewrite <- app_assoc. rewrite (g_round _ _ _ good_entry e _ He). reflexivity.
  - remember (e' :: m) as m' eqn:Em'. assert (pr_entries (e :: m') = pr_entry e ++ 44 :: pr_entries m') as -> by (subst m'; reflexivity).
    rewrite <- app_assoc. rewrite (g_round _ _ _ good_entry e _ He). cbn [ob app]. rewrite IH; [reflexivity|subst m'; discriminate| |cbn in Hn; lia].
    intros k v Hin. apply Hok. now right.
Qed.

Lemma pr_entry_len : forall e, (1 <= length (pr_entry e))%nat.
Proof. intro e. unfold pr_entry, pr_str. cbn. lia. Qed.
Lemma pr_entries_len : forall m, (length m <= length (pr_entries m))%nat.
Proof.
  induction m as [|e m IH]; [cbn; lia|]. destruct m as [|e' m]; [cbn [pr_entries]; rewrite app_length; cbn; lia|].
  remember (e' :: m) as m' eqn:Em'. assert (pr_entries (e :: m') = pr_entry e ++ 44 :: pr_entries m') as -> by (subst m'; reflexivity).
  rewrite app_length. cbn [length]. lia.
Qed.

Lemma pr_entry_hd : forall e, exists t, pr_entry e = 34 :: t.
Proof. intro e. eexists. reflexivity. Qed.

Lemma pa_map_in_round : forall m, (forall k v, In (k, v) m -> ascii k /\ ok v) -> pa_map_in (pr_map m) = Some (m, []).
Proof.
  intros m Hok. unfold pr_map, pa_map_in. destruct m as [|e m]; [reflexivity|].
  assert (exists t, pr_entries (e :: m) = 34 :: t) as (t & Et).
  { destruct (pr_entry_hd e) as (t & Et). destruct m; cbn [pr_entries]; rewrite Et; cbn [app]; now eexists. }
  rewrite Et. rewrite <- Et. rewrite <- (app_nil_r (pr_entries (e :: m))) at 2.
  apply pa_entries_round; [discriminate|exact Hok|apply pr_entries_len].
Qed.

Lemma pa_map_in_local : forall s m r q, pa_map_in s = Some (m, r) -> pa_map_in (s ++ q) = Some (m, r ++ q).
Proof.
  intros s m r q H. unfold pa_map_in in *. destruct s as [|c s]; [discriminate|].
  destruct (Z.eq_dec c 123) as [->|n]; [|exfalso; destruct c as [|p|p]; [discriminate| |discriminate]; repeat (match goal with p : positive |- _ => destruct p; try discriminate H; try congruence end)].
  destruct s as [|d s]; [discriminate|]. cbn [app].
  destruct (Z.eq_dec d 125) as [->|n]; [injection H as <- <-; reflexivity|].
  assert (Hx : forall (A : Type) (x y : A), match d with 125 => x | _ => y end = y).
  { intros A x y. destruct d as [|p|p]; try reflexivity. repeat (match goal with p : positive |- _ => destruct p; try reflexivity; try congruence end). }
  rewrite Hx in *. replace (length (d :: s ++ q)) with (length (d :: s) + length q)%nat by (cbn [length]; rewrite app_length; lia).
  change (d :: s ++ q) with ((d :: s) ++ q). now apply pa_entries_local.
Qed.

Lemma pr_map_prefix : forall m p q, (forall k v, In (k, v) m -> ascii k /\ ok v) -> pr_map m = p ++ q -> q <> [] -> pa_map p = None.
Proof.
  intros m p q Hok E Hq. unfold pa_map. destruct (pa_map_in p) as [[m' r]|] eqn:Ep; [|reflexivity].
  pose proof (pa_map_in_local _ _ _ q Ep) as H. rewrite <- E in H. rewrite pa_map_in_round in H by exact Hok.
  injection H as _ H. symmetry in H. apply app_eq_nil in H. now destruct H.
Qed.

(** Only the entries that a lookup finds are written. *)
Fixpoint uniq (seen : list bytes) (m : list (bytes * V)) : list (bytes * V) :=
  match m with
  | [] => []
  | (k, v) :: r => if existsb (beq_bytes k) seen then uniq seen r else (k, v) :: uniq (k :: seen) r
  end.
Lemma mget_uniq : forall m seen k, mget k (uniq seen m) = if existsb (beq_bytes k) seen then None else mget k m.
Proof.
  induction m as [|[a v] m IH]; intros seen k; cbn [uniq mget].
  - now destruct (existsb (beq_bytes k) seen).
  - destruct (existsb (beq_bytes a) seen) eqn:Ea.
    + rewrite IH. destruct (existsb (beq_bytes k) seen) eqn:Ek; [reflexivity|].
      destruct (beq_bytes k a) eqn:E; [|reflexivity]. apply beq_bytes_eq in E. subst a. congruence.
    + cbn [mget]. destruct (beq_bytes k a) eqn:E.
      * apply beq_bytes_eq in E. subst a. now rewrite Ea.
      * rewrite IH. cbn [existsb]. now rewrite E.
Qed.
Lemma uniq_in : forall m seen k v, In (k, v) (uniq seen m) -> mget k (uniq seen m) = Some v.
Proof.
  induction m as [|[a w] m IH]; intros seen k v H; cbn [uniq] in *; [easy|].
  destruct (existsb (beq_bytes a) seen) eqn:Ea; [now apply IH|]. cbn [mget]. destruct H as [H|H].
  - injection H as <- <-. now rewrite beq_bytes_refl.
  - destruct (beq_bytes k a) eqn:E; [|now apply IH]. apply beq_bytes_eq in E. subst a. apply IH in H. rewrite mget_uniq in H.
    cbn [existsb] in H. now rewrite beq_bytes_refl in H.
Qed.

Definition enc_map (m : list (bytes * V)) : bytes := pr_map (uniq [] m).
Lemma enc_map_round : forall m, (forall k v, mget k m = Some v -> ascii k /\ ok v) ->
  exists m', pa_map (enc_map m) = Some m' /\ forall k, mget k m' = mget k m.
Proof.
  intros m Hok. exists (uniq [] m). split; [|intro k; now rewrite mget_uniq]. unfold pa_map, enc_map.
  rewrite pa_map_in_round; [reflexivity|]. intros k v Hin. apply uniq_in in Hin. rewrite mget_uniq in Hin. cbn [existsb] in Hin. now apply Hok.
Qed.
End Maps.

(** ** The two instances *)
Definition json_bonds : jcodec := mkJ (enc_map pr_bd) (pa_map pa_bd).
Lemma json_bonds_ok : json_ok json_bonds.
Proof.
  split; [|split].
  - intros m Hm. exact (enc_map_round ascii_bd pr_bd pa_bd good_bd m Hm).
  - intro m. discriminate.
  - intros m p q Hm E _ Hq. cbn [jdec json_bonds]. apply (pr_map_prefix ascii_bd pr_bd pa_bd good_bd (uniq [] m) p q); [|exact E|exact Hq].
    intros k v Hin. apply uniq_in in Hin. rewrite mget_uniq in Hin. cbn [existsb] in Hin. now apply Hm.
Qed.

(** Profiles given as text. *)
Definition json_texts : ccodec bytes := mkC (fun m => Some (enc_map pr_str m)) (fun d => option_map Some (pa_map pa_str d)).
Lemma json_texts_ok : cjson_ok json_texts ascii.
Proof.
  split.
  - intros m Hm. destruct (enc_map_round ascii pr_str pa_str good_str m Hm) as (m' & E1 & E2).
    eexists _, m'. split; [reflexivity|]. split; [|exact E2]. cbn [cdec json_texts]. now rewrite E1.
  - intros m d p q Hm E1 E2 Hq. cbn [cdec json_texts]. injection E1 as <-.
    rewrite (pr_map_prefix ascii pr_str pa_str good_str (uniq [] m) p q); [reflexivity| |exact E2|exact Hq].
    intros k v Hin. apply uniq_in in Hin. rewrite mget_uniq in Hin. cbn [existsb] in Hin. now apply Hm.
Qed.

Example json_bonds_text : jenc json_bonds [(txt "c0ffee123456", mkBD (txt "00ff") (txt "0000") (txt "01""2") true)] =
  txt "{""c0ffee123456"":{""longTermKey"":""00ff"",""encryptionDiversifier"":""0000"",""randomValue"":""01\""2"",""legacy"":true}}".
Proof. reflexivity. Qed.
