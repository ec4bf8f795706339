(** The history determines the state (invariant of M_enc.run). *)
Require Import Verif.Base Verif.M_smp Verif.M_enc Verif.S_enc.
Require Verif.M_hci Verif.S_smp.

(** ** Histories grow at the end *)
Lemma fold_hist_snoc : forall {A} (f : A -> history -> act -> list obs -> A) l acc before a o,
  fold_hist f acc before (l ++ [(a, o)]) = f (fold_hist f acc before l) (before ++ l) a o.
Proof.
  intros A f l. induction l as [|[a' o'] r IH]; intros acc before a o; cbn [fold_hist app].
  - now rewrite app_nil_r.
  - rewrite IH, <- app_assoc. reflexivity.
Qed.
Lemma created_snoc : forall l a o, created_in (l ++ [(a, o)]) =
  created_in l ++ match a with TConnect h _ ra _ _ sec => [mkCr h ra sec] | _ => [] end.
Proof. intros. unfold created_in. rewrite flat_map_app. cbn. now rewrite app_nil_r. Qed.
Lemma owner_snoc : forall l a o h, owner (l ++ [(a, o)]) h =
  match a with
  | TConnect k _ _ _ _ _ => if h =? k then Some (fst (fold_left owner_step l (O, fun _ => None))) else owner l h
  | TRemove k => if h =? k then None else owner l h
  | _ => owner l h
  end.
Proof.
  intros. unfold owner. rewrite fold_left_app. cbn [fold_left]. unfold owner_step at 1. cbn [fst]. now destruct a.
Qed.
Lemma owner_count : forall l, fst (fold_left owner_step l (O, fun _ => None)) = length (created_in l).
Proof.
  intro l. induction l as [|[a o] l IH] using rev_ind; [reflexivity|].
  rewrite fold_left_app, created_snoc, app_length, <- IH. cbn [fold_left]. unfold owner_step at 1. cbn [fst].
  destruct a; cbn; lia.
Qed.
Lemma all_obs_snoc : forall l a o, all_obs (l ++ [(a, o)]) = all_obs l ++ o.
Proof. intros. unfold all_obs. rewrite flat_map_app. cbn. now rewrite app_nil_r. Qed.
Definition puts (o : list obs) (k : nat) : list info :=
  flat_map (fun x => match x with OReport _ j v => if Nat.eqb j k then [v] else [] | _ => [] end) o.
Definition gots (o : list obs) (k : nat) : list info :=
  flat_map (fun x => match x with OGot j v => if Nat.eqb j k then [v] else [] | _ => [] end) o.
Lemma put_snoc : forall l a o k, put_in (l ++ [(a, o)]) k = put_in l k ++ puts o k.
Proof. intros. unfold put_in. now rewrite all_obs_snoc, flat_map_app. Qed.
Lemma took_snoc : forall l a o k, taken_out (l ++ [(a, o)]) k = taken_out l k ++ gots o k.
Proof. intros. unfold taken_out. now rewrite all_obs_snoc, flat_map_app. Qed.
Lemma receives_snoc : forall l a o k, receives (l ++ [(a, o)]) k =
  (receives l k + match a with TRecv j => if Nat.eqb j k then 1 else 0 | _ => 0 end)%nat.
Proof. intros. unfold receives. rewrite filter_app, app_length. cbn. destruct a; try reflexivity. now destruct (Nat.eqb k0 k). Qed.
Lemma leaves_snoc : forall l a o k, leaves (l ++ [(a, o)]) k =
  (leaves l k + match a with TLeave j => if Nat.eqb j k then 1 else 0 | _ => 0 end)%nat.
Proof. intros. unfold leaves. rewrite filter_app, app_length. cbn. destruct a; try reflexivity. now destruct (Nat.eqb k0 k). Qed.
Lemma stored_snoc : forall t l a o k, stored t (l ++ [(a, o)]) k = fold_left store_obs o (stored t l) k.
Proof. intros. unfold stored. now rewrite all_obs_snoc, fold_left_app. Qed.
Definition rets (o : list obs) (i : nat) : nat :=
  length (filter (fun x => match x with OStartRet j _ => Nat.eqb j i | _ => false end) o).
Lemma starts_snoc : forall l a o i, starts_of (l ++ [(a, o)]) i =
  (starts_of l i + match a with TStart j _ _ => if Nat.eqb j i then 1 else 0 | _ => 0 end)%nat.
Proof. intros. unfold starts_of. rewrite filter_app, app_length. cbn. destruct a; try reflexivity. now destruct (Nat.eqb i0 i). Qed.
Lemma returns_snoc : forall l a o i, returns_of (l ++ [(a, o)]) i = (returns_of l i + rets o i)%nat.
Proof. intros. unfold returns_of. now rewrite all_obs_snoc, filter_app, app_length. Qed.
Lemma fold_obs_ext : forall o s s', (forall k, s k = s' k) -> forall k, fold_left store_obs o s k = fold_left store_obs o s' k.
Proof.
  induction o as [|x o IH]; intros s s' H k; cbn; [apply H|]. apply IH. intro k'. destruct x; cbn; try apply H.
  - destruct (beq_bytes k' a); [reflexivity|apply H].
  - destruct (beq_bytes k' a); [reflexivity|apply H].
Qed.

(** ** Association lists *)
Lemma assoc_drop : forall h t k, assoc k (drop_handle h t) = if k =? h then None else assoc k t.
Proof.
  intros h t k. unfold drop_handle. induction t as [|[x i] r IH]; cbn [filter assoc fst].
  - now destruct (k =? h).
  - destruct (Z.eqb_spec x h); cbn [negb assoc].
    + subst. rewrite IH. destruct (Z.eqb_spec k h); [reflexivity|]. destruct (Z.eqb_spec h k); [congruence|reflexivity].
    + rewrite IH. destruct (Z.eqb_spec x k); [|reflexivity]. subst. destruct (Z.eqb_spec k h); [congruence|reflexivity].
Qed.
Lemma find_drop : forall a t k, find_bond k (drop_bond a t) = if beq_bytes k a then None else find_bond k t.
Proof.
  intros a t k. unfold drop_bond. induction t as [|[x b] r IH]; cbn [filter find_bond fst].
  - now destruct (beq_bytes k a).
  - destruct (beq_bytes x a) eqn:E; cbn [negb find_bond].
    + apply beq_bytes_eq in E. subst x. rewrite IH. destruct (beq_bytes k a) eqn:E2; [reflexivity|].
      destruct (beq_bytes a k) eqn:E3; [|reflexivity]. apply beq_bytes_eq in E3. subst. now rewrite beq_bytes_refl in E2.
    + rewrite IH. destruct (beq_bytes x k) eqn:E2; [|reflexivity]. apply beq_bytes_eq in E2. subst. now rewrite E.
Qed.
Lemma find_put : forall a b t k, find_bond k (put_bond a b t) = if beq_bytes k a then Some b else find_bond k t.
Proof.
  intros a b t k. unfold put_bond. cbn [find_bond]. rewrite find_drop.
  destruct (beq_bytes a k) eqn:E.
  - apply beq_bytes_eq in E. subst. now rewrite beq_bytes_refl.
  - destruct (beq_bytes k a) eqn:E2; [|reflexivity]. apply beq_bytes_eq in E2. subst. now rewrite beq_bytes_refl in E.
Qed.

(** ** Decoding *)
Lemma gle16_ret : forall b h, gle16 b = Ret h -> exists x y r, b = x :: y :: r /\ h = x + 256 * y.
Proof.
  intros b h. unfold gle16, gidx. destruct b as [|x [|y r]]; cbn; intro H; try discriminate. exists x, y, r.
  split; [reflexivity|]. now injection H.
Qed.
Lemma dec_evt_pkt : forall b k, M_hci.dec_pkt b = Ret k ->
  match k with
  | M_hci.KEnc _ _ | M_hci.KRefresh _ _ => exists n p c, b = 4 :: c :: n :: p /\ n = Z.of_nat (length p) /\ event b = Some (c, p) /\
      (c = 62 /\ M_hci.dec_meta p = Ret k \/ c = 8 /\ M_hci.dec_enc p = Ret k)
  | _ => enc_event b = None
  end.
Proof.
  intros b k H. unfold M_hci.dec_pkt in H. unfold gidx, gfrom in H.
  destruct b as [|t b]; [discriminate|]. cbn in H.
  destruct (Z.eqb_spec t 2) as [->|N2].
  { unfold M_hci.dec_acl in H. unfold gidx in H. destruct b as [|x [|y r]]; cbn in H; try discriminate. injection H as <-.
    unfold enc_event, event. cbn. destruct r; reflexivity. }
  destruct (Z.eqb_spec t 4) as [->|N4].
  2:{ injection H as <-. unfold enc_event, event. destruct b as [|c [|n p]]; try reflexivity. destruct (Z.eqb_spec t 4); [congruence|reflexivity]. }
  unfold M_hci.dec_evt in H. unfold gidx, gfrom in H. destruct b as [|c [|n p]]; cbn in H; try discriminate.
  destruct (Z.eqb_spec n (Z.of_nat (length p))) as [En|En]; cbn in H.
  2:{ injection H as <-. unfold enc_event, event. cbn. destruct (Z.eqb_spec n (Z.of_nat (length p))); [congruence|reflexivity]. }
  assert (Ev : event (4 :: c :: n :: p) = Some (c, p)). { unfold event. cbn. rewrite En, Z.eqb_refl. reflexivity. }
  assert (Other : c <> 62 -> c <> 8 -> enc_event (4 :: c :: n :: p) = None).
  { intros A B. unfold enc_event. rewrite Ev. destruct c as [|c|c]; try reflexivity.
    do 7 (destruct c as [c|c|]; try reflexivity; try congruence). }
  destruct (Z.eqb_spec c 62) as [->|N62].
  { destruct k; try (
      (exists n, p, 62; split; [reflexivity|]; split; [exact En|]; split; [exact Ev|]; left; split; [reflexivity|exact H])).
    all: unfold enc_event; rewrite Ev; unfold M_hci.dec_meta, gidx in H; destruct p as [|sub p]; cbn in H; try discriminate;
      (destruct (Z.eqb_spec sub 48) as [->|N48];
       [ cbn in H; unfold M_hci.dec_refresh, gfrom in H; destruct p as [|x [|y r]]; cbn in H; discriminate
       | destruct sub as [|q|q]; try reflexivity; do 6 (destruct q as [q|q|]; try reflexivity; try congruence) ]). }
  destruct ((c =? 14) || (c =? 15) || (c =? 255)) eqn:E3.
  { injection H as <-. apply Other; [assumption|]. intros ->. discriminate. }
  destruct (Z.eqb_spec c 5) as [->|N5].
  { unfold M_hci.dec_disc in H. destruct (gfrom p 1); cbn in H; [|discriminate]. destruct (gle16 a); cbn in H; [|discriminate].
    destruct (gidx p 3); cbn in H; [|discriminate]. injection H as <-. apply Other; lia. }
  destruct (Z.eqb_spec c 19) as [->|N19]. { injection H as <-. apply Other; lia. }
  destruct (Z.eqb_spec c 8) as [->|N8].
  2:{ injection H as <-. now apply Other. }
  unfold M_hci.dec_enc in H. destruct (gfrom p 1) eqn:G1; cbn in H; [|discriminate]. destruct (gle16 a) eqn:G2; cbn in H; [|discriminate].
  injection H as <-. exists n, p, 8. split; [reflexivity|]. split; [exact En|]. split; [exact Ev|]. right. split; [reflexivity|].
  unfold M_hci.dec_enc. rewrite G1. cbn. now rewrite G2.
Qed.

(** ** One packet *)
Definition apply_event (v : encevent) (i : nat) (c : conn) (del : bool) (w : world) : go (world * list obs) :=
  let! r := on_failure c (ev_status v) del w in
  let w1 := on_conn i (match v with
                       | Change _ _ _ => fun c => set_info (ev_info v) (set_enabled (i_enabled (ev_info v)) c)
                       | Refresh _ _ => set_enabled true
                       end) (fst r) in
  let (w2, o) := report i (c_ch c) (ev_info v) w1 in
  Ret (w2, snd r ++ o).
Lemma packet_cases : forall b del w w' o, handle_packet b del w = Ret (w', o) ->
  (exists v i c, enc_event b = Some v /\ assoc (ev_handle v) (tab w) = Some i /\ nth_error (conns w) i = Some c /\
     apply_event v i c del w = Ret (w', o)) \/
  (w' = w /\ o = [] /\ forall v i, enc_event b = Some v -> assoc (ev_handle v) (tab w) = Some i -> nth_error (conns w) i = None).
Proof.
  intros b del w w' o H. unfold handle_packet in H. destruct (M_hci.dec_pkt b) as [k|] eqn:D; cbn [gbind] in H; [|discriminate].
  pose proof (dec_evt_pkt b k D) as HD.
  destruct k as [? ?|? ? ? ?|? ?|h rest|h st|? ?|?|?|];
    try (injection H as <- <-; right; split; [reflexivity|]; split; [reflexivity|]; intros v i Hv; rewrite HD in Hv; discriminate).
  - destruct HD as (n & p & c & Hb & Hn & Ev & [(-> & Hm)|(-> & Hm)]).
    { exfalso. unfold M_hci.dec_meta in Hm. destruct (gidx p 0) as [sub|]; cbn in Hm; [|discriminate].
      destruct (sub =? 2); [discriminate|]. destruct (sub =? 1).
      { unfold M_hci.dec_conn in Hm. destruct (gidx p 1) as [s0|]; cbn in Hm; [|discriminate]. destruct (negb (s0 =? 0)); [discriminate|].
        destruct (gfrom p 6); cbn in Hm; [|discriminate]. destruct (gfrom p 2); cbn in Hm; [|discriminate].
        destruct (gle16 a0); cbn in Hm; [|discriminate]. destruct (gidx p 4); cbn in Hm; discriminate. }
      destruct (sub =? 48); [|discriminate]. unfold M_hci.dec_refresh in Hm. destruct (gfrom p 1); cbn in Hm; [|discriminate].
      destruct (gle16 a); cbn in Hm; [|discriminate]. destruct (gidx p 0); discriminate. }
    unfold M_hci.dec_enc in Hm. unfold gfrom in Hm. destruct p as [|st p]; [cbn in Hm; discriminate|]. cbn in Hm.
    destruct (gle16 p) as [h'|] eqn:G; cbn in Hm; [|discriminate]. destruct (gle16_ret p h' G) as (x & y & r & -> & ->).
    remember (x + 256 * y) as hh eqn:Ehh. cbn in Hm. injection Hm as <- <-.
    destruct (assoc hh (tab w)) as [i|] eqn:A.
    + unfold gidx in H. destruct r as [|en r]; cbn in H; [discriminate|].
      assert (Hv : enc_event b = Some (Change hh st en)). { unfold enc_event. rewrite Ev. now rewrite Ehh. }
      destruct (nth_error (conns w) i) as [c|] eqn:N.
      * left. exists (Change hh st en), i, c. split; [exact Hv|]. split; [exact A|]. split; [exact N|].
        unfold handleEncryptionChanged in H. rewrite N in H. exact H.
      * right. unfold handleEncryptionChanged in H. rewrite N in H. injection H as <- <-. split; [reflexivity|]. split; [reflexivity|].
        intros v j Hv'. rewrite Hv in Hv'. injection Hv' as <-. cbn [ev_handle]. rewrite A. intro E; injection E as <-. exact N.
    + right. injection H as <- <-. split; [reflexivity|]. split; [reflexivity|]. intros v j Hv. unfold enc_event in Hv. rewrite Ev in Hv.
      destruct r as [|en r]; [discriminate|]. rewrite <- Ehh in Hv. injection Hv as <-. cbn [ev_handle]. now rewrite A.
  - destruct HD as (n & p & c & Hb & Hn & Ev & [(-> & Hm)|(-> & Hm)]).
    2:{ exfalso. unfold M_hci.dec_enc in Hm. destruct (gfrom p 1); cbn in Hm; [|discriminate]. destruct (gle16 a); cbn in Hm; discriminate. }
    unfold M_hci.dec_meta in Hm. unfold gidx in Hm. destruct p as [|sub p]; [cbn in Hm; discriminate|]. cbn in Hm.
    destruct (sub =? 2); [discriminate|]. destruct (sub =? 1).
    { exfalso. unfold M_hci.dec_conn in Hm. destruct (gidx (sub :: p) 1) as [s0|]; cbn [gbind] in Hm; [|discriminate]. destruct (negb (s0 =? 0)); [discriminate|].
      destruct (gfrom (sub :: p) 6); cbn [gbind] in Hm; [|discriminate]. destruct (gfrom (sub :: p) 2); cbn [gbind] in Hm; [|discriminate].
      destruct (gle16 a0); cbn [gbind] in Hm; [|discriminate]. destruct (gidx (sub :: p) 4); cbn [gbind] in Hm; discriminate. }
    destruct (Z.eqb_spec sub 48) as [->|]; [|discriminate]. unfold M_hci.dec_refresh in Hm. unfold gfrom in Hm. cbn in Hm.
    destruct (gle16 p) as [h'|] eqn:G; cbn in Hm; [|discriminate]. destruct (gle16_ret p h' G) as (x & y & r & -> & ->). remember (x + 256 * y) as hh eqn:Ehh. injection Hm as <- <-.
    assert (Hv : enc_event b = Some (Refresh hh 48)). { unfold enc_event. rewrite Ev. now rewrite Ehh. }
    destruct (assoc hh (tab w)) as [i|] eqn:A.
    + unfold handleEncryptionKeyRefreshComplete in H. destruct (nth_error (conns w) i) as [c|] eqn:N.
      * left. exists (Refresh hh 48), i, c. split; [exact Hv|]. split; [exact A|]. split; [exact N|]. exact H.
      * right. injection H as <- <-. split; [reflexivity|]. split; [reflexivity|].
        intros v j Hv'. rewrite Hv in Hv'. injection Hv' as <-. cbn [ev_handle]. rewrite A. intro E; injection E as <-. exact N.
    + right. injection H as <- <-. split; [reflexivity|]. split; [reflexivity|]. intros v j Hv'. rewrite Hv in Hv'. injection Hv' as <-.
      cbn [ev_handle]. now rewrite A.
Qed.
