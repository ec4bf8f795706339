(** Proofs about M_scan: invariants. *)
Require Import Verif.Base Verif.M_scan Verif.S_scan.

Definition noreply (q : list ev) : Prop := forall b, ~ In (EReply b) q.
Definition onereply (q : list ev) (b : bool) : Prop := exists q1 q2, q = q1 ++ EReply b :: q2 /\ noreply q1 /\ noreply q2.
Definition phase_inv (s : st) : Prop :=
  match s_main s with
  | P0 => s_cmd s = None /\ noreply (s_q s) /\ s_scan s = false
  | P1 => s_cmd s = None /\ noreply (s_q s) /\ s_scan s = false /\ s_hset s = true
  | P2 => s_hset s = true /\ ((s_cmd s = Some true /\ noreply (s_q s) /\ s_scan s = false) \/ (s_cmd s = None /\ exists b, onereply (s_q s) b /\ s_scan s = b))
  | P3 => s_hset s = true /\ s_cmd s = None /\ noreply (s_q s) /\ s_scan s = true
  | P4 => s_hset s = true /\ ((s_cmd s = Some false /\ noreply (s_q s)) \/ (s_cmd s = None /\ exists b, onereply (s_q s) b /\ (b = true -> s_scan s = false)))
  | P5 | P6 | P7 _ | PRet (RCtx _) => s_hset s = true /\ s_cmd s = None /\ noreply (s_q s) /\ s_scan s = false
  | PRet RErr => True
  end.
Lemma noreply_app : forall q r, noreply (q ++ r) <-> noreply q /\ noreply r.
Proof. intros q r. unfold noreply. split; [intro H; split; intros b I; apply (H b), in_or_app; tauto|intros [A B] b I; apply in_app_or in I; destruct I; [now apply (A b)|now apply (B b)]]. Qed.
Lemma noreply_rep : forall a, noreply [ERep a]. Proof. intros a b [H|[]]; discriminate. Qed.
Lemma noreply_cons : forall a q, noreply (ERep a :: q) <-> noreply q.
Proof. intros a q. change (ERep a :: q) with ([ERep a] ++ q). rewrite noreply_app. split; [tauto|split; [apply noreply_rep|assumption]]. Qed.
Lemma one_rep : forall a q b, onereply (ERep a :: q) b <-> onereply q b.
Proof.
  intros a q b. split.
  - intros ([|x q1] & q2 & E & N1 & N2); [discriminate|]. injection E as <- ->. exists q1, q2. split; [reflexivity|]. split; [exact (proj1 (noreply_cons _ _) N1)|exact N2].
  - intros (q1 & q2 & -> & N1 & N2). exists (ERep a :: q1), q2. split; [reflexivity|]. split; [now apply noreply_cons|exact N2].
Qed.
Lemma one_reply : forall c q b, onereply (EReply c :: q) b -> c = b /\ noreply q.
Proof. intros c q b ([|x q1] & q2 & E & N1 & N2); [injection E as -> ->; now split|]. injection E as <- ->. exfalso. apply (N1 c). now left. Qed.
Lemma one_app : forall q r b, onereply q b -> noreply r -> onereply (q ++ r) b.
Proof. intros q r b (q1 & q2 & -> & N1 & N2) N. exists q1, (q2 ++ r). rewrite <- app_assoc. split; [reflexivity|]. split; [exact N1|]. apply noreply_app. now split. Qed.
Lemma one_end : forall q b, noreply q -> onereply (q ++ [EReply b]) b.
Proof. intros q b N. exists q, []. split; [reflexivity|]. split; [exact N|intros c []]. Qed.

(** fields untouched by a handler's step *)
Lemma task_frame : forall k f s t s' t', task_step k f s t = Some (s', t') -> s_ctx s' = s_ctx s /\ s_scan s' = s_scan s /\ s_cmd s' = s_cmd s /\ s_q s' = s_q s /\ s_hset s' = s_hset s /\ s_loop s' = s_loop s /\ s_gos s' = s_gos s /\
  s_main s' = s_main s /\ s_hist s' = s_hist s /\ s_out s' = s_out s /\ (s_ctx2 s' = s_ctx2 s \/ (s_ctx2 s = None /\ s_ctx2 s' = Some Canceled)) .
Proof.
  intros k f s t s' t' H. destruct t as [a|a|a l|a|]; cbn in H; try discriminate.
  - destruct (f a); injection H as <- <-; cbn; repeat split; now left.
  - destruct k; injection H as <- <-; cbn; repeat split; try now left. destruct (s_ctx2 s); [now left|now right].
  - injection H as <- <-; cbn; repeat split; now left.
Qed.
Lemma phase_pres : forall k sync late f s a s', phase_inv s -> exec k sync late f s a = Some s' -> phase_inv s'.
Proof.
  intros k sync late f s a s' I H. destruct a as [| | |i| |i|b|addr data|r| | |]; cbn in H.
  - unfold main_step in H. unfold phase_inv in I. destruct (s_main s) eqn:M; try discriminate.
    + injection H as <-. unfold phase_inv. cbn. tauto.
    + injection H as <-. unfold phase_inv. cbn. tauto.
    + destruct (waited k s); [|discriminate]. injection H as <-. unfold phase_inv. cbn. tauto.
    + destruct (waited k s) as [r|]; [|discriminate]. destruct k; [|destruct late|destruct r]; injection H as <-; unfold phase_inv; cbn; tauto.
  - unfold loop_step in H. destruct (s_loop s); [discriminate|]. unfold phase_inv in I. destruct (s_q s) as [|[a|ok] q] eqn:Q; [discriminate| |].
    + assert (X : phase_inv (set_q s q)).
      { unfold phase_inv. cbn. destruct (s_main s) as [| | | | | | | |[r|]]; rewrite ?noreply_cons in I; try exact I.
        - destruct I as [I1 [I2|(I2 & b & I3 & I4)]]; (split; [exact I1|]); [left; exact I2|right; split; [exact I2|exists b; split; [exact (proj1 (one_rep a q b) I3)|exact I4]]].
        - destruct I as [I1 [I2|(I2 & b & I3 & I4)]]; (split; [exact I1|]); [left; exact I2|right; split; [exact I2|exists b; split; [exact (proj1 (one_rep a q b) I3)|exact I4]]]. }
      change (s_hset (set_q s q)) with (s_hset s) in H. destruct (s_hset s); [destruct sync|]; injection H as <-; exact X.
    + cbn in H. assert (NR : ~ noreply (EReply ok :: q)) by (intro N; apply (N ok); now left).
      destruct (s_main s) as [| | | | | | | |[r|]] eqn:M; try (exfalso; apply NR; tauto).
      * injection H as <-. destruct I as [I1 [I2|(I2 & b & I3 & I4)]]; [exfalso; apply NR; tauto|]. destruct (one_reply _ _ _ I3) as [<- N]. unfold phase_inv. cbn. destruct ok; [tauto|exact Logic.I].
      * injection H as <-. destruct I as [I1 [I2|(I2 & b & I3 & I4)]]; [exfalso; apply NR; tauto|]. destruct (one_reply _ _ _ I3) as [<- N]. unfold phase_inv. cbn. destruct ok; [tauto|exact Logic.I].
      * injection H as <-. unfold phase_inv. cbn. rewrite M. exact I.
  - destruct (s_loop s) as [t|]; [|discriminate]. destruct (task_step k f s t) as [[s1 t1]|] eqn:T; [|discriminate]. injection H as <-. destruct (task_frame _ _ _ _ _ _ T) as (_ & E1 & E2 & E3 & E4 & _ & _ & E5 & _).
    unfold phase_inv in *. cbn. rewrite E1, E2, E3, E4, E5. exact I.
  - destruct (nth_error (s_gos s) i) as [t|]; [|discriminate]. destruct (task_step k f s t) as [[s1 t1]|] eqn:T; [|discriminate]. injection H as <-. destruct (task_frame _ _ _ _ _ _ T) as (_ & E1 & E2 & E3 & E4 & _ & _ & E5 & _).
    unfold phase_inv in *. cbn. rewrite E1, E2, E3, E4, E5. exact I.
  - unfold phase_inv in I. destruct (s_main s); try discriminate. destruct (s_loop s) as [[]|]; try discriminate. injection H as <-. exact I.
  - unfold phase_inv in I. destruct (s_main s); try discriminate. destruct (nth_error (s_gos s) i) as [[]|]; try discriminate. injection H as <-. exact I.
  - destruct (s_cmd s) as [e|] eqn:C; [|discriminate]. injection H as <-. unfold phase_inv in *. cbn. rewrite C in I. destruct (s_main s) as [| | | | | | | |[r|]]; try (exfalso; destruct I as (? & ? & ?); discriminate); try (exfalso; destruct I; discriminate); try exact I.
    + destruct I as [I1 [(I2 & I3 & I4)|(I2 & _)]]; [|discriminate]. injection I2 as ->. split; [exact I1|right]. split; [reflexivity|]. exists b. split; [now apply one_end|]. destruct b; [reflexivity|exact I4].
    + destruct I as [I1 [(I2 & I3)|(I2 & _)]]; [|discriminate]. injection I2 as ->. split; [exact I1|right]. split; [reflexivity|]. exists b. split; [now apply one_end|]. intros ->. reflexivity.
  - destruct (s_scan s) eqn:S; [|discriminate]. injection H as <-. unfold phase_inv in *. cbn. rewrite S in *. destruct (s_main s) as [| | | | | | | |[r|]]; try (exfalso; destruct I as (? & ? & ? & ?); discriminate); try (exfalso; destruct I as (? & ? & ?); discriminate); try exact I.
    + destruct I as [I1 [(_ & _ & I4)|(I2 & b & I3 & I4)]]; [discriminate|]. split; [exact I1|right]. split; [exact I2|]. exists b. split; [apply one_app; [exact I3|apply noreply_rep]|exact I4].
    + destruct I as (I1 & I2 & I3 & I4). repeat split; try assumption. apply noreply_app. split; [exact I3|apply noreply_rep].
    + destruct I as [I1 [(I2 & I3)|(I2 & b & I3 & I4)]]; (split; [exact I1|]); [left; split; [exact I2|apply noreply_app; split; [exact I3|apply noreply_rep]]|right]. split; [exact I2|]. exists b. split; [apply one_app; [exact I3|apply noreply_rep]|exact I4].
  - destruct (s_ctx s); [discriminate|]. injection H as <-. exact I.
  - destruct (s_ctx s); [|discriminate]. destruct (s_ctx2 s); [discriminate|]. injection H as <-. exact I.
  - destruct (s_ctx s); [|discriminate]. destruct (s_ctx2 s); [discriminate|]. injection H as <-. exact I.
  - destruct (s_main s); try discriminate; injection H as <-; exact Logic.I.
Qed.
