Require Import Verif.Base Verif.M_attcli Verif.M_attloop Verif.S_attloop.
Definition cnt {A} (f : A -> bool) (l : list A) : Z := Z.of_nat (length (filter f l)).
Lemma cnt_upd : forall A (f : A -> bool) l k x y, nth_error l k = Some y -> cnt f (upd l k x) = cnt f l - (if f y then 1 else 0) + (if f x then 1 else 0).
Proof.
  intros A f l. unfold cnt. induction l as [|z l IH]; intros [|k] x y H; try discriminate; cbn [nth_error] in H.
  - injection H as ->. cbn [upd filter]. destruct (f x), (f y); cbn [length]; lia.
  - cbn [upd filter]. specialize (IH k x y H). destruct (f z); cbn [length]; lia.
Qed.
Lemma cnt_nth : forall A (f : A -> bool) l k y, nth_error l k = Some y -> f y = true -> 1 <= cnt f l.
Proof.
  intros A f l. unfold cnt. induction l as [|z l IH]; intros [|k] y H F; try discriminate; cbn [nth_error] in H; cbn [filter].
  - injection H as ->. rewrite F. cbn [length]. lia.
  - specialize (IH k y H F). destruct (f z); cbn [length]; lia.
Qed.
Lemma cnt_two : forall A (f : A -> bool) l j k x y, nth_error l j = Some x -> nth_error l k = Some y -> f x = true -> f y = true -> cnt f l <= 1 -> j = k.
Proof.
  intros A f l. unfold cnt. induction l as [|z l IH]; intros [|j] [|k] x y H1 H2 F1 F2 C; try discriminate; cbn [nth_error] in *; [reflexivity| | |].
  - injection H1 as ->. cbn [filter] in C. rewrite F1 in C. assert (Q := cnt_nth _ _ _ _ _ H2 F2). unfold cnt in Q. cbn [length] in C. lia.
  - injection H2 as ->. cbn [filter] in C. rewrite F2 in C. assert (Q := cnt_nth _ _ _ _ _ H1 F1). unfold cnt in Q. cbn [length] in C. lia.
  - f_equal. eapply IH; eauto. cbn [filter] in C. destruct (f z); cbn [length] in C; lia.
Qed.
Definition active (c : kph) : bool := match c with KIdle => false | _ => true end.
Definition waits (c : kph) : bool := match c with KWait _ => true | _ => false end.
Lemma cnt_repeat : forall n, cnt active (repeat KIdle n) = 0 /\ cnt waits (repeat KIdle n) = 0.
Proof. intro n. unfold cnt. induction n as [|n [IH1 IH2]]; cbn [repeat filter active waits]; [split; reflexivity|]. split; assumption. Qed.
Lemma waits_active : forall l, cnt waits l <= cnt active l.
Proof. intro l. unfold cnt. induction l as [|[] l IH]; cbn [filter waits active length]; lia. Qed.

Lemma open_app : forall a b, open_requests (a ++ b) = open_requests a + open_requests b.
Proof. intros a b. unfold open_requests. rewrite map_app, fold_right_app. induction (map req_weight a) as [|x l IH]; cbn [fold_right]; lia. Qed.

Record inv (s : lst) (t : list ev) : Prop := mkInv {
  iv_tok : cnt active (callers s) = if token s then 0 else 1;
  iv_open : open_requests t = cnt waits (callers s);
  iv_wait : forall k op, nth_error (callers s) k = Some (KWait op) -> exists u r v, t = u ++ ESent k (op :: r) :: v /\ Forall (fun e => ~ is_req_ev e) v;
  iv_rsp : responses t = taken t ++ match blk s with Some b => [b] | None => [] end;
  iv_blk : forall b, blk s = Some b -> is_rsp b = true }.

Lemma inv_init : forall n, inv (linit n) [].
Proof.
  intro n. destruct (cnt_repeat n) as [A B]. constructor; cbn [linit callers token blk].
  - exact A.
  - rewrite B. reflexivity.
  - intros k op H. apply nth_error_In, repeat_spec in H. discriminate.
  - reflexivity.
  - discriminate.
Qed.
Lemma responses_app : forall a b, responses (a ++ b) = responses a ++ responses b. Proof. intros. apply flat_map_app. Qed.
Lemma taken_app : forall a b, taken (a ++ b) = taken a ++ taken b. Proof. intros. apply flat_map_app. Qed.
Lemma wait_keep : forall (t e : list ev) k op, (exists u r v, t = u ++ ESent k (op :: r) :: v /\ Forall (fun e => ~ is_req_ev e) v) -> Forall (fun x => ~ is_req_ev x) e ->
  exists u r v, t ++ e = u ++ ESent k (op :: r) :: v /\ Forall (fun e => ~ is_req_ev e) v.
Proof.
  intros t e k op (u & r & v & -> & F) E. exists u, r, (v ++ e). split; [now rewrite <- app_assoc|]. apply Forall_app. now split.
Qed.
Lemma loop_step_spec : forall s b, blk s = None -> let s' := fst (loop_step s b) in let e := snd (loop_step s b) in
  token s' = token s /\ callers s' = callers s /\ Forall (fun x => ~ is_req_ev x) e /\ open_requests e = 0 /\ taken e = [] /\
  responses e = match blk s' with Some x => [x] | None => [] end /\ (forall x, blk s' = Some x -> is_rsp x = true).
Proof.
  intros s b N s' e. subst s' e. unfold loop_step. destruct b as [|x b].
  - cbn. rewrite N. repeat split; try discriminate. repeat constructor; auto.
  - assert (RS : is_rsp (x :: b) = negb (is_req (x :: b)) && negb (is_note (x :: b))) by reflexivity.
    destruct (is_req (x :: b)) eqn:Q.
    + destruct (Nat.ltb _ 10); cbn [fst snd token callers blk]; rewrite ?N; unfold responses; change response_pdu with is_rsp; cbn [flat_map]; rewrite RS; (split; [reflexivity|]); (split; [reflexivity|]); (split; [repeat constructor; auto|]); (split; [reflexivity|]); (split; [reflexivity|]); (split; [reflexivity|discriminate]).
    + destruct (is_note (x :: b)) eqn:M.
      * destruct (Nat.ltb _ 16), (is_ind (x :: b)); cbn [fst snd token callers blk app]; rewrite ?N; unfold responses; change response_pdu with is_rsp; cbn [flat_map]; rewrite RS; (split; [reflexivity|]); (split; [reflexivity|]); (split; [repeat constructor; auto|]); (split; [reflexivity|]); (split; [reflexivity|]); (split; [reflexivity|discriminate]).
      * cbn [fst snd token callers blk]. unfold responses. change response_pdu with is_rsp. cbn [flat_map]. rewrite RS. repeat (split; [try reflexivity; repeat constructor; auto|]). intros y E. injection E as <-. exact RS.
Qed.
Lemma waiter_unique : forall s t j k op x, inv s t -> nth_error (callers s) j = Some (KWait op) -> nth_error (callers s) k = Some x -> active x = true -> j = k.
Proof.
  intros s t j k op x I J K A. eapply cnt_two with (f := active); [exact J|exact K|reflexivity|exact A|]. rewrite (iv_tok _ _ I). destruct (token s); lia.
Qed.
Lemma inv_step : forall s t e s', inv s t -> lstep s e s' -> inv s' (t ++ e).
Proof.
  intros s t e s' I H.
  assert (END : forall k old, nth_error (callers s) k = Some old -> active old = true -> forall j op, nth_error (upd (callers s) k KIdle) j = Some (KWait op) -> False).
  { intros k old K A j op J. rewrite nth_error_upd in J. destruct (Nat.eqb k j) eqn:E; [destruct (Nat.ltb _ _); discriminate J|]. apply Nat.eqb_neq in E. apply E. symmetry. eapply waiter_unique; eauto. }
  assert (TOK : forall k old, nth_error (callers s) k = Some old -> active old = true -> cnt active (callers s) = 1).
  { intros k old K A. assert (Q := cnt_nth _ active _ _ _ K A). assert (P := iv_tok _ _ I). destruct (token s); lia. }
  assert (NW : forall k, nth_error (callers s) k = Some KHold -> cnt waits (callers s) = 0).
  { intros k K. destruct (Z.eq_dec (cnt waits (callers s)) 0) as [E|E]; [exact E|]. exfalso.
    assert (EX : exists j op, nth_error (callers s) j = Some (KWait op)).
    { clear - E. unfold cnt in E. destruct (filter waits (callers s)) as [|x l] eqn:F; [cbn in E; lia|]. assert (IN : In x (filter waits (callers s))) by (rewrite F; now left). apply filter_In in IN. destruct IN as [IN W].
      apply In_nth_error in IN. destruct IN as [j J]. destruct x; try discriminate. eauto. }
    destruct EX as (j & op & J). assert (j = k) by (eapply waiter_unique; eauto). subst. congruence. }
  destruct H as [s k T K|s k op r K|s k K|s k K|s b AL BN|s k op b K BL M|s k op b K BL M|s k op b K BL M|s k op K|s k op K FL|s AL BN|s b q Q|s b q Q]; cbn [set_caller set_blk callers token blk].
  - constructor; cbn [set_caller callers token blk].
    + rewrite (cnt_upd _ _ _ _ _ _ K). cbn [active]. rewrite (iv_tok _ _ I), T. lia.
    + rewrite app_nil_r, (cnt_upd _ _ _ _ _ _ K). cbn [waits]. rewrite (iv_open _ _ I). lia.
    + intros j op J. rewrite nth_error_upd in J. destruct (Nat.eqb k j); [destruct (Nat.ltb _ _); discriminate J|]. rewrite app_nil_r. now apply (iv_wait _ _ I).
    + rewrite app_nil_r. apply (iv_rsp _ _ I).
    + apply (iv_blk _ _ I).
  - constructor; cbn [set_caller callers token blk].
    + rewrite (cnt_upd _ _ _ _ _ _ K). cbn [active]. rewrite (TOK k _ K eq_refl). lia.
    + rewrite open_app, (cnt_upd _ _ _ _ _ _ K), (iv_open _ _ I). cbn [waits]. change (open_requests [ESent k (op :: r)]) with 1. lia.
    + intros j op' J. rewrite nth_error_upd in J. destruct (Nat.eqb k j) eqn:E.
      * destruct (Nat.ltb _ _); [|discriminate J]. injection J as <-. apply Nat.eqb_eq in E. subst j. exists t, r, []. split; [reflexivity|constructor].
      * exfalso. apply Nat.eqb_neq in E. apply E. symmetry. eapply waiter_unique; eauto.
    + rewrite responses_app, taken_app, (iv_rsp _ _ I). cbn. now rewrite !app_nil_r.
    + apply (iv_blk _ _ I).
  - constructor; cbn [set_caller callers token blk].
    + rewrite (cnt_upd _ _ _ _ _ _ K). cbn [active]. rewrite (TOK k _ K eq_refl). lia.
    + rewrite open_app, (cnt_upd _ _ _ _ _ _ K), (iv_open _ _ I). cbn [waits]. change (open_requests [ECmd k]) with 0. lia.
    + intros j op J. exfalso. eapply (END k); eauto.
    + rewrite responses_app, taken_app, (iv_rsp _ _ I). cbn. now rewrite !app_nil_r.
    + apply (iv_blk _ _ I).
  - constructor; cbn [set_caller callers token blk].
    + rewrite (cnt_upd _ _ _ _ _ _ K). cbn [active]. rewrite (TOK k _ K eq_refl). lia.
    + rewrite app_nil_r, (cnt_upd _ _ _ _ _ _ K), (iv_open _ _ I). cbn [waits]. lia.
    + intros j op J. exfalso. eapply (END k); eauto.
    + rewrite app_nil_r. apply (iv_rsp _ _ I).
    + apply (iv_blk _ _ I).
  - destruct (loop_step_spec s b BN) as (S1 & S2 & S3 & S4 & S5 & S6 & S7). set (s' := fst (loop_step s b)) in *. set (e := snd (loop_step s b)) in *. constructor.
    + rewrite S2, S1. apply (iv_tok _ _ I).
    + rewrite open_app, S4, S2, (iv_open _ _ I). lia.
    + intros j op J. rewrite S2 in J. apply wait_keep; [|exact S3]. now apply (iv_wait _ _ I).
    + rewrite responses_app, taken_app, S5, S6, (iv_rsp _ _ I), BN. now rewrite !app_nil_r.
    + exact S7.
  - constructor; cbn [set_caller set_blk callers token blk].
    + rewrite (cnt_upd _ _ _ _ _ _ K). cbn [active]. rewrite (TOK k _ K eq_refl). lia.
    + rewrite open_app, (cnt_upd _ _ _ _ _ _ K), (iv_open _ _ I). cbn [waits]. change (open_requests [EGot k b]) with (-1). lia.
    + intros j op' J. exfalso. eapply (END k); eauto.
    + rewrite responses_app, taken_app, (iv_rsp _ _ I), BL. cbn. now rewrite !app_nil_r.
    + discriminate.
  - constructor; cbn [set_caller set_blk callers token blk].
    + apply (iv_tok _ _ I).
    + rewrite open_app, (iv_open _ _ I). change (open_requests [ERej k b]) with 0. lia.
    + intros j op' J. apply wait_keep; [now apply (iv_wait _ _ I)|]. constructor; [auto|constructor].
    + rewrite responses_app, taken_app, (iv_rsp _ _ I), BL. cbn. now rewrite !app_nil_r.
    + discriminate.
  - constructor; cbn [set_caller set_blk callers token blk].
    + rewrite (cnt_upd _ _ _ _ _ _ K). cbn [active]. rewrite (TOK k _ K eq_refl). lia.
    + rewrite open_app, (cnt_upd _ _ _ _ _ _ K), (iv_open _ _ I). cbn [waits]. change (open_requests [ERej k b; EGave k]) with (-1). lia.
    + intros j op' J. exfalso. eapply (END k); eauto.
    + rewrite responses_app, taken_app, (iv_rsp _ _ I), BL. cbn. now rewrite !app_nil_r.
    + discriminate.
  - constructor; cbn [set_caller set_blk callers token blk].
    + rewrite (cnt_upd _ _ _ _ _ _ K). cbn [active]. rewrite (TOK k _ K eq_refl). lia.
    + rewrite open_app, (cnt_upd _ _ _ _ _ _ K), (iv_open _ _ I). cbn [waits]. change (open_requests [EGave k]) with (-1). lia.
    + intros j op' J. exfalso. eapply (END k); eauto.
    + rewrite responses_app, taken_app, (iv_rsp _ _ I). cbn. now rewrite !app_nil_r.
    + apply (iv_blk _ _ I).
  - constructor; cbn [set_caller set_blk callers token blk].
    + rewrite (cnt_upd _ _ _ _ _ _ K). cbn [active]. rewrite (TOK k _ K eq_refl). lia.
    + rewrite open_app, (cnt_upd _ _ _ _ _ _ K), (iv_open _ _ I). cbn [waits]. change (open_requests [EGave k]) with (-1). lia.
    + intros j op' J. exfalso. eapply (END k); eauto.
    + rewrite responses_app, taken_app, (iv_rsp _ _ I). cbn. now rewrite !app_nil_r.
    + apply (iv_blk _ _ I).
  - destruct I. rewrite app_nil_r. constructor; auto.
  - destruct I as [I1 I2 I3 I4 I5]. constructor; cbn [callers token blk]; auto.
    + rewrite open_app, I2. cbn. lia.
    + intros j op J. apply wait_keep; [now apply I3|]. constructor; [auto|constructor].
    + rewrite responses_app, taken_app, I4. cbn. now rewrite !app_nil_r.
  - destruct I as [I1 I2 I3 I4 I5]. constructor; cbn [callers token blk]; auto.
    + rewrite open_app, I2. cbn. lia.
    + intros j op J. apply wait_keep; [now apply I3|]. constructor; [auto|constructor].
    + rewrite responses_app, taken_app, I4. cbn. now rewrite !app_nil_r.
Qed.
Lemma inv_runs : forall n t s, lruns (linit n) t s -> inv s t.
Proof.
  intros n t s H. remember (linit n) as s0 eqn:E. induction H as [s|s t s1 e s2 H IH S]; [subst; apply inv_init|]. eapply inv_step; eauto.
Qed.

(** C28: notifications *)
Lemma notes_app : forall a b, notes (a ++ b) = notes a ++ notes b. Proof. intros. apply flat_map_app. Qed.
Lemma handed_app : forall a b, handed (a ++ b) = handed a ++ handed b. Proof. intros. apply flat_map_app. Qed.
Lemma drops_app : forall a b, drops (a ++ b) = drops a ++ drops b. Proof. intros. apply flat_map_app. Qed.
Lemma merge_app : forall A (a b l : list A), merge a b l -> forall a' b' l', merge a' b' l' -> merge (a ++ a') (b ++ b') (l ++ l').
Proof. intros A a b l H. induction H; intros a' b' l' H'; cbn [app]; [exact H'|apply mg_l; auto|apply mg_r; auto]. Qed.
Lemma merge_lnil : forall A (a : list A), merge a [] a. Proof. intros A a. induction a; constructor; auto. Qed.
Lemma is_note_not_req : forall b, is_note b = true -> is_req b = false.
Proof. intros b H. unfold is_note, is_req in *. apply orb_true_iff in H. destruct H as [H|H]; apply Z.eqb_eq in H; rewrite H; reflexivity. Qed.
Lemma ind_note : forall b, is_ind b = true -> is_note b = true. Proof. intros b H. unfold is_note, is_ind in *. rewrite H. apply orb_true_r. Qed.
Record ninv (s : lst) (t : list ev) : Prop := mkNinv {
  nv_merge : merge (handed t ++ nq s) (drops t) (notes t);
  nv_len : (length (nq s) <= 16)%nat;
  nv_cfm : confirmations t = indications t }.
Lemma conf_app : forall a b, confirmations (a ++ b) = (confirmations a + confirmations b)%nat. Proof. intros. unfold confirmations. now rewrite filter_app, app_length. Qed.
Lemma indi_app : forall a b, indications (a ++ b) = (indications a + indications b)%nat. Proof. intros. unfold indications. now rewrite filter_app, app_length. Qed.
Lemma loop_step_notes : forall s b, let s' := fst (loop_step s b) in let e := snd (loop_step s b) in
  (length (nq s) <= 16)%nat ->
  handed e = [] /\ (exists q, nq s' = nq s ++ q /\ merge q (drops e) (notes e)) /\ (length (nq s') <= 16)%nat /\ confirmations e = indications e.
Proof.
  intros s b s' e L. subst s' e. unfold loop_step. destruct b as [|x b].
  - cbn. split; [reflexivity|]. split; [|split; [exact L|reflexivity]]. exists []. split; [now rewrite app_nil_r|constructor].
  - destruct (is_req (x :: b)) eqn:Q.
    + assert (N : is_note (x :: b) = false) by (destruct (is_note (x :: b)) eqn:N; [apply is_note_not_req in N; congruence|reflexivity]).
      assert (D : is_ind (x :: b) = false) by (destruct (is_ind (x :: b)) eqn:D; [apply ind_note in D; congruence|reflexivity]).
      destruct (Nat.ltb _ 10); cbn [fst snd nq]; unfold handed, drops, notes, confirmations, indications; change notification_pdu with is_note; change indication_pdu with is_ind; cbn [flat_map filter]; rewrite N, D; (split; [reflexivity|]); (split; [|split; [exact L|reflexivity]]); exists []; (split; [now rewrite app_nil_r|constructor]).
    + destruct (is_note (x :: b)) eqn:N.
      * destruct (Nat.ltb (length (nq s)) 16) eqn:LT; destruct (is_ind (x :: b)) eqn:D; cbn [fst snd nq app]; unfold handed, drops, notes, confirmations, indications; change notification_pdu with is_note; change indication_pdu with is_ind; cbn [flat_map filter]; rewrite N, D; (split; [reflexivity|]).
        -- split; [|split; [rewrite app_length; cbn [length]; lia|reflexivity]]. exists [x :: b]. split; [reflexivity|]. repeat constructor.
        -- split; [|split; [rewrite app_length; cbn [length]; lia|reflexivity]]. exists [x :: b]. split; [reflexivity|]. repeat constructor.
        -- split; [|split; [exact L|reflexivity]]. exists []. split; [now rewrite app_nil_r|repeat constructor].
        -- split; [|split; [exact L|reflexivity]]. exists []. split; [now rewrite app_nil_r|repeat constructor].
      * assert (D : is_ind (x :: b) = false) by (destruct (is_ind (x :: b)) eqn:D; [apply ind_note in D; congruence|reflexivity]).
        cbn [fst snd nq]; unfold handed, drops, notes, confirmations, indications; change notification_pdu with is_note; change indication_pdu with is_ind; cbn [flat_map filter]; rewrite N, D; (split; [reflexivity|]); (split; [|split; [exact L|reflexivity]]); exists []; (split; [now rewrite app_nil_r|constructor]).
Qed.
Lemma ninv_step : forall s t e s', ninv s t -> lstep s e s' -> ninv s' (t ++ e).
Proof.
  intros s t e s' [M L C] H.
  assert (G : forall e', handed e' = [] -> drops e' = [] -> notes e' = [] -> confirmations e' = 0%nat -> indications e' = 0%nat -> forall s', nq s' = nq s -> ninv s' (t ++ e')).
  { intros e' H1 H2 H3 H4 H5 s1 E. constructor.
    - rewrite handed_app, drops_app, notes_app, H1, H2, H3, !app_nil_r, E. exact M.
    - now rewrite E.
    - rewrite conf_app, indi_app, H4, H5. lia. }
  destruct H as [s k T K|s k op r K|s k K|s k K|s b AL BN|s k op b K BL M0|s k op b K BL M0|s k op b K BL M0|s k op K|s k op K FL|s AL BN|s b q Q|s b q Q]; try (apply G; reflexivity).
  - destruct (loop_step_notes s b L) as (H1 & (q & H2 & H3) & H4 & H5). set (s1 := fst (loop_step s b)) in *. set (e := snd (loop_step s b)) in *. constructor.
    + rewrite handed_app, drops_app, notes_app, H1, app_nil_r, H2. rewrite app_assoc. now apply merge_app.
    + exact H4.
    + rewrite conf_app, indi_app, H5. lia.
  - constructor.
    + rewrite handed_app, drops_app, notes_app. cbn [handed drops notes flat_map nq app]. rewrite !app_nil_r, <- app_assoc. cbn [app]. rewrite <- Q. exact M.
    + cbn [nq]. rewrite Q in L. cbn [length] in L. lia.
    + rewrite conf_app, indi_app. cbn. lia.
Qed.
Lemma ninv_runs : forall n t s, lruns (linit n) t s -> ninv s t.
Proof.
  intros n t s H. remember (linit n) as s0 eqn:E. induction H as [s|s t s1 e s2 H IH S]; [subst; constructor; cbn; [constructor|lia|reflexivity]|]. eapply ninv_step; eauto.
Qed.

(** cutting a run at an event *)
Lemma split_app : forall {A} (a b c : list A) x d, a ++ b = c ++ x :: d -> (exists d', a = c ++ x :: d' /\ d = d' ++ b) \/ (exists c', c = a ++ c' /\ b = c' ++ x :: d).
Proof.
  intros A a. induction a as [|y a IH]; intros b c x d H; cbn [app] in H.
  - right. now exists c.
  - destruct c as [|z c]; cbn [app] in H.
    + injection H as -> <-. left. now exists a.
    + injection H as -> H. destruct (IH _ _ _ _ H) as [(d' & -> & ->)|(c' & -> & ->)]; [left; now exists d'|right; now exists c'].
Qed.
Lemma run_split : forall s t s', lruns s t s' -> forall t1 x t2, t = t1 ++ x :: t2 -> exists ta sa e1 e2 sb, lruns s ta sa /\ lstep sa (e1 ++ x :: e2) sb /\ t1 = ta ++ e1.
Proof.
  intros s t s' H. induction H as [s|s t s1 e s2 H IH S]; intros t1 x t2 E; [destruct t1; discriminate|].
  destruct (split_app _ _ _ _ _ E) as [(d' & E1 & _)|(c' & -> & ->)]; [exact (IH _ _ _ E1)|].
  exists t, s1, c', t2, s2. auto.
Qed.
Lemma single : forall {A} (a : list A) x b y, a ++ x :: b = [y] -> a = [] /\ x = y /\ b = [].
Proof. intros A [|z a] x b y H; [injection H as -> ->; auto|]. injection H as -> H. destruct a; discriminate. Qed.
Lemma pair_ev : forall {A} (a : list A) x b y z, a ++ x :: b = [y; z] -> (a = [] /\ x = y /\ b = [z]) \/ (a = [y] /\ x = z /\ b = []).
Proof. intros A [|w a] x b y z H; injection H as -> H; [left; subst; auto|]. right. apply single in H. destruct H as (-> & -> & ->). auto. Qed.
Lemma got_step : forall s e1 k b e2 s', lstep s (e1 ++ EGot k b :: e2) s' -> e1 = [] /\ exists op, nth_error (callers s) k = Some (KWait op) /\ blk s = Some b /\ matches op b = true.
Proof.
  intros s e1 k b e2 s' H. remember (e1 ++ EGot k b :: e2) as e eqn:E.
  destruct H as [s k0 T K|s k0 op r K|s k0 K|s k0 K|s b0 AL BN|s k0 op b0 K BL M|s k0 op b0 K BL M|s k0 op b0 K BL M|s k0 op K|s k0 op K FL|s AL BN|s b0 q Q|s b0 q Q];
    try (destruct e1; discriminate E); try (symmetry in E; apply single in E; destruct E as (_ & E & _); discriminate E).
  - exfalso. destruct (loop_step_spec s b0 BN) as (_ & _ & F & _). rewrite E in F. rewrite Forall_app in F. destruct F as [_ F]. inversion F as [|? ? F1 _]; subst. now apply F1.
  - symmetry in E. apply single in E. destruct E as (-> & E & _). injection E as -> ->. split; [reflexivity|]. exists op. auto.
  - symmetry in E. apply pair_ev in E. destruct E as [(_ & E & _)|(_ & E & _)]; discriminate E.
Qed.
Lemma drop_step : forall s e1 b e2 s', (length (nq s) <= 16)%nat -> lstep s (e1 ++ EDrop b :: e2) s' -> e1 = [ERx b] /\ is_note b = true /\ length (nq s) = 16%nat.
Proof.
  intros s e1 b e2 s' L H. remember (e1 ++ EDrop b :: e2) as e eqn:E.
  destruct H as [s k0 T K|s k0 op r K|s k0 K|s k0 K|s b0 AL BN|s k0 op b0 K BL M|s k0 op b0 K BL M|s k0 op b0 K BL M|s k0 op K|s k0 op K FL|s AL BN|s b0 q Q|s b0 q Q];
    try (destruct e1; discriminate E); try (symmetry in E; apply single in E; destruct E as (_ & E & _); discriminate E).
  - symmetry in E. unfold loop_step in E. destruct b0 as [|y b0]; [cbn [snd] in E; apply pair_ev in E; destruct E as [(_ & E & _)|(_ & E & _)]; discriminate E|].
    destruct (is_req (y :: b0)); [destruct (Nat.ltb _ 10); cbn [snd] in E; [apply single in E; destruct E as (_ & E & _); discriminate E|apply pair_ev in E; destruct E as [(_ & E & _)|(_ & E & _)]; discriminate E]|].
    destruct (is_note (y :: b0)) eqn:N; [|cbn [snd] in E; apply single in E; destruct E as (_ & E & _); discriminate E].
    destruct (Nat.ltb (length (nq s)) 16) eqn:LT; cbn [snd] in E.
    + destruct (is_ind (y :: b0)); cbn [app] in E; [apply pair_ev in E; destruct E as [(_ & E & _)|(_ & E & _)]; discriminate E|apply single in E; destruct E as (_ & E & _); discriminate E].
    + cbn [app] in E. destruct e1 as [|z e1]; [discriminate E|]. injection E as -> E. destruct e1 as [|z e1].
      * injection E as -> _. split; [reflexivity|]. split; [exact N|lia].
      * injection E as -> E. destruct (is_ind (y :: b0)); [apply single in E; destruct E as (_ & E & _); discriminate E|destruct e1; discriminate E].
  - symmetry in E. apply pair_ev in E. destruct E as [(_ & E & _)|(_ & E & _)]; discriminate E.
Qed.
Lemma merge_length : forall A (a b l : list A), merge a b l -> length l = (length a + length b)%nat.
Proof. intros A a b l H. induction H; cbn [length]; lia. Qed.

(** C27: freshness *)
Definition no_give (t : list ev) : Prop := forall k, ~ In (EGave k) t.
Lemma polite_app : forall a b, polite (a ++ b) -> polite a.
Proof. intros a b P t1 x t2 E R. apply (P t1 x (t2 ++ b)); [rewrite E, <- app_assoc; reflexivity|exact R]. Qed.
Lemma sent_step : forall s e1 k r e2 s', lstep s (e1 ++ ESent k r :: e2) s' -> e1 = [].
Proof.
  intros s e1 k b e2 s' H. remember (e1 ++ ESent k b :: e2) as e eqn:E.
  destruct H as [s k0 T K|s k0 op r K|s k0 K|s k0 K|s b0 AL BN|s k0 op b0 K BL M|s k0 op b0 K BL M|s k0 op b0 K BL M|s k0 op K|s k0 op K FL|s AL BN|s b0 q Q|s b0 q Q];
    try (destruct e1; discriminate E); try (symmetry in E; apply single in E; destruct E as (E0 & E & _); try discriminate E; exact E0).
  - exfalso. destruct (loop_step_spec s b0 BN) as (_ & _ & F & _). rewrite E in F. rewrite Forall_app in F. destruct F as [_ F]. inversion F as [|? ? F1 _]; subst. now apply F1.
  - symmetry in E. apply pair_ev in E. destruct E as [(_ & E & _)|(_ & E & _)]; discriminate E.
Qed.
Lemma open_none : forall v, Forall (fun e => ~ is_req_ev e) v -> open_requests v = 0.
Proof.
  intros v F. induction F as [|e v N F IH]; [reflexivity|]. unfold open_requests in *. cbn [map fold_right]. rewrite IH. destruct e; cbn in *; try reflexivity; exfalso; now apply N.
Qed.
Lemma waiter_exists : forall l, 1 <= cnt waits l -> exists j op, nth_error l j = Some (KWait op).
Proof.
  intros l E. unfold cnt in E. destruct (filter waits l) as [|x q] eqn:F; [cbn in E; lia|]. assert (IN : In x (filter waits l)) by (rewrite F; now left). apply filter_In in IN. destruct IN as [IN W].
  apply In_nth_error in IN. destruct IN as [j J]. destruct x; try discriminate. eauto.
Qed.
Definition fresh (s : lst) (t : list ev) : Prop := forall b, blk s = Some b -> exists u k op r v w,
  t = u ++ ESent k (op :: r) :: v ++ ERx b :: w /\ Forall (fun e => ~ is_req_ev e) v /\ Forall (fun e => ~ is_req_ev e) w /\ nth_error (callers s) k = Some (KWait op).
Lemma fresh_runs : forall n t s, lruns (linit n) t s -> polite t -> no_give t -> fresh s t.
Proof.
  intros n t s H. remember (linit n) as s0 eqn:E0. induction H as [s|s t s1 e s2 H IH S]; intros P N; [subst; discriminate|].
  subst s. assert (I := inv_runs _ _ _ H). specialize (IH eq_refl (polite_app _ _ P) ltac:(intros k K; apply (N k), in_or_app; now left)).
  assert (KEEP : forall s2, blk s2 = blk s1 -> callers s2 = callers s1 -> Forall (fun e => ~ is_req_ev e) e -> fresh s2 (t ++ e)).
  { intros s3 B C F b BB. rewrite B in BB. destruct (IH b BB) as (u & k & op & r & v & w & -> & F1 & F2 & K). exists u, k, op, r, v, (w ++ e). split; [now rewrite <- !app_assoc; cbn [app]; rewrite <- app_assoc|]. split; [exact F1|]. split; [apply Forall_app; now split|congruence]. }
  assert (NOB : (exists k x, nth_error (callers s1) k = Some x /\ x <> KIdle /\ waits x = false) \/ token s1 = true -> blk s1 = None).
  { intro Q. destruct (blk s1) as [b|] eqn:BB; [|reflexivity]. exfalso. destruct (IH b BB) as (u & k & op & r & v & w & _ & _ & _ & K).
    destruct Q as [(k' & x & K' & NI & NW)|TK].
    - assert (k = k') by (eapply waiter_unique; eauto; destruct x; try reflexivity; congruence). subst. rewrite K in K'. injection K' as <-. discriminate.
    - assert (Q := iv_tok _ _ I). rewrite TK in Q. assert (Q2 := cnt_nth _ active _ _ _ K eq_refl). lia. }
  destruct S as [s k T K|s k op r K|s k K|s k K|s b AL BN|s k op b K BL M|s k op b K BL M|s k op b K BL M|s k op K|s k op K FL|s AL BN|s b q Q|s b q Q].
  - intros b BB. cbn [set_caller blk] in BB. rewrite NOB in BB by now right. discriminate.
  - intros b BB. cbn [set_caller blk] in BB. rewrite NOB in BB by (left; exists k, KHold; repeat split; [exact K|discriminate]). discriminate.
  - intros b BB. cbn [set_caller blk] in BB. rewrite NOB in BB by (left; exists k, KHold; repeat split; [exact K|discriminate]). discriminate.
  - intros b BB. cbn [set_caller blk] in BB. rewrite NOB in BB by (left; exists k, KHold; repeat split; [exact K|discriminate]). discriminate.
  - intros b' BB. destruct (loop_step_spec s b BN) as (S1 & S2 & S3 & S4 & S5 & S6 & S7). rewrite BB in S6.
    assert (EB : b' = b /\ is_rsp b = true /\ snd (loop_step s b) = [ERx b]).
    { assert (R := S7 b' BB). clear - BB BN R. unfold loop_step in *. destruct b as [|x b]; [cbn [fst blk] in BB; congruence|]. destruct (is_req (x :: b)); [destruct (Nat.ltb _ 10); cbn [fst blk] in BB; congruence|].
      destruct (is_note (x :: b)); [destruct (Nat.ltb _ 16); cbn [fst blk] in BB; congruence|]. cbn [fst blk] in BB. injection BB as <-. auto. }
    destruct EB as (-> & RSP & EV). rewrite EV in P |- *.
    destruct (P t b [] eq_refl RSP) as (u & k & req & v & -> & F).
    destruct (run_split _ _ _ H u (ESent k req) v eq_refl) as (ta & sa & e1 & e2 & sb & RA & SA & EA). assert (e1 = []) by (eapply sent_step; eauto). subst e1. rewrite app_nil_r in EA. subst ta.
    assert (O : 1 <= cnt waits (callers s)).
    { rewrite <- (iv_open _ _ I), open_app. assert (IA := inv_runs _ _ _ RA). rewrite (iv_open _ _ IA). unfold open_requests at 1. cbn [map fold_right req_weight]. fold (open_requests v).
      rewrite (open_none v). { unfold cnt. lia. } apply Forall_impl with (2 := F). intros x [X _]. exact X. }
    destruct (waiter_exists _ O) as (j & op & J). destruct (iv_wait _ _ I j op J) as (u' & r & v' & E & F').
    exists u', j, op, r, v', []. split; [rewrite E, <- app_assoc; reflexivity|]. split; [exact F'|]. split; [constructor|]. rewrite S2. exact J.
  - intros b' BB. discriminate BB.
  - intros b' BB. discriminate BB.
  - intros b' BB. discriminate BB.
  - exfalso. apply (N k), in_or_app. right. now left.
  - exfalso. apply (N k), in_or_app. right. now left.
  - apply KEEP; [reflexivity|reflexivity|constructor].
  - apply KEEP; [reflexivity|reflexivity|]. constructor; [auto|constructor].
  - apply KEEP; [reflexivity|reflexivity|]. constructor; [auto|constructor].
Qed.
