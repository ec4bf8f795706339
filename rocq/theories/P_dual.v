(** The two sides of a client with an embedded server. *)
Require Import Verif.Base Verif.M_attdb Verif.M_attsrv Verif.S_attsrv Verif.P_attsrv2 Verif.M_srvloop Verif.S_srvloop Verif.P_srvloop Verif.P_srvloop4 Verif.M_dual Verif.S_dual.
Require Verif.M_attloop Verif.S_attloop Verif.P_attloop.

Lemma client_app : forall a b, client_view (a ++ b) = client_view a ++ client_view b. Proof. intros. apply flat_map_app. Qed.
Lemma server_app : forall a b, server_view (a ++ b) = server_view a ++ server_view b. Proof. intros. apply flat_map_app. Qed.
Lemma client_uc : forall e, client_view (map UC e) = e. Proof. induction e as [|x e IH]; [reflexivity|]. unfold client_view, server_view in *. cbn [map flat_map app]. now rewrite IH. Qed.
Lemma client_us : forall v, client_view (map US v) = []. Proof. induction v as [|x v IH]; [reflexivity|]. exact IH. Qed.
Lemma server_us : forall v, server_view (map US v) = v. Proof. induction v as [|x v IH]; [reflexivity|]. unfold client_view, server_view in *. cbn [map flat_map app]. now rewrite IH. Qed.
Lemma server_uc : forall e, server_view (map UC e) = []. Proof. induction e as [|x e IH]; [reflexivity|]. exact IH. Qed.

(** ** The client's side: an execution of M_attloop with one more caller *)
Lemma client_step : forall s e s', ustep s e s' -> M_attloop.lstep (cl s) (client_view e) (cl s') \/ (client_view e = [] /\ cl s' = cl s).
Proof.
  intros s e s' H. destruct H as [s e c' P L F R Z|s a s' v A L|s b q O W I|s k rsp W T I|s k rsp ok W I M|s k W|s O W AL]; cbn [cl].
  - left. rewrite client_uc. exact L.
  - right. split; [apply client_us|reflexivity].
  - left. exact (M_attloop.l_serve (cl s) b q I).
  - left. exact (M_attloop.l_acquire (cl s) 0 T I).
  - left. exact (M_attloop.l_send_fail (cl s) 0 I).
  - right. split; reflexivity.
  - right. split; reflexivity.
Qed.
Lemma client_runs : forall n s0 b t u, urun (uinit n s0 b) t u -> M_attloop.lruns (M_attloop.linit (S n)) (client_view t) (cl u).
Proof.
  intros n s0 b t u H. remember (uinit n s0 b) as i eqn:E. induction H as [s|s t s1 e s2 R IH ST]; [subst; constructor|]. specialize (IH E). rewrite client_app.
  destruct (client_step _ _ _ ST) as [L|[-> ->]]; [econstructor; eassumption|]. now rewrite app_nil_r.
Qed.

(** ** Requests of the peer: received, waiting, thrown away, given to the server *)
Definition creqs (t : list M_attloop.ev) : list bytes := flat_map (fun e => match e with M_attloop.ERx b => if M_attloop.is_req b then match b with [] => [] | _ => [b] end else [] | _ => [] end) t.
Definition cthrown (t : list M_attloop.ev) : list bytes := flat_map (fun e => match e with M_attloop.EDropReq b => [b] | _ => [] end) t.
Definition cgiven (t : list M_attloop.ev) : list bytes := flat_map (fun e => match e with M_attloop.EServe b => [b] | _ => [] end) t.
Lemma view_reqs : forall t, requests_in t = creqs (client_view t).
Proof. induction t as [|[e|v] t IH]; [reflexivity| |exact IH]. unfold requests_in, creqs, client_view in *. cbn [flat_map app]. rewrite IH. destruct e as [k q|b|k b|k b|k|k| |b|b|b|b|]; try reflexivity. destruct b; reflexivity. Qed.
Lemma view_thrown : forall t, thrown t = cthrown (client_view t).
Proof. induction t as [|[e|v] t IH]; [reflexivity| |exact IH]. unfold thrown, cthrown, client_view in *. cbn [flat_map app]. rewrite IH. reflexivity. Qed.
Lemma view_given : forall t, given t = cgiven (client_view t).
Proof. induction t as [|[e|v] t IH]; [reflexivity| |exact IH]. unfold given, cgiven, client_view in *. cbn [flat_map app]. rewrite IH. reflexivity. Qed.
Lemma creqs_app : forall a b, creqs (a ++ b) = creqs a ++ creqs b. Proof. intros. apply flat_map_app. Qed.
Lemma cthrown_app : forall a b, cthrown (a ++ b) = cthrown a ++ cthrown b. Proof. intros. apply flat_map_app. Qed.
Lemma cgiven_app : forall a b, cgiven (a ++ b) = cgiven a ++ cgiven b. Proof. intros. apply flat_map_app. Qed.
Record qinv (s : M_attloop.lst) (t : list M_attloop.ev) : Prop := mkQ {
  q_merge : S_attloop.merge (cgiven t ++ M_attloop.inq s) (cthrown t) (creqs t);
  q_len : (length (M_attloop.inq s) <= 10)%nat }.
Lemma loop_step_reqs : forall s b, let s' := fst (M_attloop.loop_step s b) in let e := snd (M_attloop.loop_step s b) in
  cgiven e = [] /\ exists q, M_attloop.inq s' = M_attloop.inq s ++ q /\ S_attloop.merge q (cthrown e) (creqs e) /\ ((length (M_attloop.inq s) <= 10)%nat -> (length (M_attloop.inq s') <= 10)%nat).
Proof.
  intros s b s' e. subst s' e. unfold M_attloop.loop_step. destruct b as [|x b].
  - split; [reflexivity|]. exists []. split; [cbn; now rewrite app_nil_r|]. split; [constructor|auto].
  - destruct (M_attloop.is_req (x :: b)) eqn:Q; [destruct (Nat.ltb (length (M_attloop.inq s)) 10) eqn:LT|].
    + cbn [fst snd M_attloop.inq]. unfold cgiven, cthrown, creqs. cbn [flat_map app]. rewrite Q. split; [reflexivity|]. exists [x :: b]. split; [reflexivity|]. split; [repeat constructor|]. intros _. apply Nat.ltb_lt in LT. rewrite app_length. cbn [length]. lia.
    + cbn [fst snd M_attloop.inq]. unfold cgiven, cthrown, creqs. cbn [flat_map app]. rewrite Q. split; [reflexivity|]. exists []. split; [now rewrite app_nil_r|]. split; [repeat constructor|auto].
    + destruct (M_attloop.is_note (x :: b)); [destruct (Nat.ltb (length (M_attloop.nq s)) 16); destruct (M_attloop.is_ind (x :: b))|];
        cbn [fst snd M_attloop.inq]; unfold cgiven, cthrown, creqs; cbn [flat_map app]; rewrite Q; (split; [reflexivity|]); exists []; (split; [now rewrite app_nil_r|]); (split; [repeat constructor|auto]).
Qed.
Lemma qinv_step : forall s t e s', qinv s t -> M_attloop.lstep s e s' -> qinv s' (t ++ e).
Proof.
  intros s t e s' [M L] H. assert (K : M_attloop.inq s' = M_attloop.inq s -> cgiven e = [] -> cthrown e = [] -> creqs e = [] -> qinv s' (t ++ e)).
  { intros A B C D. constructor; [rewrite cgiven_app, cthrown_app, creqs_app, B, C, D, A, !app_nil_r; exact M|rewrite A; exact L]. }
  destruct H; try (apply K; reflexivity).
  - destruct (loop_step_reqs s b) as (G & q & Q1 & Q2 & Q3). constructor; [|now apply Q3]. rewrite cgiven_app, cthrown_app, creqs_app, G, app_nil_r, Q1, app_assoc. now apply P_attloop.merge_app.
  - constructor; [|rewrite H in L; cbn in *; lia]. rewrite cgiven_app, cthrown_app, creqs_app. cbn [cgiven cthrown creqs flat_map app]. rewrite !app_nil_r, <- app_assoc. cbn [app M_attloop.inq]. rewrite H in M. exact M.
Qed.
Lemma qinv_runs : forall n t s, M_attloop.lruns (M_attloop.linit n) t s -> qinv s t.
Proof.
  intros n t s H. remember (M_attloop.linit n) as i eqn:E. induction H as [s|s t s1 e s2 R IH ST]; [subst; constructor; [constructor|cbn; lia]|]. exact (qinv_step _ _ _ _ (IH E) ST).
Qed.
