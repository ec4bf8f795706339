(** C142-C147: an attribute client with an embedded server (every connection made with Device.Dial has one), under every interleaving. *)
Require Import Verif.Base Verif.M_attdb Verif.M_attsrv Verif.S_attsrv Verif.Props_attsrv Verif.M_srvloop Verif.S_srvloop Verif.P_srvloop Verif.P_srvloop2 Verif.P_srvloop3 Verif.P_srvloop4 Verif.P_srvloop6
  Verif.M_dual Verif.S_dual Verif.P_dual Verif.P_dual2 Verif.P_dual3.
Require Verif.M_attloop Verif.S_attloop Verif.P_attloop Verif.Props_attloop.

(** ---- concrete executions ---- *)
Inductive lab := XTakeBuf (k : nat) | XSend (k : nat) (op : Z) (r : bytes) | XRx (b : bytes) | XGot (k : nat) | XGave (k : nat) | XReadErr | XServer (a : act) | XRecv | XTake | XWrite (ok : bool) | XNext | XStop.
Definition live (u : du) : bool := match hd (sl u) with HPanic => false | _ => true end.
Definition udo (u : du) (x : lab) : option (list uev * du) :=
  match x with
  | XTakeBuf (S k) => match M_attloop.token (cl u), nth_error (M_attloop.callers (cl u)) (S k) with
                  | true, Some M_attloop.KIdle => if live u then Some ([], mkDu (M_attloop.set_caller (cl u) false (S k) M_attloop.KHold) (sl u) (ap u)) else None | _, _ => None end
  | XSend (S k) op r => match nth_error (M_attloop.callers (cl u)) (S k) with
                  | Some M_attloop.KHold => if live u then Some ([UC (M_attloop.ESent (S k) (op :: r))], mkDu (M_attloop.set_caller (cl u) false (S k) (M_attloop.KWait op)) (sl u) (ap u)) else None | _ => None end
  | XRx b => if live u && M_attloop.alive (cl u) && Nat.leb (length b) 515 then match M_attloop.blk (cl u) with None => Some (map UC (snd (M_attloop.loop_step (cl u) b)), mkDu (fst (M_attloop.loop_step (cl u) b)) (sl u) (ap u)) | Some _ => None end else None
  | XGot (S k) => match nth_error (M_attloop.callers (cl u)) (S k), M_attloop.blk (cl u) with
                  | Some (M_attloop.KWait op), Some b => if live u && M_attloop.matches op b then Some ([UC (M_attloop.EGot (S k) b)], mkDu (M_attloop.set_blk (M_attloop.set_caller (cl u) true (S k) M_attloop.KIdle) None) (sl u) (ap u)) else None
                  | _, _ => None end
  | XGave (S k) => match nth_error (M_attloop.callers (cl u)) (S k) with
                  | Some (M_attloop.KWait op) => if live u then Some ([UC (M_attloop.EGave (S k))], mkDu (M_attloop.set_caller (cl u) true (S k) M_attloop.KIdle) (sl u) (ap u)) else None | _ => None end
  | XReadErr => if live u && M_attloop.alive (cl u) then match M_attloop.blk (cl u) with None => Some ([], mkDu (M_attloop.mkL (M_attloop.token (cl u)) (M_attloop.callers (cl u)) (M_attloop.blk (cl u)) (M_attloop.nq (cl u)) (M_attloop.inq (cl u)) true false) (sl u) (ap u)) | Some _ => None end else None
  | XServer a => if server_act a then match lstep (sl u) a with Some (s', v) => Some (map US v, mkDu (cl u) s' (ap u)) | None => None end else None
  | XRecv => match ap u, hd (sl u), M_attloop.inq (cl u) with AOn, HWait, b :: q => Some ([UC (M_attloop.EServe b)], mkDu (pop_inc (cl u) q) (set_hd (HGot 0) (set_bufs [mkB b (length b)] (sl u))) (ap u)) | _, _, _ => None end
  | XTake => match hd (sl u), M_attloop.token (cl u), nth_error (M_attloop.callers (cl u)) 0 with HWrite k rsp, true, Some M_attloop.KIdle => Some ([], mkDu (M_attloop.set_caller (cl u) false 0 M_attloop.KHold) (sl u) (ap u)) | _, _, _ => None end
  | XWrite ok => match hd (sl u), nth_error (M_attloop.callers (cl u)) 0 with
                  | HWrite k rsp, Some M_attloop.KHold => if may_write (sl u) rsp ok then Some ([US (VWrite SRsp rsp ok)], mkDu (M_attloop.set_caller (cl u) true 0 M_attloop.KIdle) (set_hd (HPut k) (sl u)) (ap u)) else None | _, _ => None end
  | XNext => match hd (sl u) with HPut k => Some ([], mkDu (cl u) (set_hd HWait (sl u)) (ap u)) | _ => None end
  | XStop => match ap u, hd (sl u), M_attloop.alive (cl u) with AOn, HWait, false => Some ([], mkDu (cl u) (sl u) AEnd) | _, _, _ => None end
  | _ => None
  end.
Lemma upd_keeps0 : forall {A} (l : list A) k x, nth_error (upd l (S k) x) 0 = nth_error l 0. Proof. intros A [|y l] k x; reflexivity. Qed.
Lemma live_ok : forall u, live u = true -> hd (sl u) <> HPanic. Proof. intros u H E. unfold live in H. rewrite E in H. discriminate. Qed.
Lemma loop_events : forall c b, (length b <= 515)%nat -> Forall no_serve (snd (M_attloop.loop_step c b)) /\ Forall readable (snd (M_attloop.loop_step c b)) /\ M_attloop.callers (fst (M_attloop.loop_step c b)) = M_attloop.callers c.
Proof.
  intros c b L. unfold M_attloop.loop_step. destruct b as [|x b]; [repeat split; repeat constructor; auto|].
  destruct (M_attloop.is_req (x :: b)); [destruct (Nat.ltb (length (M_attloop.inq c)) 10)|destruct (M_attloop.is_note (x :: b)); [destruct (Nat.ltb (length (M_attloop.nq c)) 16); destruct (M_attloop.is_ind (x :: b))|]];
    cbn [fst snd app M_attloop.callers]; (split; [|split; [|reflexivity]]); repeat (constructor; [first [exact Logic.I|exact L]|]); constructor.
Qed.
Lemma udo_step : forall u x e u', udo u x = Some (e, u') -> ustep u e u'.
Proof.
  intros u x e u' H. destruct x as [[|k]|[|k] op r|b|[|k]|[|k]| |a| | |ok| |]; cbn [udo] in H; try discriminate H.
  - destruct (M_attloop.token (cl u)) eqn:T; [|discriminate]. destruct (nth_error (M_attloop.callers (cl u)) (S k)) as [[| |]|] eqn:N; try discriminate H. destruct (live u) eqn:L; [|discriminate]. injection H as <- <-.
    apply (u_client u []); [now apply live_ok|now apply M_attloop.l_acquire|constructor|constructor|apply upd_keeps0].
  - destruct (nth_error (M_attloop.callers (cl u)) (S k)) as [[| |]|] eqn:N; try discriminate H. destruct (live u) eqn:L; [|discriminate]. injection H as <- <-.
    apply (u_client u [M_attloop.ESent (S k) (op :: r)]); [now apply live_ok|now apply M_attloop.l_send|repeat constructor|repeat constructor|apply upd_keeps0].
  - destruct (live u && M_attloop.alive (cl u) && Nat.leb (length b) 515) eqn:L; [|discriminate]. apply andb_true_iff in L. destruct L as [L LE]. apply andb_true_iff in L. destruct L as [L AL]. apply Nat.leb_le in LE.
    destruct (M_attloop.blk (cl u)) eqn:B; [discriminate|]. injection H as <- <-. destruct (loop_events (cl u) b LE) as (F1 & F2 & F3).
    apply u_client; [now apply live_ok|now apply M_attloop.l_rx|exact F1|exact F2|now rewrite F3].
  - destruct (nth_error (M_attloop.callers (cl u)) (S k)) as [[| |op]|] eqn:N; try discriminate H. destruct (M_attloop.blk (cl u)) as [b|] eqn:B; [|discriminate]. destruct (live u && M_attloop.matches op b) eqn:L; [|discriminate]. apply andb_true_iff in L. destruct L as [L M]. injection H as <- <-.
    apply (u_client u [M_attloop.EGot (S k) b]); [now apply live_ok|now apply M_attloop.l_got with op|repeat constructor|repeat constructor|apply upd_keeps0].
  - destruct (nth_error (M_attloop.callers (cl u)) (S k)) as [[| |op]|] eqn:N; try discriminate H. destruct (live u) eqn:L; [|discriminate]. injection H as <- <-.
    apply (u_client u [M_attloop.EGave (S k)]); [now apply live_ok|now apply M_attloop.l_timeout with op|repeat constructor|repeat constructor|apply upd_keeps0].
  - destruct (live u && M_attloop.alive (cl u)) eqn:L; [|discriminate]. apply andb_true_iff in L. destruct L as [L AL]. destruct (M_attloop.blk (cl u)) eqn:B; [discriminate|]. injection H as <- <-.
    apply (u_client u []); [now apply live_ok|rewrite <- B; now apply M_attloop.l_read_error|constructor|constructor|reflexivity].
  - destruct (server_act a) eqn:A; [|discriminate]. destruct (lstep (sl u) a) as [[s' v]|] eqn:L; [|discriminate]. injection H as <- <-. now apply u_server with a.
  - destruct (ap u) eqn:A; try discriminate. destruct (hd (sl u)) eqn:D; try discriminate. destruct (M_attloop.inq (cl u)) as [|b q] eqn:I; [discriminate|]. injection H as <- <-. rewrite <- A. now apply u_recv.
  - destruct (hd (sl u)) eqn:D; try discriminate. destruct (M_attloop.token (cl u)) eqn:T; [|discriminate]. destruct (nth_error (M_attloop.callers (cl u)) 0) as [[| |]|] eqn:N; try discriminate. injection H as <- <-. now apply u_take with k rsp.
  - destruct (hd (sl u)) eqn:D; try discriminate. destruct (nth_error (M_attloop.callers (cl u)) 0) as [[| |]|] eqn:N; try discriminate. destruct (may_write (sl u) rsp ok) eqn:M; [|discriminate]. injection H as <- <-. now apply u_write.
  - destruct (hd (sl u)) eqn:D; try discriminate. injection H as <- <-. now apply u_next with k.
  - destruct (ap u) eqn:A; try discriminate. destruct (hd (sl u)) eqn:D; try discriminate. destruct (M_attloop.alive (cl u)) eqn:AL; [discriminate|]. injection H as <- <-. now apply u_stop.
Qed.
Fixpoint uexec (u : du) (l : list lab) : option (list uev * du) :=
  match l with [] => Some ([], u) | x :: r => match udo u x with Some (e, u1) => match uexec u1 r with Some (t, u2) => Some (e ++ t, u2) | None => None end | None => None end end.
Lemma uexec_run : forall l u t u', uexec u l = Some (t, u') -> urun u t u'.
Proof.
  induction l as [|x l IH]; intros u t u' H; cbn [uexec] in H; [injection H as <- <-; constructor|]. destruct (udo u x) as [[e u1]|] eqn:D; [|discriminate]. destruct (uexec u1 l) as [[t1 u2]|] eqn:X; [|discriminate]. injection H as <- <-.
  exact (urun_trans _ _ _ _ _ (urun_one _ _ _ (udo_step _ _ _ _ D)) (IH _ _ _ X)).
Qed.
Definition usees (n : nat) (b : bool) (t : list uev) : Prop := exists u, urun (uinit n ex_s b) t u.
Lemma usees_exec : forall n b l t, option_map fst (uexec (uinit n ex_s b) l) = Some t -> usees n b t.
Proof. intros n b l t H. destruct (uexec (uinit n ex_s b) l) as [[t' u]|] eqn:X; [|discriminate]. injection H as ->. exists u. now apply uexec_run in X. Qed.
Lemma ex_new_d : new_server ex_db 515 23 = Some ex_s. Proof. reflexivity. Qed.
Definition answer : list lab := [XRecv; XServer (AHandle ex_e); XTake; XWrite true; XNext].

(** ** C142 *)
(** the peer's requests reach the handlers in their order, unmodified, each at most once; those missing were thrown away or wait *)
Theorem C142_in_order : forall d rx tx s0 n b t u, new_server d rx tx = Some s0 -> urun (uinit n s0 b) t u ->
  exists waiting, S_attloop.merge (map pdu_of (servings (server_view t)) ++ waiting) (thrown t) (requests_in t) /\ (length waiting <= 11)%nat.
Proof.
  intros d rx tx s0 n b t u N H. destruct (qinv_runs _ _ _ (client_runs _ _ _ _ _ H)) as [Q1 Q2]. destruct (z_given _ _ _ (sinv_runs _ _ _ _ _ _ _ _ N H)) as (rest & G & L & _).
  exists (rest ++ M_attloop.inq (cl u)). rewrite view_thrown, view_reqs, app_assoc, <- G, view_given. split; [exact Q1|]. rewrite app_length. lia.
Qed.
Print Assumptions C142_in_order.
Theorem C142_as_sequential : forall d rx tx s0 n b t u, new_server d rx tx = Some s0 -> urun (uinit n s0 b) t u -> exists s', served s0 (servings (server_view t)) s'.
Proof. intros d rx tx s0 n b t u N H. exists (sv (sl u)). exact (z_served _ _ _ (sinv_runs _ _ _ _ _ _ _ _ N H)). Qed.
Print Assumptions C142_as_sequential.
(** each answer is written (or its writing fails) before the next request is handled *)
Theorem C142_one_at_a_time : forall d rx tx s0 n b t u, new_server d rx tx = Some s0 -> urun (uinit n s0 b) t u ->
  exists ts tl, request_view (server_view t) = turns ts ++ tl /\ (tl = [] \/ exists e p r cs, r <> [] /\ tl = [VHandle e p (Some r) cs]).
Proof.
  intros d rx tx s0 n b t u N H. destruct (z_view _ _ _ (sinv_runs _ _ _ _ _ _ _ _ N H)) as (ts & tl & V & T). exists ts, tl. split; [exact V|]. unfold tail_ok in T.
  destruct (hd (sl u)); auto; destruct T as [[_ T]|(NE & e & p & cs & T)]; auto; right; exists e, p, rsp, cs; auto.
Qed.
Print Assumptions C142_one_at_a_time.
(** a request is thrown away only when ten others wait *)
Theorem C142_thrown_only_when_ten_wait : forall d rx tx s0 n b t u t1 r t2, new_server d rx tx = Some s0 -> urun (uinit n s0 b) t u -> t = t1 ++ UC (M_attloop.EDropReq r) :: t2 ->
  exists t0, t1 = t0 ++ [UC (M_attloop.ERx r)] /\ length (requests_in t0) = (length (thrown t0) + length (given t0) + 10)%nat.
Proof.
  intros d rx tx s0 n b t u t1 r t2 N H E. destruct (urun_split _ _ _ H _ _ _ E) as (ta & sa & e1 & e2 & sb & A & B & ->).
  destruct (qinv_runs _ _ _ (client_runs _ _ _ _ _ A)) as [Q1 Q2]. apply P_attloop.merge_length in Q1. rewrite app_length in Q1. rewrite <- view_reqs, <- view_thrown, <- view_given in Q1.
  remember (e1 ++ UC (M_attloop.EDropReq r) :: e2) as e eqn:EE. assert (I : In (UC (M_attloop.EDropReq r)) e) by (rewrite EE; apply in_or_app; right; now left).
  destruct B as [s e c' P L F R Y|s a s' v SA L|s bb q O W Q|s k rsp W T Q|s k rsp ok W Q M|s k W|s O W AL]; try contradiction.
  - apply in_map_iff in I. destruct I as (x & X & I). injection X as ->.
    assert (D : e = [M_attloop.ERx r; M_attloop.EDropReq r] /\ length (M_attloop.inq (cl s)) = 10%nat).
    { destruct L; cbn [In] in I; try (exfalso; intuition discriminate). unfold M_attloop.loop_step in I |- *. destruct b0 as [|y b0]; [cbn in I; exfalso; intuition discriminate|].
      destruct (M_attloop.is_req (y :: b0)); [destruct (Nat.ltb (length (M_attloop.inq s1)) 10) eqn:LT|destruct (M_attloop.is_note (y :: b0)); [destruct (Nat.ltb (length (M_attloop.nq s1)) 16); destruct (M_attloop.is_ind (y :: b0))|]]; cbn [snd app In] in I |- *; try (exfalso; intuition discriminate).
      destruct I as [I|[I|[]]]; [discriminate|]. injection I as <-. split; [reflexivity|]. apply Nat.ltb_ge in LT. lia. }
    destruct D as [-> D]. cbn [map] in EE. symmetry in EE. apply P_attloop.pair_ev in EE. destruct EE as [(_ & EE & _)|(-> & _ & _)]; [discriminate|]. exists ta. split; [reflexivity|]. lia.
  - apply in_map_iff in I. destruct I as (x & X & _). discriminate.
  - destruct I as [I|[]]. discriminate.
  - destruct I as [I|[]]. discriminate.
Qed.
Print Assumptions C142_thrown_only_when_ten_wait.
(** calls of Notifier.Write: as in C134, except that no indication is ever confirmed (C146) *)
Theorem C142_calls : forall d rx tx s0 n b t u k, new_server d rx tx = Some s0 -> urun (uinit n s0 b) t u ->
  writes k (server_view t) = [] /\ returned k (server_view t) = [] \/
  exists c p ok, nth_error (callers (sl u)) k = Some c /\ writes k (server_view t) = [(p, ok)] /\ carries (c_ind c) (c_vh c) (c_data c) p /\
    (returned k (server_view t) = [] /\ ok = true /\ c_ind c = true \/ exists r, returned k (server_view t) = [r] /\ result_fits (c_ind c) r ok 0).
Proof.
  intros d rx tx s0 n b t u k N H. pose proof (sinv_runs _ _ _ _ _ _ _ _ N H) as Z. destruct (z_calls _ _ _ Z) as (l & _ & [C1 C2 C3]). destruct (nth_error (callers (sl u)) k) as [c|] eqn:E.
  - pose proof (C2 k c E) as F. unfold phase_fits in F. rewrite (z_conf _ _ _ Z k) in F. destruct (c_ph c).
    + left. split; apply F.
    + left. split; apply F.
    + right. destruct F as (F1 & (p & F2 & F3) & F4 & _). exists c, p, true. split; [reflexivity|]. split; [exact F2|]. split; [exact F3|]. left. auto.
    + right. destruct F as (F1 & (p & F2 & F3) & F4 & _). exists c, p, true. split; [reflexivity|]. split; [exact F2|]. split; [exact F3|]. left. auto.
    + right. destruct F as (p & ok & F1 & F2 & F3 & F4). exists c, p, ok. split; [reflexivity|]. split; [exact F1|]. split; [exact F2|]. right. eauto.
  - left. apply nth_error_None in E. destruct (C3 k E) as (A & B & _). auto.
Qed.
Print Assumptions C142_calls.
(** a crash of the server's side comes from handling one of the peer's requests *)
Theorem C142_crash_only_in_request : forall d rx tx s0 n b t u, new_server d rx tx = Some s0 -> urun (uinit n s0 b) t u -> crashed (sl u) ->
  exists s' e p, served s0 (servings (server_view t)) s' /\ given t = map pdu_of (servings (server_view t)) ++ [p] /\ handle s' e p = Panic.
Proof.
  intros d rx tx s0 n b t u N H C. pose proof (sinv_runs _ _ _ _ _ _ _ _ N H) as Z. destruct (z_pan _ _ _ Z C) as (e & p & A & B). exists (sv (sl u)), e, p. split; [exact (z_served _ _ _ Z)|]. auto.
Qed.
Print Assumptions C142_crash_only_in_request.
(** the peer enables notifications and writes a value while a request of ours is answered *)
Example C142_example : usees 1 true [UC (M_attloop.ERx [18; 4; 0; 1; 0]); UC (M_attloop.EServe [18; 4; 0; 1; 0]); US (VHandle ex_e [18; 4; 0; 1; 0] (Some [19]) []); US (VWrite SRsp [19] true);
  UC (M_attloop.ESent 1 [10; 3; 0]); UC (M_attloop.ERx [18; 6; 0; 5]); UC (M_attloop.EServe [18; 6; 0; 5]); US (VHandle ex_e [18; 6; 0; 5] (Some [19]) [CWrite 6 [5]]);
  US (VWrite (SCall 0) [27; 3; 0; 7] true); US (VRet 0 COk); UC (M_attloop.ERx [11; 9]); UC (M_attloop.EGot 1 [11; 9]); US (VWrite SRsp [19] true)].
Proof.
  apply usees_exec with ([XRx [18; 4; 0; 1; 0]] ++ answer ++ [XTakeBuf 1; XSend 1 10 [3; 0]; XRx [18; 6; 0; 5]; XRecv; XServer (AHandle ex_e); XServer (ACall 0 [7]); XServer (ACTake 0); XServer (ACWrite 0 true); XRx [11; 9]; XGot 1; XTake; XWrite true]).
  vm_compute. reflexivity.
Qed.

(** ** C143 *)
(** an answer to the peer is never written between a request of ours and its end *)
Theorem C143_exclusive : forall n s0 b t u t1 p ok t2, urun (uinit n s0 b) t u -> t = t1 ++ US (VWrite SRsp p ok) :: t2 -> ~ own_pending t1.
Proof.
  intros n s0 b t u t1 p ok t2 H E P. pose proof (exclusion _ _ _ _ _ _ _ _ _ H E) as Z. assert (Q : 1 <= S_attloop.open_requests (client_view t1)); [|lia].
  apply open_pending; [|exact P]. intros a c ->. eapply (open_nonneg _ _ _ _ _ H a). rewrite E, <- app_assoc. reflexivity.
Qed.
Print Assumptions C143_exclusive.
(** what the client promises without a server it promises with one: one request of ours at a time; each response of the peer to one call, in order; indications confirmed once; notifications in order *)
Theorem C143_client_unchanged : forall n s0 b t u, urun (uinit n s0 b) t u -> let v := client_view t in
  0 <= S_attloop.open_requests v <= 1 /\
  (exists rest, S_attloop.responses v = S_attloop.taken v ++ rest /\ (length rest <= 1)%nat) /\
  (forall v1 k r v2, v = v1 ++ M_attloop.EGot k r :: v2 -> exists w op q x, v1 = w ++ M_attloop.ESent k (op :: q) :: x /\ Forall (fun e => ~ S_attloop.is_req_ev e) x /\ M_attloop.matches op r = true) /\
  S_attloop.confirmations v = S_attloop.indications v /\
  (exists waiting, S_attloop.merge (S_attloop.handed v ++ waiting) (S_attloop.drops v) (S_attloop.notes v) /\ (length waiting <= 16)%nat).
Proof.
  intros n s0 b t u H v. pose proof (client_runs _ _ _ _ _ H) as R. fold v in R. split; [exact (Props_attloop.C27_one_request _ _ _ R)|]. split; [exact (Props_attloop.C27_each_response_once _ _ _ R)|]. split.
  - intros v1 k r v2 E. destruct (P_attloop.run_split _ _ _ R _ _ _ E) as (ta & sa & e1 & e2 & sb & RA & SA & EA). destruct (P_attloop.got_step _ _ _ _ _ _ SA) as (-> & op & K & BL & M). rewrite app_nil_r in EA. subst ta.
    destruct (P_attloop.iv_wait _ _ (P_attloop.inv_runs _ _ _ RA) k op K) as (w & q & x & E1 & E2). exists w, op, q, x. auto.
  - split; [exact (Props_attloop.C28_confirmed_once _ _ _ R)|exact (Props_attloop.C28_in_order _ _ _ R)].
Qed.
Print Assumptions C143_client_unchanged.
Lemma turns_servings : forall t ts, request_view t = turns ts -> map pdu_of (servings t) = map (fun x => pdu_of (fst x)) ts.
Proof.
  intros t ts V. rewrite <- (map_map fst pdu_of). f_equal.
  assert (X : forall t', servings (request_view t') = servings t'). { clear. induction t' as [|v t' IH]; [reflexivity|]. destruct v as [ | |o p ok| | | | ]; cbn; try exact IH; [f_equal; exact IH|destruct o; exact IH]. }
  rewrite <- X, V. clear. induction ts as [|[[[[e p] o] cs] ok] ts IH]; [reflexivity|]. change (turns ((e, p, o, cs, ok) :: ts)) with (turn (e, p, o, cs) ok ++ turns ts). rewrite servings_app. cbn [map fst]. rewrite IH.
  cbn [turn]. destruct o as [[|]|]; reflexivity.
Qed.
Lemma no_rx_requests : forall t, no_rx t -> requests_in t = [] /\ thrown t = [].
Proof. induction t as [|x t IH]; intro F; [split; reflexivity|]. apply Forall_cons_iff in F. destruct F as [F1 F2]. destruct (IH F2) as [A B]. unfold requests_in, thrown in *. cbn [flat_map]. rewrite A, B. destruct x as [[]|]; try contradiction; split; reflexivity. Qed.
Lemma on_start : forall n s0 t u, urun (uinit n s0 true) t u -> M_attloop.alive (cl u) = true -> ap u = AOn.
Proof.
  intros n s0 t u H. remember (uinit n s0 true) as i eqn:E. induction H as [s|s t s1 e s2 R IH ST]; [subst; reflexivity|]. specialize (IH E).
  destruct ST as [s' e c' P L F Y0 Y|s' a s3 v A L|s' b q O W I|s' k rsp W T I|s' k rsp ok W I M|s' k W|s' O W AL]; cbn [cl ap]; try exact IH; [|congruence].
  intro A. apply IH. destruct L; cbn [M_attloop.set_caller M_attloop.set_blk M_attloop.alive] in A; try exact A; assumption.
Qed.
(** nothing gets stuck: from every state, without the peer sending anything more, every request that was not thrown away can still be handled and answered *)
Theorem C143_can_finish : forall d rx tx s0 n t u (en : env), new_server d rx tx = Some s0 -> urun (uinit n s0 true) t u -> M_attloop.alive (cl u) = true ->
  exists t' u', urun u t' u' /\ requests_in t' = [] /\
    (crashed (sl u') \/ exists ts, request_view (server_view (t ++ t')) = turns ts /\ S_attloop.merge (map (fun x => pdu_of (fst x)) ts) (thrown t) (requests_in t)).
Proof.
  intros d rx tx s0 n t u en N H AL. destruct (finish_all d rx tx n s0 true en N (M_attloop.inq (cl u)) u eq_refl (ex_intro _ t H) (on_start _ _ _ _ H AL)) as (t' & u' & R & F & S).
  destruct (no_rx_requests t' F) as [F1 F2]. exists t', u'. split; [exact R|]. split; [exact F1|]. destruct S as [S|(S1 & S2 & S3)]; [now left|]. right.
  pose proof (urun_trans _ _ _ _ _ H R) as HR. pose proof (sinv_runs _ _ _ _ _ _ _ _ N HR) as Z. destruct (z_view _ _ _ Z) as (ts & tl & V & T). rewrite S1 in T. cbn [tail_ok] in T. subst tl. rewrite app_nil_r in V. exists ts. split; [exact V|].
  rewrite <- (turns_servings _ _ V). destruct (z_given _ _ _ Z) as (rest & G & _ & GR). rewrite GR in G by (rewrite S1; discriminate). unfold got in G. rewrite S1, app_nil_r in G. rewrite <- G.
  destruct (qinv_runs _ _ _ (client_runs _ _ _ _ _ HR)) as [Q1 _]. rewrite S2, app_nil_r, <- view_reqs, <- view_thrown, <- view_given in Q1.
  assert (A1 : requests_in (t ++ t') = requests_in t) by (unfold requests_in in *; rewrite flat_map_app, F1; apply app_nil_r). assert (A2 : thrown (t ++ t') = thrown t) by (unfold thrown in *; rewrite flat_map_app, F2; apply app_nil_r). rewrite A1, A2 in Q1. exact Q1.
Qed.
Print Assumptions C143_can_finish.
Example C143_example : exists t u, urun (uinit 1 ex_s true) t u /\ own_pending t /\ M_attloop.alive (cl u) = true /\ requests_in t = [[18; 6; 0; 5]] /\ given t = [[18; 6; 0; 5]].
Proof.
  destruct (uexec (uinit 1 ex_s true) [XTakeBuf 1; XSend 1 10 [3; 0]; XRx [18; 6; 0; 5]; XRecv; XServer (AHandle ex_e)]) as [[t u]|] eqn:X; [|vm_compute in X; discriminate]. exists t, u. split; [now apply uexec_run in X|].
  vm_compute in X. injection X as <- <-. split; [|repeat split]. exists [], 1%nat, [10; 3; 0]. eexists. split; [reflexivity|]. repeat constructor.
Qed.

(** ** C144: "every request of the peer is answered" *)
(** the embedded server is attached after the client's Loop has been started (gatt/client.go:27-34, 59-62): if Loop looked first, no request is ever handled *)
Theorem C144_never_started_refuted : forall d rx tx s0 n t u, new_server d rx tx = Some s0 -> urun (uinit n s0 false) t u -> given t = [] /\ server_view t = [].
Proof.
  intros d rx tx s0 n t u N H. assert (NN : notifs s0 = []) by (unfold new_server in N; destruct (_ || _); [discriminate|]; injection N as <-; reflexivity).
  assert (X : given t = [] /\ server_view t = [] /\ ap u = AOff /\ sl u = linit s0).
  { remember (uinit n s0 false) as i eqn:E. induction H as [s|s t s1 e s2 R IH ST]; [subst; repeat split|]. destruct (IH E) as (A1 & A2 & A3 & A4). rewrite given_app, server_app, A1, A2.
    destruct ST as [s' e c' P L F Y0 Y|s' a s3 v A L|s' b q O W I|s' k rsp W T I|s' k rsp ok W I M|s' k W|s' O W AL]; cbn [cl ap sl app]; try congruence; try (rewrite A4 in W; discriminate W).
    - rewrite given_uc, server_uc by exact F. auto.
    - exfalso. rewrite A4 in L. unfold lstep in L. cbn [linit hd] in L. destruct a as [p| |nt dat| | |[j|]| | |e| | |ok| | | |j|j ok|j|j|j]; try discriminate A; cbn [live_step linit sv hd callers] in L; try discriminate L.
      + rewrite NN in L. destruct nt; discriminate L.
      + destruct j; discriminate L.
      + destruct j; discriminate L.
      + destruct j; discriminate L.
      + destruct j; discriminate L. }
  tauto.
Qed.
Print Assumptions C144_never_started_refuted.
(** while a request of ours is open the eleventh request that arrives after the one in work is thrown away *)
Definition commands (k : nat) : list lab := repeat (XRx [82; 6; 0; 1]) k.
Theorem C144_overflow_refuted : exists t u, urun (uinit 1 ex_s true) t u /\ In (UC (M_attloop.EDropReq [18; 6; 0; 5])) t /\ own_pending t /\ length (requests_in t) = 12%nat.
Proof.
  destruct (uexec (uinit 1 ex_s true) ([XTakeBuf 1; XSend 1 10 [3; 0]; XRx [18; 6; 0; 5]; XRecv; XServer (AHandle ex_e)] ++ commands 10 ++ [XRx [18; 6; 0; 5]])) as [[t u]|] eqn:X; [|vm_compute in X; discriminate]. exists t, u. split; [now apply uexec_run in X|].
  vm_compute in X. injection X as <- <-. split; [cbn [In]; tauto|]. split; [|reflexivity]. exists [], 1%nat, [10; 3; 0]. eexists. split; [reflexivity|]. repeat constructor.
Qed.
Print Assumptions C144_overflow_refuted.
(** what holds: C142_thrown_only_when_ten_wait, and every other request can be handled and answered (C143_can_finish) if the server was there in time *)
Theorem C144_not_thrown_partial : forall d rx tx s0 n t u (en : env), new_server d rx tx = Some s0 -> urun (uinit n s0 true) t u -> M_attloop.alive (cl u) = true -> thrown t = [] ->
  exists t' u', urun u t' u' /\ requests_in t' = [] /\ (crashed (sl u') \/ exists ts, request_view (server_view (t ++ t')) = turns ts /\ map (fun x => pdu_of (fst x)) ts = requests_in t).
Proof.
  intros d rx tx s0 n t u en N H A T. destruct (C143_can_finish d rx tx s0 n t u en N H A) as (t' & u' & R & Q & [C|(ts & V & M)]); exists t', u'; (split; [exact R|]); (split; [exact Q|]); [now left|right].
  exists ts. split; [exact V|]. rewrite T in M. clear - M. remember (map (fun x => pdu_of (fst x)) ts) as l eqn:E. clear E. remember [] as m eqn:E. induction M; try discriminate; [reflexivity|]. now rewrite IHM.
Qed.
Print Assumptions C144_not_thrown_partial.

(** ** C145: "an answer does not wait for our own request" *)
(** while a request of ours is open no answer is written: the peer's request waits for the peer's own answer or for our time-out *)
Theorem C145_answer_waits_refuted : forall n s0 b t u t' u' p ok, urun (uinit n s0 b) t u -> own_pending t -> urun u t' u' -> In (US (VWrite SRsp p ok)) t' ->
  exists a x c, t' = a ++ UC x :: c /\ (exists k, x = M_attloop.EGave k \/ exists r, x = M_attloop.EGot k r).
Proof.
  intros n s0 b t u t' u' p ok H P R I. apply in_split in I. destruct I as (a & c & E). pose proof (urun_trans _ _ _ _ _ H R) as HR.
  assert (NP : ~ own_pending (t ++ a)) by (apply (C143_exclusive n s0 b (t ++ t') u' _ p ok c HR); rewrite E, app_assoc; reflexivity).
  set (f := fun x => match x with UC (M_attloop.EGot _ _) | UC (M_attloop.EGave _) => true | _ => false end).
  destruct (existsb f a) eqn:X.
  - apply existsb_exists in X. destruct X as (x & X1 & X2). apply in_split in X1. destruct X1 as (a1 & a2 & ->). destruct x as [x|]; [|discriminate]. exists a1, x, (a2 ++ US (VWrite SRsp p ok) :: c).
    split; [rewrite E, <- app_assoc; reflexivity|]. destruct x; try discriminate X2; eauto.
  - exfalso. apply NP. destruct P as (a0 & k & r & b0 & -> & F). exists a0, k, r, (b0 ++ a). split; [rewrite <- app_assoc; reflexivity|]. apply Forall_app. split; [exact F|].
    apply Forall_forall. intros x I. assert (Q : f x = false). { destruct (f x) eqn:Q; [|reflexivity]. exfalso. assert (existsb f a = true) by (apply existsb_exists; eauto). congruence. }
    destruct x as [[]|]; try exact Logic.I; discriminate Q.
Qed.
Print Assumptions C145_answer_waits_refuted.
(** the handler itself is called although our request is open *)
Example C145_handled_meanwhile : exists t u, urun (uinit 1 ex_s true) t u /\ own_pending t /\ map pdu_of (servings (server_view t)) = [[18; 6; 0; 5]] /\ hd (sl u) = HWrite 0 [19].
Proof.
  destruct (uexec (uinit 1 ex_s true) [XTakeBuf 1; XSend 1 10 [3; 0]; XRx [18; 6; 0; 5]; XRecv; XServer (AHandle ex_e)]) as [[t u]|] eqn:X; [|vm_compute in X; discriminate]. exists t, u. split; [now apply uexec_run in X|].
  vm_compute in X. injection X as <- <-. split; [|repeat split]. exists [], 1%nat, [10; 3; 0]. eexists. split; [reflexivity|]. repeat constructor.
Qed.

(** ** C146: "the peer's confirmation ends an indication" *)
(** it never does: a call on a notifier for indications never returns without an error *)
Theorem C146_never_confirmed_refuted : forall d rx tx s0 n b t u k p ok, new_server d rx tx = Some s0 -> urun (uinit n s0 b) t u -> writes k (server_view t) = [(29 :: p, ok)] -> ~ In COk (returned k (server_view t)).
Proof.
  intros d rx tx s0 n b t u k p ok N H W I. destruct (C142_calls _ _ _ _ _ _ _ _ k N H) as [[Q _]|(c & p' & ok' & _ & W' & C & R)]; [congruence|]. rewrite W in W'. injection W' as <- <-.
  assert (CI : c_ind c = true) by (destruct C as (m & _ & C); destruct (c_ind c); [reflexivity|discriminate]). destruct R as [(R & _)|(r & R & F)]; rewrite R in I; [destruct I|]. destruct I as [I|[]]. subst r. rewrite CI in F. destruct F as [_ F]. discriminate.
Qed.
Print Assumptions C146_never_confirmed_refuted.
(** the confirmation is taken for a request, and answered *)
Theorem C146_confirmation_answered_refuted : forall s e r, handle s e (30 :: r) = Ret (s, Some [1; 30; 0; 0; 6], []).
Proof. reflexivity. Qed.
Print Assumptions C146_confirmation_answered_refuted.
Definition enable_ind : list lab := [XRx [18; 11; 0; 2; 0]] ++ answer.
Example C146_example : exists t, usees 0 true t /\ In (US (VWrite (SCall 0) [29; 10; 0; 7] true)) t /\ In (UC (M_attloop.ERx [30])) t /\ In (US (VWrite SRsp [1; 30; 0; 0; 6] true)) t /\ In (US (VRet 0 CErrTimeout)) t.
Proof.
  eexists. split; [apply usees_exec with (enable_ind ++ [XServer (ACall 0 [7]); XServer (ACTake 0); XServer (ACWrite 0 true); XServer (ACSelect 0); XRx [30]] ++ answer ++ [XServer (ACTimeout 0)]); vm_compute; reflexivity|]. cbn [In]. intuition.
Qed.
(** what holds: notifications report what happened to them, and an indication whose PDU the connection refused is reported *)
Theorem C146_others_partial : forall d rx tx s0 n b t u k p ok r, new_server d rx tx = Some s0 -> urun (uinit n s0 b) t u -> writes k (server_view t) = [(p, ok)] -> returned k (server_view t) = [r] ->
  (r = COk -> ok = true /\ exists q, p = 27 :: q) /\ (ok = false -> r = CErrWrite).
Proof.
  intros d rx tx s0 n b t u k p ok r N H W R. destruct (C142_calls _ _ _ _ _ _ _ _ k N H) as [[Q _]|(c & p' & ok' & _ & W' & C & F)]; [congruence|]. rewrite W in W'. injection W' as <- <-. destruct F as [(Q & _)|(r' & Q & F)]; [congruence|]. rewrite R in Q. injection Q as <-.
  destruct C as (m & _ & C). split.
  - intros ->. destruct F as [F1 F2]. split; [exact F1|]. destruct (c_ind c); [discriminate|]. eauto.
  - intros ->. destruct r; cbn in F; destruct F as [F _]; try discriminate F; reflexivity.
Qed.
Print Assumptions C146_others_partial.

(** ** C147: "the end of the connection closes the notifiers" *)
(** when the goroutine that serves has returned, the notifiers are as they were, for ever *)
Lemma end_step : forall d rx tx s0 n b t u e u', new_server d rx tx = Some s0 -> urun (uinit n s0 b) t u -> ap u = AEnd -> hd (sl u) = HWait -> ustep u e u' -> ap u' = AEnd /\ hd (sl u') = HWait /\ sv (sl u') = sv (sl u).
Proof.
  intros d rx tx s0 n b t u e u' N H A W ST. pose proof (z_k _ _ _ (sinv_runs _ _ _ _ _ _ _ _ N H)) as K.
  destruct ST as [s' e c' P L F Y0 Y|s' a s3 v SA L|s' bb q O W' I|s' k rsp W' T I|s' k rsp ok W' I M|s' k W'|s' O W' AL]; cbn [cl ap sl]; try congruence; auto.
  split; [exact A|]. pose proof (kinv_step _ _ _ _ K L) as [_ PAN]. apply lstep_cases in L. destruct L as [_ [L|L]].
  - destruct L; try discriminate SA; rewrite W in *; discriminate.
  - pose proof (call_core _ _ _ _ L) as (HD & _ & _ & _ & _ & E & _). rewrite E. split; [|reflexivity]. destruct HD as [HD|HD]; [|congruence]. exfalso. destruct L; exact (PAN HD).
Qed.
Lemma end_waits : forall d rx tx s0 n b t u, new_server d rx tx = Some s0 -> urun (uinit n s0 b) t u -> ap u = AEnd -> hd (sl u) = HWait.
Proof.
  intros d rx tx s0 n b t u N H. remember (uinit n s0 b) as i eqn:E. induction H as [s|s t s1 e s2 R IH ST]; [subst; reflexivity|]. subst s. specialize (IH eq_refl). intro A.
  destruct (ap s1) eqn:A1.
  1-2: destruct ST as [s' e c' P L F Y0 Y|s' a s3 v SA L|s' bb q O W' I|s' k rsp W' T I|s' k rsp ok W' I M|s' k W'|s' O W' AL]; cbn [ap sl] in *; try congruence.
  destruct (end_step _ _ _ _ _ _ _ _ _ _ N R A1 (IH eq_refl) ST) as (_ & W & _). exact W.
Qed.
Theorem C147_left_open_refuted : forall d rx tx s0 n b t u t' u', new_server d rx tx = Some s0 -> urun (uinit n s0 b) t u -> ap u = AEnd -> urun u t' u' -> notifs (sv (sl u')) = notifs (sv (sl u)).
Proof.
  intros d rx tx s0 n b t u t' u' N H A R. pose proof (end_waits _ _ _ _ _ _ _ _ N H A) as W. assert (X : ap u' = AEnd /\ hd (sl u') = HWait /\ sv (sl u') = sv (sl u)); [|destruct X as (_ & _ & ->); reflexivity].
  induction R as [s|s t' s1 e s2 R IH ST]; [auto|]. destruct (IH H A W) as (A1 & A2 & A3). rewrite <- A3. exact (end_step _ _ _ _ _ _ _ _ _ _ N (urun_trans _ _ _ _ _ H R) A1 A2 ST).
Qed.
Print Assumptions C147_left_open_refuted.
(** the connection ends with a notifier open *)
Theorem C147_example_refuted : exists t u, urun (uinit 0 ex_s true) t u /\ ap u = AEnd /\ M_attloop.alive (cl u) = false /\ exists m, In m (notifs (sv (sl u))) /\ nt_open m = true.
Proof.
  destruct (uexec (uinit 0 ex_s true) ([XRx [18; 4; 0; 1; 0]] ++ answer ++ [XReadErr; XStop])) as [[t u]|] eqn:X; [|vm_compute in X; discriminate]. exists t, u. split; [now apply uexec_run in X|].
  vm_compute in X. injection X as <- <-. split; [reflexivity|]. split; [reflexivity|]. eexists. split; [left; reflexivity|reflexivity].
Qed.
Print Assumptions C147_example_refuted.
