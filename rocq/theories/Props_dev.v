(** C140-C141: a device as a peripheral: services published while connections come and go. *)
Require Import Verif.Base Verif.M_uuid Verif.M_attdb Verif.S_attdb Verif.M_attsrv Verif.S_attsrv Verif.P_attsrv3 Verif.P_attsrv6 Verif.Props_attsrv
  Verif.M_srvloop Verif.S_srvloop Verif.Props_srvloop Verif.M_dev Verif.S_dev Verif.P_dev Verif.P_dev2 Verif.P_dev3 Verif.P_dev4.

(** ---- concrete histories ---- *)
Fixpoint dexec (d : dev) (l : list dact) : option (dev * dhist) :=
  match l with
  | [] => Some (d, [])
  | x :: r => match dstep d x with Some (d1, v) => match dexec d1 r with Some (d2, h) => Some (d2, (x, v) :: h) | None => None end | None => None end
  end.
Lemma dexec_from : forall r i h d d' h', drun i h d -> dexec d r = Some (d', h') -> drun i (h ++ h') d'.
Proof.
  induction r as [|x r IH]; intros i h d d' h' R H; cbn [dexec] in H.
  - injection H as <- <-. now rewrite app_nil_r.
  - destruct (dstep d x) as [[d1 v]|] eqn:ST; [|discriminate]. destruct (dexec d1 r) as [[d2 h2]|] eqn:X; [|discriminate]. injection H as <- <-.
    change ((x, v) :: h2) with ([(x, v)] ++ h2). rewrite app_assoc. apply (IH i _ d1); [|exact X]. econstructor; eauto.
Qed.
Lemma dexec_run : forall i l d h, dexec i l = Some (d, h) -> drun i h d.
Proof. intros i l d h H. exact (dexec_from l i [] i d h (dr_nil i) H). Qed.
Definition nchar (u : Z) (n : nat) : char := mkChar (uuid16 u) p_notify [] None None None (Some n) None 0 0.
Definition svc_a : service := mkSvc (uuid16 0x180D) [nchar 0x2A37 7].
Definition svc_b : service := mkSvc (uuid16 0x180F) [nchar 0x2A19 8].
Definition on (i : nat) (l : list act) : list dact := map (DConn i) l.

Lemma dexec_acts : forall l d d' h, dexec d l = Some (d', h) -> map fst h = l.
Proof. induction l as [|x l IH]; intros d d' h H; cbn [dexec] in H; [injection H as _ <-; reflexivity|]. destruct (dstep d x) as [[d1 v]|]; [|discriminate]. destruct (dexec d1 l) as [[d2 h2]|] eqn:E; [|discriminate]. injection H as _ <-. cbn. f_equal. eapply IH; eauto. Qed.
Definition after {A} (l : list dact) (f : dev -> dhist -> A) : option A := match dexec (dinit [65]) l with Some (d, h) => Some (f d h) | None => None end.
Lemma after_ok : forall {A} l (f : dev -> dhist -> A) v, after l f = Some v -> exists h d, drun (dinit [65]) h d /\ map fst h = l /\ f d h = v.
Proof. intros A l f v H. unfold after in H. destruct (dexec (dinit [65]) l) as [[d h]|] eqn:E; [|discriminate]. injection H as H. exists h, d. split; [exact (dexec_run _ _ _ _ E)|]. split; [exact (dexec_acts _ _ _ _ E)|exact H]. Qed.
(** what there is to see of connection 0: its table, its notifiers *)
Definition conn0 {A} (f : ls -> A) (d : dev) : option A := option_map f (nth_error (dv_conns d) 0).
Lemma conn0_ok : forall {A} (f : ls -> A) d v, conn0 f d = Some v -> exists c, nth_error (dv_conns d) 0 = Some c /\ f c = v.
Proof. intros A f d v H. unfold conn0 in H. destruct (nth_error (dv_conns d) 0) as [c|]; [|discriminate]. injection H as H. eauto. Qed.

(** ** C140 *)
(** A connection behaves as the server of M_srvloop on the table there was when it was accepted: other connections do not exist for
    it, nor do publications of other services.  C131-C139 speak about every such execution. *)
Theorem C140_connection_on_its_own : forall name h1 v0 h2 d, drun (dinit name) (h1 ++ (DAccept, v0) :: h2) d -> undisturbed h1 h2 ->
  exists d1 s0 c, drun (dinit name) h1 d1 /\ new_server (dv_db d1) 515 23 = Some s0 /\ nth_error (dv_conns d) (accepts h1) = Some c /\
    lrun (linit s0) (acts_of (accepts h1) h2) c (seen_on (accepts h1) h2).
Proof. intros name h1 v0 h2 d H U. destruct (connection _ _ _ _ _ H U) as (d1 & s0 & c & A & B & C & D & _). exists d1, s0, c. auto. Qed.
Print Assumptions C140_connection_on_its_own.
(** for instance: on every connection the requests are served in the order of their arrival *)
Theorem C140_in_order : forall name h1 v0 h2 d, drun (dinit name) (h1 ++ (DAccept, v0) :: h2) d -> undisturbed h1 h2 ->
  exists rest, requests (arrived (acts_of (accepts h1) h2)) = map pdu_of (servings (seen_on (accepts h1) h2)) ++ rest.
Proof. intros name h1 v0 h2 d H U. destruct (C140_connection_on_its_own _ _ _ _ _ H U) as (d1 & s0 & c & _ & N & _ & R). exact (C131_in_order _ _ _ _ _ _ _ N R). Qed.
Print Assumptions C140_in_order.
(** the table is NewDB's table of the services published at that time, in their order, each as the application created it *)
Theorem C140_current_services : forall name h d, drun (dinit name) h d ->
  exists ss, dv_db d = snd (new_db ss 1) /\ Forall2 (fun k s => exists o, nth_error (objects name h) k = Some o /\ same_service o s) (in_table h) ss.
Proof. intros name h d H. exact (proj2 (current _ _ _ H)). Qed.
Print Assumptions C140_current_services.
(** whatever happens later, the handles, types, values and user handlers of the connection's table stay *)
Theorem C140_table_fixed : forall name h1 v0 h2 d, drun (dinit name) (h1 ++ (DAccept, v0) :: h2) d ->
  exists d1 c, drun (dinit name) h1 d1 /\ nth_error (dv_conns d) (accepts h1) = Some c /\ plain (s_db (sv c)) = plain (dv_db d1).
Proof. exact plain_kept. Qed.
Print Assumptions C140_table_fixed.

(** Two connections, a service added between them and one set published (with other services) while both are there. *)
Definition ex_hist : list dact :=
  [DNew svc_a; DAdd 4; DAccept] ++ on 0 (serve [18; 21; 0; 1; 0]) ++ [DNew svc_b; DSet 9 [5%nat]; DAccept] ++ on 1 (serve [10; 3; 0]) ++ on 0 [ACall 0 [7]; ACTake 0; ACWrite 0 true].
Example C140_example : exists h d, drun (dinit [65]) h d /\ map fst h = ex_hist /\ (seen_on 0 h, seen_on 1 h, in_table h) =
   ([VRead [18; 21; 0; 1; 0]; VHandle ex_e [18; 21; 0; 1; 0] (Some [19]) []; VWrite SRsp [19] true; VWrite (SCall 0) [27; 20; 0; 7] true; VRet 0 COk],
    [VRead [10; 3; 0]; VHandle ex_e [10; 3; 0] (Some [11; 65]) []; VWrite SRsp [11; 65] true], [6; 7; 5]%nat).
Proof. apply (after_ok ex_hist (fun d h => (seen_on 0 h, seen_on 1 h, in_table h))). vm_compute. reflexivity. Qed.
(** after the first accept nothing touches the services of its table *)
Fixpoint undisturbed_b (h1 x h2 : dhist) : bool :=
  match h2 with [] => true | e :: y => forallb (fun k => negb (existsb (Nat.eqb k) (in_table h1))) (assigned (h1 ++ x) (fst e)) && undisturbed_b h1 (x ++ [e]) y end.
Lemma undisturbed_ok : forall h1 h2 x, undisturbed_b h1 x h2 = true -> forall y e z, h2 = y ++ e :: z -> forall k, In k (assigned (h1 ++ x ++ y) (fst e)) -> ~ In k (in_table h1).
Proof.
  intros h1. induction h2 as [|f h2 IH]; intros x U y e z E k K; [destruct y; discriminate|]. cbn [undisturbed_b] in U. apply andb_true_iff in U. destruct U as [U1 U2]. destruct y as [|g y]; cbn [app] in E; injection E as -> ->.
  - rewrite app_nil_r in K. rewrite forallb_forall in U1. apply not_mem. apply negb_true_iff. now apply U1.
  - apply (IH (x ++ [g]) U2 y e z eq_refl). rewrite <- app_assoc. exact K.
Qed.
Example C140_example_undisturbed : exists h d, drun (dinit [65]) h d /\ map fst h = ex_hist /\ undisturbed (firstn 2 h) (skipn 3 h).
Proof.
  destruct (after_ok ex_hist (fun d h => undisturbed_b (firstn 2 h) [] (skipn 3 h)) true) as (h & d & R & M & U); [vm_compute; reflexivity|]. exists h, d. split; [exact R|]. split; [exact M|].
  red. intros x e y E k. exact (undisturbed_ok _ _ [] U x e y E k).
Qed.

(** ** C141: "publishing further services does not disturb the connections there are" *)
(** The peer has enabled notifications of the value at handle 20; the application adds another service and notifies: the notification
    names handle 21, in this connection's table the configuration descriptor. *)
Theorem C141_notification_misdirected_refuted : exists h d c, drun (dinit [65]) h d /\
  map fst h = [DNew svc_a; DAdd 4; DAccept] ++ on 0 (serve [18; 21; 0; 1; 0]) ++ on 0 [ACall 0 [7]; ACTake 0; ACWrite 0 true] ++ [DNew svc_b; DAdd 5] ++ on 0 [ACall 0 [7]; ACTake 1; ACWrite 1 true] /\
  unsolicited (seen_on 0 h) = [[27; 20; 0; 7]; [27; 21; 0; 7]] /\ nth_error (dv_conns d) 0 = Some c /\
  map (fun a => (a_h a, a_typ a)) (skipn 19 (db_attrs (s_db (sv c)))) = [(20, uuid16 0x2A37); (21, u_cccd)].
Proof.
  destruct (after_ok ([DNew svc_a; DAdd 4; DAccept] ++ on 0 (serve [18; 21; 0; 1; 0]) ++ on 0 [ACall 0 [7]; ACTake 0; ACWrite 0 true] ++ [DNew svc_b; DAdd 5] ++ on 0 [ACall 0 [7]; ACTake 1; ACWrite 1 true])
    (fun d h => (unsolicited (seen_on 0 h), conn0 (fun c => map (fun a => (a_h a, a_typ a)) (skipn 19 (db_attrs (s_db (sv c))))) d)) ([[27; 20; 0; 7]; [27; 21; 0; 7]], Some [(20, uuid16 0x2A37); (21, u_cccd)])) as (h & d & R & M & F); [vm_compute; reflexivity|].
  apply pair_equal_spec in F. destruct F as [F1 F2]. apply conn0_ok in F2. destruct F2 as (c & C & F2). exists h, d, c. auto.
Qed.
Print Assumptions C141_notification_misdirected_refuted.
(** The configuration the peer wrote is forgotten, and switching off no longer stops the notifier. *)
Definition answers_on (h : dhist) : list bytes := flat_map (fun x => match snd (fst x) with Some r => [r] | None => [] end) (servings (seen_on 0 h)).
Theorem C141_configuration_lost_refuted : exists h d c, drun (dinit [65]) h d /\
  map fst h = [DNew svc_a; DAdd 4; DAccept] ++ on 0 (serve [18; 21; 0; 1; 0]) ++ [DNew svc_b; DAdd 5] ++ on 0 (serve [10; 21; 0] ++ serve [18; 21; 0; 0; 0]) /\
  answers_on h = [[19]; [11; 0; 0]; [19]] /\ nth_error (dv_conns d) 0 = Some c /\ map nt_open (notifs (sv c)) = [true].
Proof.
  destruct (after_ok ([DNew svc_a; DAdd 4; DAccept] ++ on 0 (serve [18; 21; 0; 1; 0]) ++ [DNew svc_b; DAdd 5] ++ on 0 (serve [10; 21; 0] ++ serve [18; 21; 0; 0; 0]))
    (fun d h => (answers_on h, conn0 (fun c => map nt_open (notifs (sv c))) d)) ([[19]; [11; 0; 0]; [19]], Some [true])) as (h & d & R & M & F); [vm_compute; reflexivity|].
  apply pair_equal_spec in F. destruct F as [F1 F2]. apply conn0_ok in F2. destruct F2 as (c & C & F2). exists h, d, c. auto.
Qed.
Print Assumptions C141_configuration_lost_refuted.
(** The two services are published again in the other order: enabling the second characteristic is answered with success and starts
    nothing, switching it off again stops the notifier of the first. *)
Definition swap_acts : list dact := [DNew svc_a; DNew svc_b; DSet 9 [4; 5]%nat; DAccept] ++ on 0 (serve [18; 21; 0; 1; 0]) ++ [DSet 10 [5; 4]%nat] ++ on 0 (serve [18; 25; 0; 1; 0]).
Theorem C141_enabling_ignored_refuted : exists h d c, drun (dinit [65]) h d /\ map fst h = swap_acts /\ answers_on h = [[19]; [19]] /\
  nth_error (dv_conns d) 0 = Some c /\ map (fun n => (nt_handler n, nt_open n)) (notifs (sv c)) = [(7%nat, true)].
Proof.
  destruct (after_ok swap_acts (fun d h => (answers_on h, conn0 (fun c => map (fun n => (nt_handler n, nt_open n)) (notifs (sv c))) d)) ([[19]; [19]], Some [(7%nat, true)])) as (h & d & R & M & F); [vm_compute; reflexivity|].
  apply pair_equal_spec in F. destruct F as [F1 F2]. apply conn0_ok in F2. destruct F2 as (c & C & F2). exists h, d, c. auto.
Qed.
Print Assumptions C141_enabling_ignored_refuted.
Theorem C141_other_notifier_stopped_refuted : exists h d c, drun (dinit [65]) h d /\ map fst h = swap_acts ++ on 0 (serve [18; 25; 0; 0; 0]) /\ answers_on h = [[19]; [19]; [19]] /\
  nth_error (dv_conns d) 0 = Some c /\ map (fun n => (nt_handler n, nt_open n)) (notifs (sv c)) = [(7%nat, false)].
Proof.
  destruct (after_ok (swap_acts ++ on 0 (serve [18; 25; 0; 0; 0])) (fun d h => (answers_on h, conn0 (fun c => map (fun n => (nt_handler n, nt_open n)) (notifs (sv c))) d)) ([[19]; [19]; [19]], Some [(7%nat, false)])) as (h & d & R & M & F); [vm_compute; reflexivity|].
  apply pair_equal_spec in F. destruct F as [F1 F2]. apply conn0_ok in F2. destruct F2 as (c & C & F2). exists h, d, c. auto.
Qed.
Print Assumptions C141_other_notifier_stopped_refuted.
(** what holds: nothing changes if the services published later are not in the connection's table *)
Theorem C141_other_services_partial : forall name h1 v0 h2 d, drun (dinit name) (h1 ++ (DAccept, v0) :: h2) d -> undisturbed h1 h2 ->
  exists d1 s0 c, drun (dinit name) h1 d1 /\ new_server (dv_db d1) 515 23 = Some s0 /\ nth_error (dv_conns d) (accepts h1) = Some c /\
    lrun (linit s0) (acts_of (accepts h1) h2) c (seen_on (accepts h1) h2) /\ s_db (sv c) = dv_db d1.
Proof. intros name h1 v0 h2 d H U. destruct (connection _ _ _ _ _ H U) as (d1 & s0 & c & A & B & C & D & (E & _) & _). exists d1, s0, c. auto 6. Qed.
Print Assumptions C141_other_services_partial.
