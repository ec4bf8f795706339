(** The server's side of a client with an embedded server. *)
Require Import Verif.Base Verif.M_attdb Verif.M_attsrv Verif.S_attsrv Verif.P_attsrv2 Verif.M_srvloop Verif.S_srvloop Verif.P_srvloop Verif.P_srvloop2 Verif.P_srvloop3 Verif.P_srvloop4 Verif.P_srvloop6 Verif.M_dual Verif.S_dual Verif.P_dual.
Require Verif.M_attloop Verif.S_attloop Verif.P_attloop.

Record sinv (s0 : srv) (t : list uev) (u : du) : Prop := mkSI {
  z_rd : rd (sl u) = RTake;
  z_k : kinv (sl u);
  z_calls : exists l, Forall (fun a => server_act a = true) l /\ cinv l (sl u) (server_view t);
  z_conf : forall k, confirmed k (server_view t) = 0%nat;
  z_served : served s0 (servings (server_view t)) (sv (sl u));
  z_given : exists rest, given t = map pdu_of (servings (server_view t)) ++ rest /\ (length rest <= 1)%nat /\ (hd (sl u) <> HPanic -> rest = got (sl u));
  z_view : exists ts tl, request_view (server_view t) = turns ts ++ tl /\ tail_ok (hd (sl u)) tl;
  z_write : forall k rsp, hd (sl u) = HWrite k rsp -> rsp <> [];
  z_got : forall k, hd (sl u) = HGot k -> exists b, req_of (sl u) k = Some b;
  z_pan : hd (sl u) = HPanic -> exists e p, given t = map pdu_of (servings (server_view t)) ++ [p] /\ handle (sv (sl u)) e p = Panic;
  z_end : hd (sl u) <> HClean /\ hd (sl u) <> HDone;
  z_tok : nth_error (M_attloop.callers (cl u)) 0 = Some M_attloop.KIdle \/
          nth_error (M_attloop.callers (cl u)) 0 = Some M_attloop.KHold /\ exists k rsp, hd (sl u) = HWrite k rsp }.

Lemma given_app : forall a b, given (a ++ b) = given a ++ given b. Proof. intros. apply flat_map_app. Qed.
Lemma given_us : forall v, given (map US v) = []. Proof. induction v as [|x v IH]; [reflexivity|exact IH]. Qed.
Lemma given_uc : forall e, Forall no_serve e -> given (map UC e) = [].
Proof. induction e as [|x e IH]; intro F; [reflexivity|]. apply Forall_cons_iff in F. destruct F as [F1 F2]. unfold given in *. cbn [map flat_map]. rewrite (IH F2). destruct x; try reflexivity. contradiction. Qed.
Lemma sinv_init : forall d rx tx n s0 b, new_server d rx tx = Some s0 -> sinv s0 [] (uinit n s0 b).
Proof.
  intros d rx tx n s0 b N. destruct (new_server_lens _ _ _ _ N) as (A & B & C). constructor; cbn [uinit sl cl linit rd hd sv M_attloop.linit M_attloop.callers repeat nth_error].
  - reflexivity.
  - now apply kinv_init.
  - exists []. split; [constructor|]. constructor; [reflexivity|intros [|k] c Q; discriminate|intros; cbn; auto].
  - reflexivity.
  - constructor.
  - exists []. split; [reflexivity|]. split; [cbn; lia|reflexivity].
  - exists [], []. split; reflexivity.
  - discriminate.
  - discriminate.
  - discriminate.
  - split; discriminate.
  - now left.
Qed.
Lemma set_caller0 : forall c b x, (0 < length (M_attloop.callers c))%nat -> nth_error (M_attloop.callers (M_attloop.set_caller c b 0 x)) 0 = Some x.
Proof. intros c b x H. cbn [M_attloop.set_caller M_attloop.callers]. destruct (M_attloop.callers c); [cbn in H; lia|reflexivity]. Qed.
Lemma nth0_len : forall {A} (l : list A) x, nth_error l 0 = Some x -> (0 < length l)%nat.
Proof. intros A [|y l] x H; [discriminate|cbn; lia]. Qed.

(** a step of the server's own goroutines *)
Lemma call_conf : forall s a s' v, rd s = RTake -> call_step s a s' v -> forall k, confirmed k v = 0%nat.
Proof. intros s a s' v R H k. destruct H; try reflexivity; congruence. Qed.
Lemma server_step : forall s0 t u a s' v, sinv s0 t u -> server_act a = true -> lstep (sl u) a = Some (s', v) -> sinv s0 (t ++ map US v) (mkDu (cl u) s' (ap u)).
Proof.
  intros s0 t u a s' v [ZR ZK (l & ZL & ZC) ZF ZS (rest & R1 & R2 & R3) (ts & tl & V1 & V2) ZW ZG ZP ZE ZT] A ST.
  assert (NP : hd (sl u) <> HPanic) by (intro E; unfold lstep in ST; rewrite E in ST; discriminate).
  assert (CI : exists l', Forall (fun a => server_act a = true) l' /\ cinv l' s' (server_view t ++ v)).
  { exists (l ++ [a]). split; [apply Forall_app; split; [exact ZL|constructor; [exact A|constructor]]|]. exact (cinv_step _ _ _ _ _ _ ZK ZC ST). }
  pose proof (kinv_step _ _ _ _ ZK ST) as [ZK' PAN]. apply lstep_cases in ST. destruct ST as [_ [H|H]].
  2:{ pose proof (call_core _ _ _ _ H) as (HD & E1 & E2 & E3 & E4 & E5 & E6 & E7 & E8 & E9 & E10). pose proof (call_conf _ _ _ _ ZR H) as CF.
      destruct HD as [HD|HD]; [exfalso; destruct H; exact (PAN HD)|].
      constructor; cbn [sl cl]; rewrite ?server_app, ?server_us, ?given_app, ?given_us, ?servings_app, ?view_app, ?(nil_servings v E7), ?(nil_view v E7 E8), ?app_nil_r, ?HD, ?E5; auto.
      - destruct E6 as [-> |(k & Q & _)]; [exact ZR|congruence].
      - intro k. rewrite confirmed_app, ZF, CF. reflexivity.
      - exists rest. split; [exact R1|]. split; [exact R2|]. intro Q. rewrite (R3 NP). unfold got. rewrite HD. destruct (hd (sl u)); try reflexivity. unfold oreq. now rewrite (req_of_bufs (sl u) s' k E3).
      - exists ts, tl. auto.
      - intros k K. rewrite (req_of_bufs (sl u) s' k E3). now apply ZG. }
  clear PAN. destruct H; try discriminate A.
  - (* handled *)
    pose proof (own_after k (sv (sl u)) s' o) as [OA NPA].
    assert (GOT : got (sl u) = [r]) by (unfold got, oreq; now rewrite H, H0).
    assert (PH : after_handle k (sv (sl u)) s' o = HPut k /\ (o = None \/ o = Some []) \/
                 (exists rsp, rsp <> [] /\ o = Some rsp /\ (after_handle k (sv (sl u)) s' o = HWrite k rsp \/ exists m, after_handle k (sv (sl u)) s' o = HMtuN k m rsp)) \/
                 (exists m, after_handle k (sv (sl u)) s' o = HMtuN k m [] /\ (o = None \/ o = Some []))).
    { unfold after_handle. destruct (Nat.eqb (txlen (sv (sl u))) (txlen s')); destruct o as [[|x rr]|]; auto.
      - right. left. exists (x :: rr). split; [discriminate|]. split; [reflexivity|]. now left.
      - right. right. exists (txlen s'). auto.
      - right. left. exists (x :: rr). split; [discriminate|]. split; [reflexivity|]. right. eauto.
      - right. right. exists (txlen s'). auto. }
    constructor; rewrite ?server_app, ?server_us, ?given_app, ?given_us, ?servings_app, ?view_app, ?app_nil_r; cbn [sl cl set_hd set_sv rd hd sv]; auto.
    + intro j. rewrite confirmed_app, ZF. reflexivity.
    + apply sv_snoc with (sv (sl u)); [exact ZS|exact H1].
    + exists []. rewrite map_app, app_nil_r. change (map pdu_of (servings [VHandle e r o cs])) with [r]. rewrite R1, (R3 NP), GOT. split; [reflexivity|]. split; [cbn; lia|]. intros _. unfold got. cbn [set_hd hd].
      destruct PH as [[-> _]|[(rsp & _ & _ & [-> |(m & ->)])|(m & -> & _)]]; reflexivity.
    + rewrite H in V2. cbn [tail_ok] in V2. subst tl. rewrite app_nil_r in V1. destruct PH as [[-> B]|[(rsp & B & C & D)|(m & -> & B)]].
      * exists (ts ++ [((e, r, o, cs), true)]), []. rewrite turns_app, V1. split; [|reflexivity]. cbn [turns flat_map fst snd turn]. destruct B as [-> | ->]; rewrite !app_nil_r; reflexivity.
      * exists ts, [VHandle e r o cs]. rewrite V1. split; [reflexivity|]. subst o. destruct D as [-> |(m & ->)]; right; (split; [exact B|]); eauto.
      * exists (ts ++ [((e, r, o, cs), true)]), []. rewrite turns_app, V1. split; [|left; split; reflexivity]. cbn [turns flat_map fst snd turn]. destruct B as [-> | ->]; rewrite !app_nil_r; reflexivity.
    + intros j rsp J. destruct PH as [[E _]|[(rsp' & B & _ & [E|(m & E)])|(m & E & _)]]; rewrite E in J; try discriminate. injection J as _ <-. exact B.
    + intros j J. exfalso. destruct PH as [[E _]|[(rsp' & B & _ & [E|(m & E)])|(m & E & _)]]; rewrite E in J; discriminate.
    + intro J. exfalso. destruct PH as [[E _]|[(rsp' & B & _ & [E|(m & E)])|(m & E & _)]]; rewrite E in J; discriminate.
    + destruct PH as [[-> _]|[(rsp' & _ & _ & [-> |(m & ->)])|(m & -> & _)]]; split; discriminate.
    + destruct ZT as [ZT|[_ (j & rs & ZT)]]; [now left|rewrite H in ZT; discriminate].
  - (* panic *)
    rewrite H in *. cbn [map] in *. rewrite app_nil_r in CI. constructor; rewrite ?app_nil_r; cbn [sl cl set_hd rd hd sv]; auto; try discriminate.
    + exists rest. split; [exact R1|]. split; [exact R2|]. intro Q. now elim Q.
    + exists ts, tl. auto.
    + intros _. exists e, r. split; [|exact H1]. rewrite R1, (R3 NP). unfold got, oreq. now rewrite H, H0.
    + split; discriminate.
    + destruct ZT as [ZT|[_ (j & rs & ZT)]]; [now left|discriminate].
  - rewrite H in *. cbn [map] in *. rewrite app_nil_r in CI. constructor; rewrite ?app_nil_r; cbn [sl cl set_hd set_nbuf rd hd sv]; auto; try discriminate.
    + exists rest. split; [exact R1|]. split; [exact R2|]. intros _. rewrite (R3 NP). unfold got. rewrite H. reflexivity.
    + exists ts, tl. auto.
    + split; discriminate.
    + destruct ZT as [ZT|[_ (j & rs & ZT)]]; [now left|discriminate].
  - rewrite H in *. cbn [map] in *. rewrite app_nil_r in CI. constructor; rewrite ?app_nil_r; cbn [sl cl set_hd set_ibuf rd hd sv]; auto; try discriminate.
    + exists rest. split; [exact R1|]. split; [exact R2|]. intros _. rewrite (R3 NP). unfold got. rewrite H. cbn [set_hd set_ibuf hd]. destruct rsp; reflexivity.
    + exists ts, tl. split; [exact V1|]. cbn [tail_ok] in V2. destruct V2 as [[-> ->]|[B C]]; [reflexivity|]. destruct rsp; [now elim B|]. right. auto.
    + intros j rs J. destruct rsp; [discriminate|]. injection J as _ <-. discriminate.
    + intros j J. destruct rsp; discriminate.
    + destruct rsp; discriminate.
    + destruct rsp; split; discriminate.
    + destruct ZT as [ZT|[_ (j & rs & ZT)]]; [now left|discriminate].
Qed.
Lemma cinv_state : forall l s t s' v, cinv l s t -> callers s' = callers s -> (forall k, silent k v) -> cinv l s' (t ++ v).
Proof. intros l s t s' v [C F N] E S. constructor; rewrite ?E; auto; intros k c; [intro K; apply silent_fits; [apply S|now apply F]|apply silent_none; [apply S|now apply N]]. Qed.
Lemma silent_nil : forall k, silent k []. Proof. repeat split. Qed.
Lemma kinv_same : forall s s', kinv s -> callers s' = callers s -> nbuf s' = nbuf s -> ibuf s' = ibuf s -> sv s' = sv s -> mtu_big (hd s') -> kinv s'.
Proof. intros s s' [A B C D E F G H] E1 E2 E3 E4 M. constructor; rewrite ?E1, ?E2, ?E3, ?E4; assumption. Qed.
Lemma sinv_step : forall s0 t u e u', sinv s0 t u -> ustep u e u' -> sinv s0 (t ++ e) u'.
Proof.
  intros s0 t u e u' Z ST. destruct ST as [s e c' P L F R Y|s a s' v A L|s b q O W I|s k rsp W T I|s k rsp ok W I M|s k W|s O W AL].
  - destruct Z as [ZR ZK ZL ZF ZS (rest & R1 & R2 & R3) ZV ZW ZG ZP ZE ZT]. constructor; cbn [sl cl]; rewrite ?server_app, ?server_uc, ?app_nil_r, ?given_app, ?(given_uc e F), ?app_nil_r, ?Y; auto. exists rest; auto.
  - now apply server_step with a.
  - destruct Z as [ZR ZK (l & ZL & ZC) ZF ZS (rest & R1 & R2 & R3) (ts & tl & V1 & V2) ZW ZG ZP ZE ZT]. rewrite W in *. cbn [tail_ok] in V2.
    constructor; cbn [sl cl pop_inc M_attloop.callers]; rewrite ?server_app; change (server_view [UC (M_attloop.EServe b)]) with (@nil vis); rewrite ?app_nil_r, ?given_app; cbn [set_hd set_bufs rd hd sv]; auto; try discriminate.
    + apply (kinv_same (sl s)); auto. exact Logic.I.
    + exists l. split; [exact ZL|]. rewrite <- (app_nil_r (server_view t)). apply (cinv_state l (sl s)); auto. apply silent_nil.
    + exists [b]. rewrite R1, (R3 ltac:(discriminate)). unfold got at 1. rewrite W, app_nil_r. split; [reflexivity|]. split; [cbn; lia|]. intros _. unfold got, oreq, req_of. cbn [set_hd set_bufs hd bufs nth_error b_len b_data]. rewrite firstn_all. reflexivity.
    + exists ts, tl. auto.
    + intros k K. injection K as <-. unfold req_of. cbn [set_hd set_bufs bufs nth_error b_len b_data]. eauto.
    + split; discriminate.
    + destruct ZT as [ZT|[_ (j & rs & ZT)]]; [now left|discriminate].
  - destruct Z as [ZR ZK ZL ZF ZS ZG0 ZV ZW ZG ZP ZE ZT]. constructor; rewrite ?app_nil_r; cbn [sl cl]; auto. right. split; [apply set_caller0; now apply nth0_len in I|eauto].
  - destruct Z as [ZR ZK (l & ZL & ZC) ZF ZS (rest & R1 & R2 & R3) (ts & tl & V1 & V2) ZW ZG ZP ZE ZT]. rewrite W in *. cbn [tail_ok] in V2.
    constructor; cbn [sl cl]; rewrite ?server_app; change (server_view [US (VWrite SRsp rsp ok)]) with [VWrite SRsp rsp ok]; rewrite ?given_app, ?servings_app, ?view_app; change (given [US (VWrite SRsp rsp ok)]) with (@nil bytes); change (servings [VWrite SRsp rsp ok]) with (@nil serving); rewrite ?app_nil_r; cbn [set_hd rd hd sv]; auto; try discriminate.
    + apply (kinv_same (sl s)); auto. exact Logic.I.
    + exists l. split; [exact ZL|]. apply (cinv_state l (sl s)); auto. intro j. repeat split.
    + intro j. rewrite confirmed_app, ZF. reflexivity.
    + exists rest. split; [exact R1|]. split; [exact R2|]. intros _. rewrite (R3 ltac:(discriminate)). unfold got. rewrite W. reflexivity.
    + destruct V2 as [[-> _]|(B & e & p & cs & ->)]; [now elim (ZW k [])|]. exists (ts ++ [((e, p, Some rsp, cs), ok)]), []. rewrite turns_app, V1, app_nil_r, <- app_assoc. split; [|reflexivity]. cbn. destruct rsp; [now elim B|reflexivity].
    + split; discriminate.
    + left. apply set_caller0. now apply nth0_len in I.
  - destruct Z as [ZR ZK (l & ZL & ZC) ZF ZS (rest & R1 & R2 & R3) (ts & tl & V1 & V2) ZW ZG ZP ZE ZT]. rewrite W in *.
    constructor; rewrite ?app_nil_r; cbn [sl cl set_hd rd hd sv]; auto; try discriminate.
    + apply (kinv_same (sl s)); auto. exact Logic.I.
    + exists l. split; [exact ZL|]. destruct ZC as [C1 C2 C3]. constructor; auto.
    + exists rest. split; [exact R1|]. split; [exact R2|]. intros _. rewrite (R3 ltac:(discriminate)). unfold got. rewrite W. reflexivity.
    + exists ts, tl. auto.
    + split; discriminate.
    + destruct ZT as [ZT|[_ (j & rs & ZT)]]; [now left|discriminate].
  - destruct Z as [ZR ZK ZL ZF ZS ZG0 ZV ZW ZG ZP ZE ZT]. constructor; rewrite ?app_nil_r; cbn [sl cl]; auto.
Qed.
Lemma sinv_runs : forall d rx tx n s0 b t u, new_server d rx tx = Some s0 -> urun (uinit n s0 b) t u -> sinv s0 t u.
Proof.
  intros d rx tx n s0 b t u N H. remember (uinit n s0 b) as i eqn:E. induction H as [s|s t s1 e s2 R IH ST]; [subst; now apply sinv_init with d rx tx|]. exact (sinv_step _ _ _ _ _ (IH E) ST).
Qed.
