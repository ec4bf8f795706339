(** Which PDUs the Security Manager sends in answer to what. *)
Require Import Verif.Base Verif.M_smp Verif.S_smp.

Definition sent (o : list out) : list bytes := flat_map (fun x => match x with OSend b => [b] | _ => [] end) o.
Definition silent {A} (m : M A) : Prop := forall p p' o r, m p = Ret (p', o, r) -> sent o = [].
Definition says {A} (m : M A) (K : list Z) : Prop := forall p p' o r, m p = Ret (p', o, r) -> sent o = [] \/ exists c b, In c K /\ sent o = [frame (c :: b)].
Lemma sent_app : forall a b, sent (a ++ b) = sent a ++ sent b.
Proof. intros. unfold sent. apply flat_map_app. Qed.
Lemma silent_says : forall A (m : M A) K, silent m -> says m K.
Proof. intros A m K H p p' o r E. left. exact (H _ _ _ _ E). Qed.
Lemma silent_bind : forall A B (m : M A) (k : A -> M B), silent m -> (forall a, silent (k a)) -> silent (bind m k).
Proof.
  intros A B m k H1 H2 p p' o r E. unfold bind in E. destruct (m p) as [[[p1 o1] [a|]]|] eqn:E1; [|injection E as <- <- <-; exact (H1 _ _ _ _ E1)|discriminate].
  destruct (k a p1) as [[[p2 o2] r2]|] eqn:E2; [|discriminate]. injection E as <- <- <-. rewrite sent_app, (H1 _ _ _ _ E1), (H2 _ _ _ _ _ E2). reflexivity.
Qed.
Lemma says_bind : forall A B (m : M A) (k : A -> M B) K, silent m -> (forall a, says (k a) K) -> says (bind m k) K.
Proof.
  intros A B m k K H1 H2 p p' o r E. unfold bind in E. destruct (m p) as [[[p1 o1] [a|]]|] eqn:E1; [|injection E as <- <- <-; left; exact (H1 _ _ _ _ E1)|discriminate].
  destruct (k a p1) as [[[p2 o2] r2]|] eqn:E2; [|discriminate]. injection E as <- <- <-. rewrite sent_app, (H1 _ _ _ _ E1). exact (H2 _ _ _ _ _ E2).
Qed.
Lemma says_then : forall A B (m : M A) (k : A -> M B) K, says m K -> (forall a, silent (k a)) -> says (bind m k) K.
Proof.
  intros A B m k K H1 H2 p p' o r E. unfold bind in E. destruct (m p) as [[[p1 o1] [a|]]|] eqn:E1; [|injection E as <- <- <-; exact (H1 _ _ _ _ E1)|discriminate].
  destruct (k a p1) as [[[p2 o2] r2]|] eqn:E2; [|discriminate]. injection E as <- <- <-. rewrite sent_app, (H2 _ _ _ _ _ E2), app_nil_r. exact (H1 _ _ _ _ E1).
Qed.
Lemma silent_ret : forall A (a : A), silent (ret a). Proof. intros A a p p' o r E. injection E as <- <- <-. reflexivity. Qed.
Lemma silent_fail : forall A, silent (@fail A). Proof. intros A p p' o r E. injection E as <- <- <-. reflexivity. Qed.
Lemma silent_panic : forall A, silent (@panic A). Proof. intros A p p' o r E. discriminate E. Qed.
Lemma silent_get : silent get. Proof. intros p p' o r E. injection E as <- <- <-. reflexivity. Qed.
Lemma silent_modify : forall f, silent (modify f). Proof. intros f p p' o r E. injection E as <- <- <-. reflexivity. Qed.
Lemma silent_must : forall b, silent (must b). Proof. intros [] p p' o r E; injection E as <- <- <-; reflexivity. Qed.
Lemma silent_ofopt : forall A (x : option A), silent (ofopt x). Proof. intros A [a|] p p' o r E; injection E as <- <- <-; reflexivity. Qed.
Lemma silent_lift : forall A (x : go A), silent (lift x). Proof. intros A [a|] p p' o r E; [injection E as <- <- <-; reflexivity|discriminate E]. Qed.
Lemma silent_liftE : forall A (x : go (option A)), silent (liftE x). Proof. intros A x. unfold liftE. apply silent_bind; [apply silent_lift|intro a; apply silent_ofopt]. Qed.
Lemma silent_save : forall a b, silent (emit (OSave a b)). Proof. intros a b p p' o r E. injection E as <- <- <-. reflexivity. Qed.
Lemma silent_enc : forall a b c, silent (emit (OStartEnc a b c)). Proof. intros a b c p p' o r E. injection E as <- <- <-. reflexivity. Qed.
Lemma says_send : forall e c b K, In c K -> says (send e (c :: b)) K.
Proof.
  intros e c b K H. unfold send. apply says_then; [|intros _; apply silent_must]. intros p p' o r E. injection E as <- <- <-. right. exists c, b. split; [exact H|reflexivity].
Qed.
Lemma says_ignore : forall m K, says m K -> says (ignore_err m) K.
Proof. intros m K H p p' o r E. unfold ignore_err in E. destruct (m p) as [[[p1 o1] r1]|] eqn:E1; [|discriminate]. injection E as <- <- <-. exact (H _ _ _ _ E1). Qed.
Lemma says_sub : forall A (m : M A) K K', says m K -> (forall x, In x K -> In x K') -> says m K'.
Proof. intros A m K K' H S p p' o r E. destruct (H _ _ _ _ E) as [X|(c & b & X & Y)]; [now left|right; exists c, b; auto]. Qed.
Ltac quiet := repeat first
  [ apply silent_ret | apply silent_fail | apply silent_panic | apply silent_get | apply silent_modify | apply silent_must | apply silent_ofopt | apply silent_lift | apply silent_liftE | apply silent_save | apply silent_enc
  | apply silent_bind; [|intros ?] | match goal with |- silent (if ?b then _ else _) => destruct b | |- silent (match ?b with _ => _ end) => destruct b end ].
Section P. Variable C : prims.
Lemma q_save : forall e, silent (saveBondInfo e). Proof. intro e. unfold saveBondInfo. quiet. Qed.
Lemma q_conn : forall e b, silent (conn_encrypt e b). Proof. intros e b. unfold conn_encrypt. quiet. Qed.
Lemma q_enc : forall e, silent (Encrypt e). Proof. intro e. unfold Encrypt. apply silent_bind; [apply silent_get|intro; apply q_conn]. Qed.
Lemma q_start : forall e, silent (StartEncryption e). Proof. intro e. unfold StartEncryption. apply silent_bind; [apply silent_ofopt|intro; apply q_conn]. Qed.
Lemma q_mac : silent (calcMacLtk C). Proof. unfold calcMacLtk, generateDHKey. quiet. Qed.
Lemma q_confirm : silent (checkConfirm C). Proof. unfold checkConfirm. quiet. Qed.
Lemma q_pconfirm : silent (checkPasskeyConfirm C). Proof. unfold checkPasskeyConfirm. quiet. Qed.
Lemma q_dhc : forall b, silent (checkDHKeyCheck C b). Proof. intro b. unfold checkDHKeyCheck. quiet. Qed.
Lemma q_lconfirm : silent (checkLegacyConfirm C). Proof. unfold checkLegacyConfirm. quiet. Qed.
Lemma s_req : forall e, says (sendPairingRequest e) [1]. Proof. intro e. unfold sendPairingRequest. apply says_bind; [apply silent_get|intro p]. unfold buildPairingReq. apply says_send. now left. Qed.
Lemma s_pub : forall e, says (sendPublicKey C e) [12].
Proof. intro e. unfold sendPublicKey. do 5 (apply says_bind; [quiet|intro]). apply says_send. now left. Qed.
Lemma s_rand : forall e, says (sendPairingRandom e) [4].
Proof. intro e. unfold sendPairingRandom. do 4 (apply says_bind; [quiet|intro]). apply says_send. now left. Qed.
Lemma s_check : forall e, says (sendDHKeyCheck C e) [13].
Proof. intro e. unfold sendDHKeyCheck. do 3 (apply says_bind; [quiet|intro]). apply says_send. now left. Qed.
Lemma s_mconf : forall e, says (sendMConfirm C e) [3].
Proof. intro e. unfold sendMConfirm. do 5 (apply says_bind; [quiet|intro]). apply says_send. now left. Qed.
Lemma s_cont : forall e, says (continuePassKeyPairing C e) [3].
Proof. intro e. unfold continuePassKeyPairing. do 4 (apply says_bind; [quiet|intro]). apply says_ignore, says_send. now left. Qed.
Lemma s_startpk : forall e, says (startPassKeyPairing C e) [3]. Proof. intro e. unfold startPassKeyPairing. apply says_bind; [quiet|intro]. apply s_cont. Qed.
Lemma s_rsp : forall e b, says (smpOnPairingResponse C e b) [3; 12].
Proof.
  intros e b. unfold smpOnPairingResponse. destruct b as [|i [|o [|a [|k [|ik [|rk t]]]]]]; try (apply silent_says; quiet; fail).
  do 6 (apply says_bind; [quiet|intro]). destruct (_ && _); [apply silent_says; quiet|]. destruct (p_legacy _); [apply (says_sub _ _ [3]); [apply s_mconf|]|apply (says_sub _ _ [12]); [apply s_pub|]]; intros x [<-|[]]; cbn [In]; auto.
Qed.
Lemma s_conf : forall e b, says (smpOnPairingConfirm e b) [4].
Proof. intros e b. unfold smpOnPairingConfirm. destruct (len_is 16 b); [|apply silent_says; quiet]. apply says_bind; [quiet|intro; apply s_rand]. Qed.
Definition branch (m : M bool) : Prop := says m [3] /\ forall p p' o, m p = Ret (p', o, Some false) -> sent o = [].
Lemma branch_bind : forall A (m : M A) (k : A -> M bool), silent m -> (forall a, branch (k a)) -> branch (bind m k).
Proof.
  intros A m k S H. split; [apply says_bind; [exact S|intro a; apply H]|]. intros p p' o E. unfold bind in E. destruct (m p) as [[[p1 o1] [a|]]|] eqn:E1; try discriminate. destruct (k a p1) as [[[p2 o2] r2]|] eqn:E2; [|discriminate].
  injection E as <- <- ->. rewrite sent_app, (S _ _ _ _ E1). exact (proj2 (H a) _ _ _ E2).
Qed.
Lemma says_branch : forall m k K, branch m -> says k K -> In 3 K -> says (do more <- m; if more : bool then ret tt else k) K.
Proof.
  intros m k K [B1 B2] H I p p' o r E. unfold bind in E. destruct (m p) as [[[p1 o1] [[]|]]|] eqn:E1; [| | |discriminate].
  - cbn [ret] in E. injection E as <- <- <-. rewrite app_nil_r. destruct (B1 _ _ _ _ E1) as [X|(c & b & [<-|[]] & X)]; [now left|right; exists 3, b; auto].
  - destruct (k p1) as [[[p2 o2] r2]|] eqn:E2; [|discriminate]. injection E as <- <- <-. rewrite sent_app, (B2 _ _ _ E1). exact (H _ _ _ _ E2).
  - injection E as <- <- <-. destruct (B1 _ _ _ _ E1) as [X|(c & b & [<-|[]] & X)]; [now left|right; exists 3, b; auto].
Qed.
Lemma b_random : forall e, branch (handlePassKeyRandom C e).
Proof.
  intro e. unfold handlePassKeyRandom. apply branch_bind; [apply q_pconfirm|intros _]. do 2 (apply branch_bind; [quiet|intro]). destruct (Nat.ltb _ _).
  - split; [apply says_then; [apply s_cont|intro; quiet]|]. intros p p' o E. unfold bind in E. destruct (continuePassKeyPairing C e p) as [[[p1 o1] [u|]]|]; discriminate E.
  - split; [apply silent_says; quiet|]. intros p p' o E. exact (silent_ret _ _ _ _ _ _ E).
Qed.
Lemma s_random : forall e b, says (smpOnPairingRandom C e b) [3; 13].
Proof.
  intros e b. unfold smpOnPairingRandom. destruct (len_is 16 b); [|apply silent_says; quiet]. do 2 (apply says_bind; [quiet|intro]). destruct (p_legacy _).
  - apply silent_says. unfold onLegacyRandom. apply silent_bind; [apply q_lconfirm|intro]. do 4 (apply silent_bind; [quiet|intro]). apply q_enc.
  - unfold onSecureRandom. apply says_bind; [quiet|intro p]. apply says_branch; [|apply says_bind; [apply q_mac|intros _; apply (says_sub _ _ [13]); [apply s_check|intros x [<-|[]]; cbn [In]; auto]]|now left].
    assert (Y : branch (checkConfirm C ;; ret false)) by (apply branch_bind; [apply q_confirm|intros _; split; [apply silent_says; quiet|intros q q' o E; exact (silent_ret _ _ _ _ _ _ E)]]).
    destruct (p_type p); try exact Y. apply b_random.
Qed.
Lemma s_key : forall e b, says (smpOnPairingPublicKey C e b) [3].
Proof.
  intros e b. unfold smpOnPairingPublicKey. destruct (len_is 64 b); [|apply silent_says; quiet]. do 2 (apply says_bind; [quiet|intro]). destruct (beq_bytes _ _); [apply silent_says; quiet|]. destruct (UnmarshalPublicKey C b); [|apply silent_says; quiet].
  apply says_bind; [quiet|intro]. destruct (p_type _); try (apply silent_says; quiet; fail). apply s_startpk.
Qed.
Lemma s_secreq : forall e b, says (smpOnSecurityRequest e b) [1].
Proof.
  intros e b. unfold smpOnSecurityRequest. destruct b as [|a t]; [apply silent_says; quiet|]. cbv zeta.
  assert (X : says (modify (fun p => set_req (mkCfg (io_cap (p_req p)) (oob_flag (p_req p)) a (key_size (p_req p)) (init_dist (p_req p)) (resp_dist (p_req p))) p) ;; sendPairingRequest e) [1]) by (apply says_bind; [quiet|intros _; apply s_req]).
  destruct (Z.land a 3 =? 1); [|exact X]. destruct (e_find e); [|exact X]. apply silent_says. apply silent_bind; [quiet|intros _; apply q_enc].
Qed.
(** what may be sent in answer to a PDU with this code *)
Definition replies (code : Z) : list Z := if code =? 2 then [3; 12] else if code =? 3 then [4] else if code =? 4 then [3; 13] else if code =? 11 then [1] else if code =? 12 then [3] else [].
Lemma s_dispatch : forall e c b h, dispatch C e c b = Some h -> says h (replies c).
Proof.
  intros e c b h E. unfold dispatch in E. unfold replies. destruct (c =? 2); [injection E as <-; apply s_rsp|]. destruct (c =? 3); [injection E as <-; apply s_conf|]. destruct (c =? 4); [injection E as <-; apply s_random|].
  destruct (c =? 5) eqn:C5; [apply Z.eqb_eq in C5; subst c; injection E as <-; apply silent_says; apply silent_fail|]. destruct (c =? 6) eqn:C6; [apply Z.eqb_eq in C6; subst c; injection E as <-; apply silent_says; apply silent_modify|].
  destruct (c =? 7) eqn:C7; [apply Z.eqb_eq in C7; subst c; injection E as <-; apply silent_says; unfold smpOnMasterIdentification; do 5 (apply silent_bind; [quiet|intro]); destruct (p_bond _); [|quiet]; apply silent_bind; [quiet|intro]; apply silent_bind; [apply q_save|intro; quiet]|].
  destruct (c =? 11); [injection E as <-; apply s_secreq|]. destruct (c =? 12); [injection E as <-; apply s_key|]. destruct (c =? 13); [injection E as <-|discriminate].
  apply silent_says. unfold smpOnDHKeyCheck. apply silent_bind; [apply q_dhc|intro]. apply silent_bind; [apply q_save|intro]. apply silent_bind; [quiet|intro; apply q_enc].
Qed.
Definition sent_ev (l : list ev) : list bytes := flat_map (fun x => match x with EOut (OSend b) => [b] | _ => [] end) l.
Lemma sent_ev_out : forall o, sent_ev (map EOut o) = sent o.
Proof. induction o as [|x o IH]; [reflexivity|]. unfold sent_ev, sent in *. cbn [map flat_map]. rewrite IH. destruct x; reflexivity. Qed.
Lemma sent_ev_app : forall a b, sent_ev (a ++ b) = sent_ev a ++ sent_ev b.
Proof. intros. unfold sent_ev. apply flat_map_app. Qed.
Definition known (c : Z) : bool := (c =? 2) || (c =? 3) || (c =? 4) || (c =? 5) || (c =? 6) || (c =? 7) || (c =? 11) || (c =? 12) || (c =? 13).
Lemma dispatch_known : forall e c b, dispatch C e c b = None <-> known c = false.
Proof. intros e c b. unfold dispatch, known. destruct (c =? 2), (c =? 3), (c =? 4), (c =? 5), (c =? 6), (c =? 7), (c =? 11), (c =? 12), (c =? 13); cbn [orb]; split; intro; congruence. Qed.
Lemma after_silent : forall s p err s' evs, after_handler s p err = Ret (s', evs) -> sent_ev evs = [].
Proof. intros s p err s' evs E. unfold after_handler in E. destruct err; [destruct (rclosed s); [discriminate|]; destruct (waiting s); injection E as <- <-; reflexivity|]. destruct (p_st p), (rclosed s), (waiting s); injection E as <- <-; reflexivity. Qed.
Lemma gbind_ret : forall A B (x : go A) (k : A -> go B) r, gbind x k = Ret r -> exists a, x = Ret a /\ k a = Ret r.
Proof. intros A B [a|] k r E; [exists a; auto|discriminate]. Qed.
Lemma step_sent : forall s a s' evs, sstep C s a = Some (Ret (s', evs)) ->
  match a with
  | AMsg e pdu => exists c d, skipn 4 pdu = c :: d /\
      (if known c then sent_ev evs = [] \/ exists k b, In k (replies c) /\ sent_ev evs = [frame (k :: b)] else sent_ev evs = [frame [5; 5]])
  | APair _ _ _ => sent_ev evs = [] \/ exists b, sent_ev evs = [frame (1 :: b)]
  | _ => sent_ev evs = []
  end.
Proof.
  intros s a s' evs E. destruct a as [e pdu|e k o| |e]; cbn [sstep] in E.
  - destruct (stuck s); [discriminate|]. injection E as E. unfold Handle in E. destruct (gbind_ret _ _ _ _ _ E) as (pl & E1 & E2). clear E. destruct (gbind_ret _ _ _ _ _ E2) as (c & E3 & E4). clear E2. destruct (gbind_ret _ _ _ _ _ E4) as (d & E5 & E6). clear E4.
    assert (P1 : pl = skipn 4 pdu) by (unfold gfrom in E1; destruct (Nat.leb _ _); congruence). assert (P2 : pl = c :: d).
    { destruct pl as [|x pl]; [discriminate E3|]. unfold gidx in E3. cbn in E3. unfold gfrom in E5. cbn in E5. congruence. }
    exists c, d. split; [congruence|]. destruct (dispatch C e c d) as [h|] eqn:D.
    + destruct (known c) eqn:KN; [|apply (dispatch_known e c d) in KN; congruence]. destruct (gbind_ret _ _ _ _ _ E6) as ([[p o] res] & F1 & F2). destruct (gbind_ret _ _ _ _ _ F2) as ([s1 e1] & F3 & F4). cbn [fst snd] in F4. injection F4 as <- <-.
      rewrite sent_ev_app, sent_ev_out, (after_silent _ _ _ _ _ F3), app_nil_r. destruct (s_dispatch _ _ _ _ D _ _ _ _ F1) as [X|(k & b & X & Y)]; [now left|right; eauto].
    + apply dispatch_known in D. rewrite D. destruct (gbind_ret _ _ _ _ _ E6) as ([[p o] res] & F1 & F2). assert (X : sent o = [frame [5; 5]]) by (unfold send, bind, emit, must in F1; destruct (e_write e); cbn in F1; injection F1 as <- <- <-; reflexivity).
      destruct res; injection F2 as <- <-; rewrite ?sent_ev_app, sent_ev_out, X; reflexivity.
  - injection E as E. unfold Pair in E. destruct (p_st (ctx s)); try (injection E as <- <-; now left). cbv zeta in E. destruct (gbind_ret _ _ _ _ _ E) as ([[p ou] res] & F1 & F2).
    assert (X : sent ou = [] \/ exists b, sent ou = [frame (1 :: b)]).
    { unfold StartPairing in F1. assert (Y := says_bind unit unit (modify (set_st WaitPairingResponse)) (fun _ => fun p => match sendPairingRequest e p with Ret (p', o, None) => Ret (set_st Error p', o, None) | r => r end) [1] (silent_modify _)).
      assert (Z : forall a : unit, says ((fun _ : unit => fun p => match sendPairingRequest e p with Ret (p', o, None) => Ret (set_st Error p', o, None) | r => r end) a) [1]).
      { intros _ q q' o' r' G. destruct (sendPairingRequest e q) as [[[q1 o1] [u|]]|] eqn:G1; [| |discriminate G]; injection G as <- <- <-; exact (s_req _ _ _ _ _ G1). }
      destruct (Y Z _ _ _ _ F1) as [W|(c & b & [<-|[]] & W)]; [now left|right; eauto]. }
    destruct res; injection F2 as <- <-; rewrite ?sent_ev_app, sent_ev_out; cbn [sent_ev flat_map]; rewrite ?app_nil_r; exact X.
  - destruct (waiting s); [|discriminate]. injection E as <- <-. reflexivity.
  - injection E as E. destruct (gbind_ret _ _ _ _ _ E) as ([[p o] res] & F1 & F2). injection F2 as <- <-. rewrite sent_ev_out. exact (q_start _ _ _ _ _ F1).
Qed.
End P.
