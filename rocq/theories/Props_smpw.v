(** Property C172: which PDUs the Security Manager sends. *)
Require Import Verif.Base Verif.M_smp Verif.S_smp Verif.S_smpw Verif.P_smpw Verif.Props_smp.

Lemma sent_one : forall evs l, sent_ev evs = l -> length (filter is_send evs) = length l /\ forall b, In (EOut (OSend b)) evs -> In b l.
Proof.
  intros evs l <-. split.
  - induction evs as [|x evs IH]; [reflexivity|]. unfold sent_ev in *. cbn [filter flat_map]. rewrite app_length, <- IH. destruct x as [[]| |]; reflexivity.
  - intros b H. unfold sent_ev. apply in_flat_map. exists (EOut (OSend b)). split; [exact H|now left].
Qed.
Lemma frame_packet : forall c f, frame (c :: f) = sm_packet c f.
Proof. intros c f. unfold frame, sm_packet, le16. cbn [length]. rewrite Nat2Z.inj_succ. replace (Z.succ (Z.of_nat (length f))) with (1 + Z.of_nat (length f)) by lia. reflexivity. Qed.
(** C172.  Every step of the connection sends at most one PDU, on the Security Manager channel with the right length; what is sent in answer to a received PDU is an answer to it;
    a call of Pair sends a Pairing Request; a time-out and StartEncryption send nothing. *)
Theorem C172_sent : forall C s a s' evs b, sstep C s a = Some (Ret (s', evs)) -> In (EOut (OSend b)) evs -> length (filter is_send evs) = 1%nat /\
  exists k f, b = sm_packet (code_of k) f /\ match a with AMsg _ pdu => exists c d, skipn 4 pdu = c :: d /\ answers c k f | APair _ _ _ => k = PairingRequest | _ => False end.
Proof.
  intros C s a s' evs b E I. pose proof (step_sent _ _ _ _ _ E) as H.
  assert (ONE : forall l, sent_ev evs = l -> length (filter is_send evs) = length l /\ In b l) by (intros l L; destruct (sent_one _ _ L) as [X Y]; split; [exact X|exact (Y _ I)]).
  assert (NIL : sent_ev evs = [] -> False) by (intro L; destruct (ONE _ L) as [_ []]).
  destruct a as [e pdu|e k o| |e]; try (exfalso; exact (NIL H)).
  - destruct H as (c & d & Q & H). destruct (known c) eqn:KN.
    + destruct H as [H|(k & f & K & H)]; [exfalso; exact (NIL H)|]. destruct (ONE _ H) as [L [<-|[]]]. split; [exact L|]. unfold replies in K. rewrite frame_packet.
      destruct (Z.eqb_spec c 2); [subst c; destruct K as [<-|[<-|[]]]; [exists PairingConfirm, f|exists PublicKey, f]; (split; [reflexivity|]); exists 2, d; split; [exact Q|constructor|exact Q|constructor]|].
      destruct (Z.eqb_spec c 3); [subst c; destruct K as [<-|[]]; exists PairingRandom, f; (split; [reflexivity|]); exists 3, d; split; [exact Q|constructor]|].
      destruct (Z.eqb_spec c 4); [subst c; destruct K as [<-|[<-|[]]]; [exists PairingConfirm, f|exists DHKeyCheck, f]; (split; [reflexivity|]); exists 4, d; split; [exact Q|constructor|exact Q|constructor]|].
      destruct (Z.eqb_spec c 11); [subst c; destruct K as [<-|[]]; exists PairingRequest, f; (split; [reflexivity|]); exists 11, d; split; [exact Q|constructor]|].
      destruct (Z.eqb_spec c 12); [subst c; destruct K as [<-|[]]; exists PairingConfirm, f; (split; [reflexivity|]); exists 12, d; split; [exact Q|constructor]|]. destruct K.
    + destruct (ONE _ H) as [L [<-|[]]]. split; [exact L|]. exists PairingFailed, [5]. split; [reflexivity|]. exists c, d. split; [exact Q|]. constructor. intro J. unfold known in KN. cbn [In] in J.
      destruct J as [<-|[<-|[<-|[<-|[<-|[<-|[<-|[<-|[<-|[]]]]]]]]]]; discriminate KN.
  - destruct H as [H|(f & H)]; [exfalso; exact (NIL H)|]. destruct (ONE _ H) as [L [<-|[]]]. split; [exact L|]. exists PairingRequest, f. split; [apply frame_packet|reflexivity].
Qed.
Print Assumptions C172_sent.
(** A PDU with a code that is not one of a responder's is always answered, with Pairing Failed (command not supported), and changes nothing. *)
Theorem C172_unknown_refused : forall C s e pdu c d s' evs, skipn 4 pdu = c :: d -> ~ In c [2; 3; 4; 5; 6; 7; 11; 12; 13] -> sstep C s (AMsg e pdu) = Some (Ret (s', evs)) ->
  In (EOut (OSend (sm_packet 5 [5]))) evs /\ ctx s' = ctx s /\ waiting s' = waiting s /\ rclosed s' = rclosed s.
Proof.
  intros C s e pdu c d s' evs Q N E. cbn [sstep] in E. destruct (stuck s); [discriminate|]. injection E as E. unfold Handle in E.
  destruct (gbind_ret _ _ _ _ _ E) as (pl & E1 & E2). clear E. destruct (gbind_ret _ _ _ _ _ E2) as (c' & E3 & E4). clear E2. destruct (gbind_ret _ _ _ _ _ E4) as (d' & E5 & E6). clear E4.
  assert (P1 : pl = skipn 4 pdu) by (unfold gfrom in E1; destruct (Nat.leb _ _); congruence). assert (P2 : c' = c) by (rewrite Q in P1; subst pl; unfold gidx in E3; cbn in E3; congruence). subst c'.
  assert (D : dispatch C e c d' = None). { apply dispatch_known. unfold known. cbn [In] in N. repeat match goal with |- context [c =? ?k] => destruct (Z.eqb_spec c k); [exfalso; apply N; subst c; tauto|] end. reflexivity. }
  rewrite D in E6. rewrite <- frame_packet. unfold send, bind, emit, must in E6. destruct (e_write e); cbn in E6; injection E6 as <- <-; (split; [now left|]); repeat split.
Qed.
Print Assumptions C172_unknown_refused.
(** A case of each theorem: a Pairing Response of a Secure Connections peer is answered with the public key; an unknown code with Pairing Failed. *)
Definition after_request (a : sact) : smp * list ev := match sstep toy (smp_new [1] [2] 0 0) (APair (ok_env 0) 0 []) with Some (Ret (s, _)) => match sstep toy s a with Some (Ret r) => r | _ => (s, []) end | _ => (smp_new [1] [2] 0 0, []) end.
Definition is_packet (c : Z) (n : nat) (l : list ev) : bool := match l with [EOut (OSend b)] => (Nat.eqb (length b) n) && (nth 4 b 0 =? c) && (nth 2 b 0 =? 6) | _ => false end.
Example C172_example : is_packet 12 69 (snd (after_request (AMsg (ok_env 1) (sm_packet 2 [4; 0; 9; 16; 0; 1])))) = true /\ is_packet 5 6 (snd (after_request (AMsg (ok_env 1) (sm_packet 9 [1])))) = true.
Proof. split; vm_compute; reflexivity. Qed.
