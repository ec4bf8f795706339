(** What each SMP message can make the device do, for every execution. *)
Require Import Verif.Base Verif.M_smp Verif.S_smp Verif.P_smp Verif.P_smp2.

Ltac unfun := unfold own_public, MarshalPublicKeyXY, MarshalPublicKeyX, option_map in *.

Section E.
Variable C : prims.

(** Codes of the messages in a list of effects. *)
Definition code_of (o : out) : option Z :=
  match o with OSend pdu => match msg_of pdu with Some (c, _) => Some c | None => None end | _ => None end.
Definition is_save (o : out) : bool := match o with OSave _ _ => true | _ => false end.
Definition quiet (o : list out) : Prop := Forall (fun x => code_of x <> Some 13 /\ is_save x = false) o.

Lemma wp_conj : forall {A} (m : M A) p (Q1 Q2 : pctx -> list out -> option A -> Prop),
  wp m p Q1 -> wp m p Q2 -> wp m p (fun p' o r => Q1 p' o r /\ Q2 p' o r).
Proof. intros A m p Q1 Q2 H1 H2 p' o r E. split; [eapply H1|eapply H2]; eassumption. Qed.
Lemma wp_mono : forall {A} (m : M A) p (Q1 Q2 : pctx -> list out -> option A -> Prop),
  (forall p' o r, Q1 p' o r -> Q2 p' o r) -> wp m p Q1 -> wp m p Q2.
Proof. intros A m p Q1 Q2 H H1 p' o r E. apply H. eapply H1; eassumption. Qed.

Definition same_keys (p p' : pctx) : Prop := p_mac p' = p_mac p /\ p_bond p' = p_bond p.
Ltac quietly := unfold quiet; repeat (first [apply Forall_nil|apply Forall_cons]); cbn; try (split; [discriminate|reflexivity]).

Lemma rsp_quiet : forall e b p, wp (smpOnPairingResponse C e b) p (fun p' o _ => same_keys p p' /\ quiet o).
Proof. intros e b p. wps; sp; (split; [split; reflexivity|quietly]). Qed.
Lemma conf_quiet : forall e b p, wp (smpOnPairingConfirm e b) p (fun p' o _ => same_keys p p' /\ quiet o).
Proof. intros e b p. wps; sp; (split; [split; reflexivity|quietly]). Qed.
Lemma pub_quiet : forall e b p, wp (smpOnPairingPublicKey C e b) p (fun p' o _ => same_keys p p' /\ quiet o).
Proof. intros e b p. wps; sp; (split; [split; reflexivity|quietly]). Qed.
Lemma fail_quiet : forall e b p, wp (smpOnPairingFailed e b) p (fun p' o _ => same_keys p p' /\ quiet o).
Proof. intros e b p. wps; sp; (split; [split; reflexivity|quietly]). Qed.
Lemma sec_quiet : forall e b p, wp (smpOnSecurityRequest e b) p (fun p' o _ => p_mac p' = p_mac p /\ quiet o).
Proof. intros e b p. wps; sp; (split; [reflexivity|quietly]). Qed.
Lemma enc_quiet : forall e b p, wp (smpOnEncryptionInformation e b) p
  (fun p' o _ => p_mac p' = p_mac p /\ p_bond p' = Some (mkBond b 0 0 true) /\ o = []).
Proof. intros e b p. wps; sp. repeat split. Qed.
Lemma mid_effect : forall e b p, wp (smpOnMasterIdentification e b) p
  (fun p' o _ => p_mac p' = p_mac p /\
     exists bi v r8, p_bond p = Some bi /\ p_bond p' = Some (mkBond (ltk bi) v r8 true) /\
     (o = [] \/ o = [OSave (p_raddr p) (mkBond (ltk bi) v r8 true)])).
Proof.
  intros e b p. wps; sp; try match goal with H : Some _ = Some _ |- _ => apply Some_inj in H; subst end; (split; [reflexivity|]); eexists _, _, _; (split; [reflexivity|]);
  (split; [reflexivity|]); ((left; reflexivity) || (right; reflexivity)).
Qed.
Lemma dh_effect : forall e b p, wp (smpOnDHKeyCheck C e b) p
  (fun p' o _ => same_keys p p' /\ Forall (fun x => code_of x <> Some 13) o /\
     forall a bi, In (OSave a bi) o ->
       a = p_raddr p /\ p_bond p = Some bi /\ Z.land (auth_req (p_req p)) 3 = 1 /\
       smpF6 C (p_mac p) (p_rrand p) (lrand p) (check_r p) (io_bytes (p_rsp p)) (p_raddr p ++ [p_rat p]) (p_laddr p ++ [p_lat p])
       = Some b).
Proof.
  intros e b p. wps; sp; (split; [split; reflexivity|]);
  (split; [repeat (first [apply Forall_nil|apply Forall_cons]); discriminate|]); intros x bi Hin;
  cbn [In] in Hin; repeat (destruct Hin as [Hin|Hin]; try discriminate Hin); try contradiction;
  injection Hin; intros; subst; (split; [reflexivity|]); (split; [first [assumption|reflexivity]|]);
  match goal with E : negb (_ =? _) = false |- _ => apply negb_false_iff, Z.eqb_eq in E; split; [exact E|] end;
  match goal with E : beq_bytes _ _ = true |- _ => apply beq_bytes_eq in E; subst end; assumption.
Qed.

(** The confirm check that a Pairing Random message must pass. *)
Definition confirmed (p : pctx) (b : bytes) : Prop :=
  exists k q, p_keys p = Some k /\ p_rpub p = Some q /\
  smpF4 C (swap (firstn 32 q)) (swap (firstn 32 (pub_of C k))) b
        (match p_type p with Passkey => passkey_z (p_passkey p) (p_iter p) | _ => 0 end) = Some (p_rconf p) /\
  (p_type p = Passkey -> (20 <= S (p_iter p))%nat).

Lemma rand_effect : forall e b p, wp (smpOnPairingRandom C e b) p (fun p' o _ =>
  (same_keys p p' /\ quiet o) \/
  (p_legacy p = false /\ length b = 16%nat /\ confirmed p b /\
   exists k q mk lt, p_keys p = Some k /\ p_rpub p = Some q /\
     smpF5 C (swap (dh C k q)) (lrand p) b (p_laddr p ++ [p_lat p]) (p_raddr p ++ [p_rat p]) = Some (mk, lt) /\
     p_mac p' = mk /\ p_bond p' = Some (mkBond lt 0 0 false) /\
     forall x, In x o -> exists ea, x = OSend (frame (13 :: ea)) /\
       smpF6 C mk (lrand p) b (check_r p) (io_bytes (p_req p)) (p_laddr p ++ [p_lat p]) (p_raddr p ++ [p_rat p]) = Some ea)).
Proof.
  intros e b p. unfold smpOnPairingRandom. wpstep.
  2: { wpstep. left. split; [split; reflexivity|constructor]. }
  apply len_is_eq in E. wpstep. wpstep. cbv beta iota. wpstep. wpstep. cbv beta iota. wpstep.
  { eapply wp_mono; [|instantiate (1 := fun p' o _ => same_keys p p' /\ quiet o); unfold onLegacyRandom, onSecureRandom;
      wps; sp; (split; [split; reflexivity|quietly])].
    intros p' o r H. left. exact H. }
  unfold onSecureRandom. wpstep. wpstep. cbv beta iota. wpstep. 
  apply (wp_mono _ _ (fun p' o r =>
     match r with
     | Some false => o = [] /\ confirmed p b /\ exists i, p' = set_iter i (set_rrand b p)
     | _ => same_keys p p' /\ quiet o
     end)).
  2: { sp. destruct (p_type p) eqn:Et; wps; sp; lazymatch goal with |- same_keys _ _ /\ _ => split; [split; reflexivity|quietly] | _ => idtac end.
       all: (split; [reflexivity|]); (split; [|eexists; first [reflexivity|instantiate (1 := p_iter p); now destruct p]]);
       unfold confirmed; rewrite Et; unfun; sp;
       destruct (p_keys p) as [k|]; [|discriminate]; destruct (p_rpub p) as [q|]; [|discriminate];
       exists k, q; (split; [reflexivity|]); (split; [reflexivity|]);
       repeat match goal with H : Ret _ = Ret _ |- _ => apply Ret_inj in H end; subst;
       match goal with H : beq_bytes _ _ = true |- _ => apply beq_bytes_eq in H; subst end;
       (split; [assumption|]); intro Hp; try discriminate Hp;
       match goal with H : Nat.ltb _ _ = false |- _ => apply Nat.ltb_ge in H; exact H end. }
  intros p1 o1 r1 H1. destruct r1 as [[|]|].
  - wpstep. left. rewrite app_nil_r. exact H1.
  - destruct H1 as (-> & Hc & i & ->). cbn [app].
    apply (wp_mono _ _ (fun p' o _ => (same_keys p p' /\ quiet o) \/
      exists k q mk lt, p_keys p = Some k /\ p_rpub p = Some q /\
     smpF5 C (swap (dh C k q)) (lrand p) b (p_laddr p ++ [p_lat p]) (p_raddr p ++ [p_rat p]) = Some (mk, lt) /\
     p_mac p' = mk /\ p_bond p' = Some (mkBond lt 0 0 false) /\
     forall x, In x o -> exists ea, x = OSend (frame (13 :: ea)) /\
       smpF6 C mk (lrand p) b (check_r p) (io_bytes (p_req p)) (p_laddr p ++ [p_lat p]) (p_raddr p ++ [p_rat p]) = Some ea)).
    { intros p' o r [H|H]; [left; exact H|right]. repeat (split; [first [assumption|apply Hc]|]). exact H. }
    wps; sp; try (left; split; [split; reflexivity|quietly]); right.
    all: match goal with E : smpF5 _ _ _ _ _ _ = Some ?x |- _ => destruct x as [mk lt]; cbn [fst snd] in * end;
      eexists _, _, mk, lt; (split; [first [eassumption|reflexivity]|]); (split; [first [eassumption|reflexivity]|]); (split; [eassumption|]);
      (split; [reflexivity|]); (split; [reflexivity|]); intros x Hx; cbn [In] in Hx;
      repeat (destruct Hx as [<-|Hx]; [eexists; split; [reflexivity|assumption]|]); contradiction.
  - left. exact H1.
Qed.
End E.
