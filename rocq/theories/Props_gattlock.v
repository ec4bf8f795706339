(** C148-C153: the calls and handlers of a GATT client, under every interleaving. *)
Require Import Verif.Base Verif.M_attsrv Verif.M_attcli Verif.M_gattcli Verif.S_gattcli Verif.P_gattcli3 Verif.M_gattlock Verif.S_gattlock Verif.P_gattlock Verif.P_gattlock2 Verif.P_gattlock3 Verif.P_gattlock4.
Require Verif.S_attloop Verif.P_attloop.

(** ---- concrete executions ---- *)
Fixpoint kexec (s : kst) (l : list lab) : option (list lev * kst) :=
  match l with [] => Some ([], s) | x :: r => match kdo s x with Some (e, s1) => match kexec s1 r with Some (t, s2) => Some (e ++ t, s2) | None => None end | None => None end end.
Lemma kexec_run : forall l s t s', kexec s l = Some (t, s') -> krun s t s'.
Proof.
  induction l as [|x l IH]; intros s t s' H; cbn [kexec] in H; [injection H as <- <-; constructor|]. destruct (kdo s x) as [[e s1]|] eqn:D; [|discriminate]. destruct (kexec s1 l) as [[t1 s2]|] eqn:X; [|discriminate]. injection H as <- <-.
  exact (krun_trans _ _ _ (IH _ _ _ X) _ _ (krun_one _ _ _ _ D)).
Qed.
Definition ksees (n : nat) (t : list lev) : Prop := exists s, krun (kinit n 23) t s.
Lemma ksees_exec : forall n l t, option_map fst (kexec (kinit n 23) l) = Some t -> ksees n t.
Proof. intros n l t H. destruct (kexec (kinit n 23) l) as [[t' s]|] eqn:X; [|discriminate]. injection H as ->. exists s. now apply kexec_run in X. Qed.
Definition kch : gchar := mkGC [0; 0x2A] 16 2 3 4 [] (Some (mkGD [2; 0x29] 4)).
Definition kyes : peer := fun _ => Some [[19]].
Definition kask : outc := OAsk (new_client 23) None [[10; 3; 0]] (COk tt).
(** one subscribes, a notification is handled *)
Definition l_sub : list lab := [BCall 0 (MSub kch false (Some 7%nat)); BLock 0 (OPeer kyes []); BSend 0; BRet 0].
Definition t_sub : list lev := [LCall 0 (MSub kch false (Some 7%nat)); LReq 0 [18; 4; 0; 1; 0]; LRet 0 (MSub kch false (Some 7%nat)) (COk tt)].
Definition n1 : bytes := [27; 3; 0; 5].
Definition l_note : list lab := [BRx n1; BPop; BDispatch].
Definition t_note (id : Z) : list lev := [LRx n1; LNote n1 7 id [5]].

(** ** C148 *)
(** while a handler runs: no request of a method goes out, no other handler is called, no method that needs the lock returns *)
Theorem C148_handler_alone : forall n mtu t s t1 b h id d t2, krun (kinit n mtu) t s -> t = t1 ++ LNote b h id d :: t2 -> ~ In LNoteEnd t2 -> Forall (fun e => ~ busy e) t2.
Proof.
  intros n mtu t s t1 b h id d t2 H E NE. destruct (krun_split _ _ _ H _ _ _ E) as (ta & sa & x & e1 & e2 & sb & tb & RA & D & RB & -> & ->).
  destruct (kdo_case _ _ _ _ D) as [_ C]. assert (MV := minv_run _ _ _ RA (minv_init n mtu)). assert (X : e2 = [] /\ owner sb = Some WNote).
  { remember (e1 ++ LNote b h id d :: e2) as e eqn:EE. assert (IN : In (LNote b h id d) e) by (rewrite EE; apply in_mid). destruct C; cbn [In] in IN; try (exfalso; intuition discriminate). destruct e1 as [|? [|? ?]]; try discriminate EE. injection EE as _ _ _ _ <-. auto. }
  destruct X as [-> O]. exact (proj1 (note_run _ _ _ RB (minv_step _ _ _ _ MV C) O NE)).
Qed.
Print Assumptions C148_handler_alone.
(** from a method's first request until it returns: no other request, no handler call, no return of another method that needs the lock *)
Theorem C148_call_alone : forall n mtu t s t1 k b t2, krun (kinit n mtu) t s -> t = t1 ++ LReq k b :: t2 -> (forall m r, ~ In (LRet k m r) t2) -> Forall (fun e => busy e -> of_call k e) t2.
Proof.
  intros n mtu t s t1 k b t2 H E NE. destruct (krun_split _ _ _ H _ _ _ E) as (ta & sa & x & e1 & e2 & sb & tb & RA & D & RB & -> & ->).
  destruct (kdo_case _ _ _ _ D) as [_ C]. assert (MV := minv_run _ _ _ RA (minv_init n mtu)). assert (X : e2 = [] /\ owner sb = Some (WApp k)).
  { remember (e1 ++ LReq k b :: e2) as e eqn:EE. assert (IN : In (LReq k b) e) by (rewrite EE; apply in_mid). destruct C as [ | | | | |j m b0 q g' r K| | | | | | | | | | | | ]; cbn [In] in IN; try (exfalso; intuition discriminate). destruct e1 as [|? [|? ?]]; try discriminate EE. injection EE as <- <- <-.
    split; [reflexivity|]. destruct MV as [A _]. cbn [set_app owner]. apply (A _ _ K). reflexivity. }
  destruct X as [-> O]. exact (proj1 (call_run _ _ _ k RB (minv_step _ _ _ _ MV C) O NE)).
Qed.
Print Assumptions C148_call_alone.
(** two goroutines and a handler *)
Example C148_example : ksees 2 (t_sub ++ [LCall 0 MAsk; LCall 1 MClose; LReq 0 [10; 3; 0]; LRx n1; LRet 0 MAsk (COk tt); LNote n1 7 0 [5]; LNoteEnd; LRet 1 MClose (COk tt)]).
Proof.
  apply (ksees_exec _ (l_sub ++ [BCall 0 MAsk; BCall 1 MClose; BLock 0 kask; BSend 0; BRx n1; BPop; BRet 0; BDispatch; BHEnd; BLock 1 kask; BRet 1])). vm_compute. reflexivity.
Qed.

(** ** C149 *)
(** notifications are dealt with in the order of their arrival, each once; those missing were thrown away or wait *)
Theorem C149_in_order : forall n mtu t s, krun (kinit n mtu) t s -> exists waiting, S_attloop.merge (dealt t ++ waiting) (lost t) (arrived t) /\ (length waiting <= 17)%nat.
Proof. intros n mtu t s H. destruct (qinv_run _ _ _ _ H) as [(pe & M & _ & L) _]. exists pe. auto. Qed.
Print Assumptions C149_in_order.
(** one is thrown away only when 16 others wait *)
Theorem C149_lost_only_when_sixteen_wait : forall n mtu t s t1 b t2, krun (kinit n mtu) t s -> t = t1 ++ LDrop b :: t2 ->
  exists t0, t1 = t0 ++ [LRx b] /\ (length (arrived t0) >= length (dealt t0) + length (lost t0) + 16)%nat.
Proof.
  intros n mtu t s t1 b t2 H E. destruct (krun_split _ _ _ H _ _ _ E) as (ta & sa & x & e1 & e2 & sb & tb & RA & D & RB & -> & ->). destruct (kdo_case _ _ _ _ D) as [NP C].
  destruct (qinv_run _ _ _ _ RA) as [(pe & M & P & _) _]. apply P_attloop.merge_length in M. rewrite (P NP), app_length in M.
  remember (e1 ++ LDrop b :: e2) as e eqn:EE. assert (IN : In (LDrop b) e) by (rewrite EE; apply in_mid). destruct C as [ | | | | | | | |b0 L| | | | | | | | | ]; cbn [In] in IN; try (exfalso; intuition discriminate).
  destruct e1 as [|? [|? [|? ?]]]; try discriminate EE. injection EE as <- -> _. exists ta. split; [reflexivity|]. unfold pend in M. destruct (nt sa); cbn [length] in M; lia.
Qed.
Print Assumptions C149_lost_only_when_sixteen_wait.
(** the subscriptions are those of a client whose calls and notifications happen one after the other, in the order of the trace *)
Theorem C149_as_sequential : forall n mtu t s, krun (kinit n mtu) t s -> exists g, one_by_one (new_gcl mtu) t g.
Proof. intros n mtu t s H. exists (now s). exact (ov_seq _ _ _ (oinv_run _ _ _ _ H)). Qed.
Print Assumptions C149_as_sequential.
(** a handler that is called was given to a successful Subscribe for that characteristic, and gets the value of the notification *)
Theorem C149_right_handler : forall n mtu t s t1 b h id d t2, krun (kinit n mtu) t s -> t = t1 ++ LNote b h id d :: t2 ->
  d = skipn 3 b /\ exists k ch i, In (LRet k (MSub ch i (Some h)) (COk tt)) t1 /\ gc_vh ch = note_vh b /\ (i = true -> hd 0 b = 29).
Proof.
  intros n mtu t s t1 b h id d t2 H ->. destruct (seq_mid _ _ _ _ _ (ov_seq _ _ _ (oinv_run _ _ _ _ H))) as (g1 & g2 & S1 & S2 & _). inversion S2 as [| | |? ? ? ? ? ? N| |]; subst; [|contradiction].
  destruct (note_reg _ _ _ _ _ _ N) as [-> R]. split; [reflexivity|]. assert (O := reg_origin _ _ _ S1 (inv_new mtu) (fun vh i => eq_refl)).
  destruct R as [R|(Q & _ & R)]; destruct (O _ _ _ R) as (k & ch & I & V); exists k, ch; eexists; (split; [exact I|]); (split; [exact V|]); [intro Q; now apply Z.eqb_eq|discriminate].
Qed.
Print Assumptions C149_right_handler.
(** after Unsubscribe has returned, until a Subscribe of that kind returns: no notification of the characteristic is delivered (only
    indications, if the notifications were unsubscribed), and nothing at all once both kinds are unsubscribed *)
Lemma unsub_reg : forall n mtu t s t1 k ch ind r t2 b h id d t3, krun (kinit n mtu) t s -> t = t1 ++ LRet k (MSub ch ind None) r :: t2 ++ LNote b h id d :: t3 -> gc_cccd ch <> None ->
  Forall (fun e => ~ subscribes (gc_vh ch) ind e) t2 -> exists g g', handle_notification g b = Ret (g', Some (h, id, d)) /\ registered g (gc_vh ch) ind = None.
Proof.
  intros n mtu t s t1 k ch ind r t2 b h id d t3 H -> CD F. destruct (seq_mid _ _ _ _ _ (ov_seq _ _ _ (oinv_run _ _ _ _ H))) as (g1 & g2 & S1 & S2 & S3).
  assert (IA := inv_seq _ _ _ S1 (inv_new mtu)). inversion S2 as [? ? ? ? ? ? p ? SUB| | | | |]; subst; [|contradiction]. destruct (reg_sub _ _ _ _ _ _ _ IA SUB CD) as [_ [R|(_ & N & _)]]; [|contradiction].
  destruct (seq_mid _ _ _ _ _ S3) as (g3 & g4 & S4 & S5 & _). inversion S5 as [| | |? ? ? ? ? ? N| |]; subst; [|contradiction]. exists g3, g4. split; [exact N|].
  exact (seq_ind (fun g => registered g (gc_vh ch) ind = None) _ (fun a e c IA PA Q O => reg_one _ _ _ _ _ IA PA Q O) _ _ _ S4 (inv_sub _ _ _ _ _ _ _ IA SUB) R F).
Qed.
Theorem C149_unsubscribed : forall n mtu t s t1 k ch r t2 b h id d t3, krun (kinit n mtu) t s -> t = t1 ++ LRet k (MSub ch false None) r :: t2 ++ LNote b h id d :: t3 -> gc_cccd ch <> None ->
  Forall (fun e => ~ subscribes (gc_vh ch) false e) t2 -> note_vh b = gc_vh ch -> hd 0 b = 29.
Proof.
  intros n mtu t s t1 k ch r t2 b h id d t3 H E CD F V. destruct (unsub_reg _ _ _ _ _ _ _ _ _ _ _ _ _ _ _ H E CD F) as (g & g' & N & R). destruct (note_reg _ _ _ _ _ _ N) as [_ [X|(X & _ & Y)]].
  - destruct (hd 0 b =? 29) eqn:Q; [now apply Z.eqb_eq|]. rewrite V in X. congruence.
  - now apply Z.eqb_eq.
Qed.
Print Assumptions C149_unsubscribed.
Theorem C149_both_unsubscribed : forall n mtu t s ch t1 b h id d t3, krun (kinit n mtu) t s -> t = t1 ++ LNote b h id d :: t3 -> gc_cccd ch <> None ->
  (forall ind, exists k r ta tb, t1 = ta ++ LRet k (MSub ch ind None) r :: tb /\ Forall (fun e => ~ subscribes (gc_vh ch) ind e) tb) -> note_vh b <> gc_vh ch.
Proof.
  intros n mtu t s ch t1 b h id d t3 H E CD U V.
  rewrite E in H. destruct (seq_mid _ _ _ _ _ (ov_seq _ _ _ (oinv_run _ _ _ _ H))) as (g1 & g2 & S1 & S2 & _). inversion S2 as [| | |? ? ? ? ? ? N| |]; subst; [|contradiction].
  assert (Q : forall ind, registered g1 (gc_vh ch) ind = None).
  { intro ind. destruct (U ind) as (k & r & ta & tb & -> & F). destruct (seq_mid _ _ _ _ _ S1) as (ga & gb & SA & SB & SC). assert (IA := inv_seq _ _ _ SA (inv_new mtu)). inversion SB as [? ? ? ? ? ? p ? SUB| | | | |]; subst; [|contradiction].
    destruct (reg_sub _ _ _ _ _ _ _ IA SUB CD) as [_ [R0|(_ & X & _)]]; [|contradiction].
    exact (seq_ind (fun g => registered g (gc_vh ch) ind = None) _ (fun a e c IA PA Q O => reg_one _ _ _ _ _ IA PA Q O) _ _ _ SC (inv_sub _ _ _ _ _ _ _ IA SUB) R0 F). }
  destruct (note_reg _ _ _ _ _ _ N) as [_ [X|(_ & _ & X)]]; rewrite V in X; rewrite Q in X; discriminate.
Qed.
Print Assumptions C149_both_unsubscribed.
(** numbers: the next number after each notification for the characteristic, from 0 at the first subscription *)
Theorem C149_numbers : forall n mtu t s t1 b h id d t2 b' h' id' d' t3, krun (kinit n mtu) t s -> t = t1 ++ LNote b h id d :: t2 ++ LNote b' h' id' d' :: t3 -> note_vh b' = note_vh b ->
  Forall (fun e => ~ forgets (note_vh b) e) t2 -> id' = id + 1 + Z.of_nat (length (filter (about_vh (note_vh b)) t2)).
Proof.
  intros n mtu t s t1 b h id d t2 b' h' id' d' t3 H -> V F. destruct (seq_mid _ _ _ _ _ (ov_seq _ _ _ (oinv_run _ _ _ _ H))) as (g1 & g2 & S1 & S2 & S3). assert (IA := inv_seq _ _ _ S1 (inv_new mtu)).
  inversion S2 as [| | |? ? ? ? ? ? N| |]; subst; [|contradiction]. destruct (seq_mid _ _ _ _ _ S3) as (g3 & g4 & S4 & S5 & _). inversion S5 as [| | |? ? ? ? ? ? N'| |]; subst; [|contradiction].
  destruct (note_effect _ _ _ _ N) as [_ X]. destruct (aget (g_subs g1) (note_vh b)) as [s1|] eqn:A1; [|destruct X; discriminate]. destruct X as [A2 X]. destruct (target s1 b); [|discriminate]. injection X as -> -> ->.
  assert (I2 : id_of g2 (note_vh b) = Some (sb_id s1 + 1)) by (unfold id_of; rewrite A2; reflexivity).
  assert (I3 := id_run _ _ _ _ _ S4 (inv_note _ _ _ _ IA N) I2 F). unfold cnt_vh in I3.
  destruct (note_effect _ _ _ _ N') as [_ X]. rewrite V in X. unfold id_of in I3. destruct (aget (g_subs g3) (note_vh b)) as [s3|]; [|discriminate]. destruct X as [_ X]. destruct (target s3 b'); [|discriminate]. injection X as _ -> _. cbn in I3. injection I3 as ->. reflexivity.
Qed.
Print Assumptions C149_numbers.
Theorem C149_numbers_from_zero : forall n mtu t s t1 k ch i h0 t2 b h id d t3, krun (kinit n mtu) t s -> t = t1 ++ LRet k (MSub ch i h0) (COk tt) :: t2 ++ LNote b h id d :: t3 -> note_vh b = gc_vh ch ->
  Forall (fun e => ~ names (gc_vh ch) e) t1 -> Forall (fun e => ~ forgets (gc_vh ch) e) t2 -> id = Z.of_nat (length (filter (about_vh (gc_vh ch)) t2)).
Proof.
  intros n mtu t s t1 k ch i h0 t2 b h id d t3 H -> V F1 F2. destruct (seq_mid _ _ _ _ _ (ov_seq _ _ _ (oinv_run _ _ _ _ H))) as (g1 & g2 & S1 & S2 & S3). assert (IA := inv_seq _ _ _ S1 (inv_new mtu)).
  assert (U := unknown_run (gc_vh ch) _ _ _ S1 (inv_new mtu) eq_refl F1). inversion S2 as [? ? ? ? ? ? p ? SUB| | | | |]; subst; [|contradiction].
  assert (I2 : id_of g2 (gc_vh ch) = Some 0).
  { destruct (sub_effect _ _ _ _ _ _ _ IA SUB) as [(_ & _ & X)|(dd & _ & _ & [(_ & _ & X)|[(_ & _ & X)|(X & _)]])]; [discriminate| | |contradiction]; unfold id_of; rewrite X; unfold entry; rewrite U; reflexivity. }
  destruct (seq_mid _ _ _ _ _ S3) as (g3 & g4 & S4 & S5 & _). inversion S5 as [| | |? ? ? ? ? ? N'| |]; subst; [|contradiction].
  assert (I3 := id_run _ _ _ _ _ S4 (inv_sub _ _ _ _ _ _ _ IA SUB) I2 F2). unfold cnt_vh in I3. destruct (note_effect _ _ _ _ N') as [_ X]. rewrite V in X. unfold id_of in I3.
  destruct (aget (g_subs g3) (gc_vh ch)) as [s3|]; [|discriminate]. destruct X as [_ X]. destruct (target s3 b); [|discriminate]. injection X as _ -> _. cbn [option_map] in I3. injection I3 as ->. reflexivity.
Qed.
Print Assumptions C149_numbers_from_zero.
(** subscribed by one goroutine, two notifications, unsubscribed by the other, a third notification is ignored *)
Example C149_example : ksees 2 (t_sub ++ t_note 0 ++ [LNoteEnd] ++ t_note 1 ++ [LRx n1; LNoteEnd; LCall 1 (MSub kch false None); LReq 1 [18; 4; 0; 0; 0]; LRet 1 (MSub kch false None) (COk tt); LIgnored n1]).
Proof.
  apply (ksees_exec _ (l_sub ++ l_note ++ [BHEnd] ++ l_note ++ [BRx n1; BHEnd; BPop; BCall 1 (MSub kch false None); BLock 1 (OPeer kyes []); BSend 1; BRet 1; BDispatch])). vm_compute. reflexivity.
Qed.

(** ** C150 *)
(** as long as no handler has called a method that needs the lock and the process lives: if nothing more can happen, everything is done *)
Theorem C150_no_deadlock : forall n mtu t s, krun (kinit n mtu) t s -> (forall m, In (LHCall m) t -> needs m = false) -> (forall b, ~ In (LCrash b) t) -> (forall k, ~ In (LDie k) t) ->
  (exists s', istep s s') \/ at_rest s.
Proof.
  intros n mtu t s H HC NC ND. assert (MV := minv_run _ _ _ H (minv_init n mtu)). assert (OK := owner_ok_run _ _ _ H (Logic.I : owner_ok (kinit n mtu))).
  assert (X : nt s <> NPanic /\ forall m g, nt s <> NCall m g).
  { clear MV OK. remember (kinit n mtu) as s0 eqn:E. induction H as [s|s t s1 x e s2 H IH D]; [subst; split; discriminate|].
    specialize (IH E ltac:(intros m I; apply HC; apply in_or_app; auto) ltac:(intros b I; apply (NC b); apply in_or_app; auto) ltac:(intros k I; apply (ND k); apply in_or_app; auto)). destruct IH as [N1 N2].
    destruct (kdo_case _ _ _ _ D) as [_ C].
    destruct C as [k m K|k m K D0|k m K O D1 D0|k o m q g' r K O W|k o m K O W|k m b q g' r K|k m g' r K|b L1|b L1| |b q T Q|b T O C|b g' T O C|b g' h id d T O C|g' T|m g' T D0|m g' T D0|m g' T O];
      cbn [set_app set_nt nt]; try (split; assumption); try (split; discriminate); exfalso.
    - apply (ND k). apply in_or_app. right. now left.
    - apply (NC b). apply in_or_app. right. now left.
    - rewrite (HC m) in D0; [discriminate|]. apply in_or_app. right. now left. }
  destruct X as [N1 N2]. exact (can_step s MV OK N1 N2).
Qed.
Print Assumptions C150_no_deadlock.
(** and without new calls and notifications it comes to that: no run goes on for ever *)
Theorem C150_no_endless_work : forall f : nat -> kst, ~ (forall i, istep (f i) (f (S i))).
Proof. exact no_infinite. Qed.
Print Assumptions C150_no_endless_work.
(** and a method that does without the lock (Conn, Pair, StartEncryption, OpenLECreditBasedConnection, ConnectionHandle) can return at once, whoever
    holds the lock: called by an idle goroutine, or by a running handler *)
Theorem C150_lock_free : forall n mtu t s, krun (kinit n mtu) t s -> nt s <> NPanic ->
  (forall k, nth_error (apps s) k = Some PIdle -> exists s', krun (kinit n mtu) (t ++ [LCall k MFree] ++ [LRet k MFree (COk tt)]) s' /\ owner s' = owner s /\ gc s' = gc s) /\
  (forall g', nt s = NRun g' -> krun (kinit n mtu) (t ++ [LHCall MFree; LHRet MFree]) s).
Proof.
  intros n mtu t s H NP. split.
  - intros k K. assert (D1 : kdo s (BCall k MFree) = Some ([LCall k MFree], set_app s (owner s) k (PWant MFree))) by (unfold kdo; rewrite K; destruct (nt s); [reflexivity..|contradiction]).
    set (s1 := set_app s (owner s) k (PWant MFree)) in *. assert (K1 : nth_error (apps s1) k = Some (PWant MFree)) by (cbn [s1 set_app apps]; rewrite nth_error_upd, Nat.eqb_refl; assert (k < length (apps s))%nat as L by (apply nth_error_Some; rewrite K; discriminate); apply Nat.ltb_lt in L; now rewrite L).
    exists (set_app s1 (owner s) k PIdle). split; [|split; reflexivity]. rewrite app_assoc. apply (kr_snoc _ _ s1 (BFree k)); [exact (kr_snoc _ _ _ _ _ _ H D1)|].
    unfold kdo. rewrite K1. cbn [s1 set_app nt needs]. destruct (nt s); [reflexivity..|contradiction].
  - intros g' T. apply (kr_snoc _ _ s (BHCall MFree)); [exact H|]. unfold kdo. rewrite T. reflexivity.
Qed.
Print Assumptions C150_lock_free.
(** a state with a waiting call, a waiting notification and a running request meets the hypotheses *)
Example C150_example : exists s, krun (kinit 2 23) (t_sub ++ [LCall 0 MAsk; LCall 1 MClose; LReq 0 [10; 3; 0]; LRx n1]) s /\ ~ at_rest s.
Proof.
  assert (E : option_map (fun x => (fst x, nq (snd x))) (kexec (kinit 2 23) (l_sub ++ [BCall 0 MAsk; BCall 1 MClose; BLock 0 kask; BSend 0; BRx n1])) = Some (t_sub ++ [LCall 0 MAsk; LCall 1 MClose; LReq 0 [10; 3; 0]; LRx n1], [n1])) by (vm_compute; reflexivity).
  destruct (kexec _ _) as [[t s]|] eqn:X; [|discriminate]. injection E as -> Q. exists s. split; [now apply kexec_run in X|]. intros (_ & N & _). congruence.
Qed.

(** ** C151 (ideal): refuted *)
(** a handler that calls any method but Conn, Pair, StartEncryption, OpenLECreditBasedConnection and ConnectionHandle never returns from it; neither
    does any call of another goroutine, CancelConnection included, and no notification is delivered any more *)
Theorem C151_handler_uses_client_refuted :
  (forall n mtu t s t1 m t2, krun (kinit n mtu) t s -> t = t1 ++ LHCall m :: t2 -> needs m = true -> Forall (fun e => ~ busy e /\ e <> LNoteEnd) t2) /\
  ksees 2 (t_sub ++ t_note 0 ++ [LHCall MAsk; LCall 1 MClose]).
Proof.
  split; [|apply (ksees_exec _ (l_sub ++ l_note ++ [BHCall MAsk; BCall 1 MClose])); vm_compute; reflexivity].
  intros n mtu t s t1 m t2 H E ND. destruct (krun_split _ _ _ H _ _ _ E) as (ta & sa & x & e1 & e2 & sb & tb & RA & D & RB & -> & ->).
  destruct (kdo_case _ _ _ _ D) as [_ C]. assert (MV := minv_run _ _ _ RA (minv_init n mtu)). assert (X : e2 = [] /\ exists g', nt sb = NCall m g').
  { remember (e1 ++ LHCall m :: e2) as e eqn:EE. assert (IN : In (LHCall m) e) by (rewrite EE; apply in_mid). destruct C as [ | | | | | | | | | | | | | | |m0 g0 T D0|m0 g0 T D0| ]; cbn [In] in IN; try (exfalso; intuition discriminate).
    - destruct e1 as [|? [|? ?]]; try discriminate EE. injection EE as <- <-. split; [reflexivity|]. exists g0. reflexivity.
    - exfalso. destruct IN as [IN|[IN|[]]]; [injection IN as ->; congruence|discriminate]. }
  destruct X as [-> (g' & T)]. exact (proj1 (dead_run _ _ _ m g' RB (minv_step _ _ _ _ MV C) T)).
Qed.
Print Assumptions C151_handler_uses_client_refuted.

(** ** C152 (ideal): refuted *)
(** CancelConnection waits for a request of another goroutine that the peer does not answer, and for a handler that does not return *)
Theorem C152_close_waits_refuted :
  (ksees 2 ([LCall 0 MAsk; LReq 0 [10; 3; 0]; LCall 1 MClose]) /\
   forall t s, krun (kinit 2 23) ([LCall 0 MAsk; LReq 0 [10; 3; 0]; LCall 1 MClose] ++ t) s -> (forall m r, ~ In (LRet 0 m r) t) -> forall r, ~ In (LRet 1 MClose r) t) /\
  (ksees 2 (t_sub ++ t_note 0 ++ [LCall 1 MClose]) /\
   forall t s, krun (kinit 2 23) (t_sub ++ t_note 0 ++ [LCall 1 MClose] ++ t) s -> ~ In LNoteEnd t -> forall r, ~ In (LRet 1 MClose r) t).
Proof.
  split; split.
  - apply (ksees_exec _ [BCall 0 MAsk; BLock 0 kask; BSend 0; BCall 1 MClose]). vm_compute. reflexivity.
  - intros t s H NR r I. assert (F := C148_call_alone _ _ _ _ [LCall 0 MAsk] 0 [10; 3; 0] ([LCall 1 MClose] ++ t) H eq_refl). rewrite Forall_forall in F.
    apply (F ltac:(intros m r0 [J|J]; [discriminate|exact (NR m r0 J)]) (LRet 1 MClose r) (or_intror I)). discriminate.
  - apply (ksees_exec _ (l_sub ++ l_note ++ [BCall 1 MClose])). vm_compute. reflexivity.
  - intros t s H NE r I. assert (F := C148_handler_alone _ _ _ _ (t_sub ++ [LRx n1]) n1 7 0 [5] ([LCall 1 MClose] ++ t) H eq_refl). rewrite Forall_forall in F.
    apply (F ltac:(intros [J|J]; [discriminate|exact (NE J)]) (LRet 1 MClose r) (or_intror I)). discriminate.
Qed.
Print Assumptions C152_close_waits_refuted.

(** ** C153 (ideal): refuted *)
(** notifications that come while a call waits for its answer, or a handler runs, are lost from the eighteenth on *)
Theorem C153_lost_during_call_refuted : ksees 2 (t_sub ++ [LCall 0 MAsk; LReq 0 [10; 3; 0]] ++ repeat (LRx n1) 17 ++ [LRx n1; LDrop n1; LRet 0 MAsk (COk tt)]).
Proof. apply (ksees_exec _ (l_sub ++ [BCall 0 MAsk; BLock 0 kask; BSend 0; BRx n1; BPop] ++ repeat (BRx n1) 17 ++ [BRet 0])). vm_compute. reflexivity. Qed.
Print Assumptions C153_lost_during_call_refuted.
Theorem C153_lost_during_handler_refuted : ksees 1 (t_sub ++ t_note 0 ++ repeat (LRx n1) 16 ++ [LRx n1; LDrop n1; LNoteEnd]).
Proof. apply (ksees_exec _ (l_sub ++ l_note ++ repeat (BRx n1) 17 ++ [BHEnd])). vm_compute. reflexivity. Qed.
Print Assumptions C153_lost_during_handler_refuted.
