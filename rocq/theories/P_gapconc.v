Require Import Verif.Base Verif.M_cmd Verif.P_cmd Verif.M_adv Verif.S_gap Verif.P_gap Verif.M_gap Verif.M_gapconc Verif.S_gapconc.

Lemma upd_get : forall {A} (l : list A) t x0 x t', nth_error l t = Some x0 -> nth_error (upd l t x) t' = if Nat.eqb t t' then Some x else nth_error l t'.
Proof. intros A l t x0 x t' N. rewrite nth_error_upd. assert (L : (t < length l)%nat) by (apply nth_error_Some; congruence). now rewrite (proj2 (Nat.ltb_lt _ _) L). Qed.

Inductive reg := RA | RS.
Definition pick (r : reg) : setting -> option Z := match r with RA => wants_adv | RS => wants_scan end.
Definition cmd_of (r : reg) : command := match r with RA => CEnable | RS => CScan end.
Definition value (r : reg) : bytes -> option Z := match r with RA => adv_value | RS => scan_value end.
Definition fieldv (r : reg) (h : host) : Z := match r with RA => h_enable h | RS => h_scan h end.

Lemma cmd_dec : forall a b : command, {a = b} + {a <> b}.
Proof. decide equality. Qed.
Lemma opcode_inj : forall c d, opcode c = opcode d -> c = d.
Proof. intros [] []; vm_compute; intro H; congruence. Qed.
Lemma assign_field : forall r x h, fieldv r (assign x h) = match pick r x with Some v => v | None => fieldv r h end.
Proof. intros [] [] h; reflexivity. Qed.
Lemma packet_head : forall n fv d b, find_cmd n = Some d -> packet n fv = Ret b -> exists m, b = 1 :: u8 (cd_op d) :: m.
Proof.
  intros n fv d b F P. unfold packet in P. rewrite F in P. unfold cmd_bytes in P. destruct (cd_marshals d); [|discriminate P]. unfold send_bytes in P. destruct (_ <? 0); [discriminate P|].
  destruct (marshal _ _ _) as [m|]; [|discriminate P]. unfold gslice in P. destruct (_ && _)%bool; [|discriminate P]. injection P as <-. eexists. reflexivity.
Qed.
Lemma marsh_value : forall r c h b, marshalled c h = Ret b -> value r b = if cmd_dec c (cmd_of r) then Some (u8 (fieldv r h)) else None.
Proof.
  intros r c h b E. unfold marshalled in E.
  assert (HD : exists d m, find_cmd (name_of c) = Some d /\ b = 1 :: u8 (cd_op d) :: m).
  { destruct (find_cmd (name_of c)) as [d|] eqn:F; [|destruct c; vm_compute in F; discriminate F]. destruct (packet_head _ _ _ _ F E) as (m & ->). now exists d, m. }
  destruct HD as (d & m & F & B). destruct r, c; cbn [cmd_of]; destruct (cmd_dec _ _) as [Q|Q]; try congruence;
    try (vm_compute in F; injection F as <-; rewrite B; reflexivity).
  - cbn [name_of struct_of] in E. rewrite pk_enable in E. injection E as <-. reflexivity.
  - cbn [name_of struct_of] in E. rewrite pk_scan in E. injection E as <-. reflexivity.
Qed.

Fixpoint ok_prog (r : reg) (l : list instr) : Prop :=
  match l with
  | [] => True
  | ISet x :: rest => match pick r x with Some v => 0 <= v < 256 /\ rest = [ICmd (cmd_of r) false] | None => ok_prog r rest end
  | _ :: rest => ok_prog r rest
  end.
Lemma prog_ok : forall r k, ok_prog r (prog k).
Proof.
  intros r k. destruct r; destruct k; cbn [prog]; try destruct (too_long ad sr); try destruct dup; try destruct (Nat.eqb (length a) 6);
    unfold p_set, p_advertise; cbn [app ok_prog pick wants_adv wants_scan cmd_of]; try exact I; try (split; [lia|reflexivity]).
Qed.
Lemma ok_tail : forall r i l, ok_prog r (i :: l) -> ok_prog r l.
Proof. intros r i l H. destruct i as [x| |]; cbn [ok_prog] in H; [|exact H|exact H]. destruct (pick r x); [|exact H]. destruct H as [_ ->]. exact I. Qed.

Definition holds (p : phase) : option command := match p with Locked c _ => Some c | Marsh c _ _ => Some c | Written c _ _ => Some c | _ => None end.
Definition settled (r : reg) (s : gst) (v : Z) : Prop :=
  told (value r) (g_log s) = Some v /\ forall t th q b, nth_error (g_thr s) t = Some th -> t_ph th = Marsh (cmd_of r) q b -> value r b = Some v.
Definition state_ok (r : reg) (s : gst) (v : Z) (th : thread) : Prop :=
  match t_ph th, t_todo th with
  | Run, [ICmd c false] => c = cmd_of r
  | Run, [] => settled r s v
  | Locked c false, [] => c = cmd_of r
  | Marsh c false b, [] => c = cmd_of r /\ value r b = Some v
  | Written c false acc, [] => c = cmd_of r /\ (acc = true -> settled r s v)
  | Ended true, _ => settled r s v
  | Ended false, _ => True
  | _, _ => False
  end.
Record inv (r : reg) (s : gst) : Prop := mkInv {
  i_prog : forall t th, nth_error (g_thr s) t = Some th -> ok_prog r (t_todo th);
  i_lock : forall t th c, nth_error (g_thr s) t = Some th -> holds (t_ph th) = Some c -> g_lock s (opcode c) = Some t;
  i_other : forall t th c q b, nth_error (g_thr s) t = Some th -> t_ph th = Marsh c q b -> c <> cmd_of r -> value r b = None;
  i_last : match last_asked (pick r) (g_hist s) with
           | None => True
           | Some (t, v) => fieldv r (g_host s) = v /\ 0 <= v < 256 /\ exists th, nth_error (g_thr s) t = Some th /\ state_ok r s v th
           end }.
Lemma inv0 : forall r h, inv r (g0 h).
Proof. intros r h. split; try (intros [] th ? H; discriminate H); try (intros [] th H; discriminate H); try (intros [] th c q b H; discriminate H). exact I. Qed.

(** one thread changes, to one that is not in phase Marsh (cmd_of r) unless its value is v *)
Lemma settled_upd : forall r s s' t th0 th v, nth_error (g_thr s) t = Some th0 -> g_thr s' = upd (g_thr s) t th -> g_log s' = g_log s ->
  (forall q b, t_ph th = Marsh (cmd_of r) q b -> value r b = Some v) -> settled r s v -> settled r s' v.
Proof.
  intros r s s' t th0 th v N T L M [A B]. split; [rewrite L; exact A|]. intros t' th' q b N' P. rewrite T, (upd_get _ _ _ _ _ N) in N'. destruct (Nat.eqb t t') eqn:E; [|now apply (B t' th' q b)].
  injection N' as <-. now apply (M q b).
Qed.
Lemma state_mono : forall r s s' v th, (settled r s v -> settled r s' v) -> state_ok r s v th -> state_ok r s' v th.
Proof.
  intros r s s' v th M H. unfold state_ok in *. destruct (t_ph th) as [|c q|c q b|c q acc|[]]; destruct (t_todo th) as [|[x|c' q'|q'] [|]]; try destruct q; try destruct q'; auto; tauto.
Qed.
Lemma upd_inv : forall r s s' t th0 th, inv r s -> nth_error (g_thr s) t = Some th0 -> g_thr s' = upd (g_thr s) t th -> g_host s' = g_host s -> g_hist s' = g_hist s -> g_log s' = g_log s ->
  ok_prog r (t_todo th) ->
  (forall t' th' c, nth_error (g_thr s') t' = Some th' -> holds (t_ph th') = Some c -> g_lock s' (opcode c) = Some t') ->
  (forall c q b, t_ph th = Marsh c q b -> value r b = if cmd_dec c (cmd_of r) then Some (u8 (fieldv r (g_host s))) else None) ->
  (forall v, (settled r s v -> settled r s' v) -> fieldv r (g_host s) = v -> 0 <= v < 256 -> state_ok r s v th0 -> state_ok r s' v th) ->
  inv r s'.
Proof.
  intros r s s' t th0 th I N T H HI L OK LK M ST. split.
  - intros t' th' N'. rewrite T, (upd_get _ _ _ _ _ N) in N'. destruct (Nat.eqb t t'); [injection N' as <-; exact OK|apply (i_prog _ _ I _ _ N')].
  - exact LK.
  - intros t' th' c q b N' P C. rewrite T, (upd_get _ _ _ _ _ N) in N'. destruct (Nat.eqb t t'); [injection N' as <-|apply (i_other _ _ I _ _ _ _ _ N' P C)].
    rewrite (M _ _ _ P). destruct (cmd_dec c (cmd_of r)); [congruence|reflexivity].
  - rewrite HI, H. pose proof (i_last _ _ I) as X. destruct (last_asked (pick r) (g_hist s)) as [[t1 v]|]; [|exact X]. destruct X as (F & R & th1 & N1 & S1).
    split; [exact F|]. split; [exact R|].
    assert (MO : settled r s v -> settled r s' v).
    { apply (settled_upd r s s' t th0 th v N T L). intros q b P. rewrite (M _ _ _ P). destruct (cmd_dec (cmd_of r) (cmd_of r)); [|congruence]. rewrite F. unfold u8. now rewrite Z.mod_small. }
    destruct (Nat.eqb t t1) eqn:E.
    + apply Nat.eqb_eq in E. subst t1. exists th. rewrite T, (upd_get _ _ _ _ _ N), Nat.eqb_refl. split; [reflexivity|]. rewrite N in N1. injection N1 as <-. now apply ST.
    + exists th1. rewrite T, (upd_get _ _ _ _ _ N), E. split; [exact N1|]. now apply (state_mono r s s' v th1 MO).
Qed.
(** the locks *)
Lemma lock_same : forall r s s' t th0 th, inv r s -> nth_error (g_thr s) t = Some th0 -> g_thr s' = upd (g_thr s) t th -> g_lock s' = g_lock s -> (holds (t_ph th) = holds (t_ph th0) \/ holds (t_ph th) = None) ->
  forall t' th' c, nth_error (g_thr s') t' = Some th' -> holds (t_ph th') = Some c -> g_lock s' (opcode c) = Some t'.
Proof.
  intros r s s' t th0 th I N T L H t' th' c N' P. rewrite L. rewrite T, (upd_get _ _ _ _ _ N) in N'. destruct (Nat.eqb t t') eqn:E.
  - injection N' as <-. apply Nat.eqb_eq in E. subst t'. destruct H as [H|H]; rewrite H in P; [|discriminate P]. apply (i_lock _ _ I _ _ _ N P).
  - apply (i_lock _ _ I _ _ _ N' P).
Qed.
Lemma lock_take : forall r s s' t th0 th d, inv r s -> nth_error (g_thr s) t = Some th0 -> g_thr s' = upd (g_thr s) t th -> (forall x, g_lock s' x = if x =? opcode d then Some t else g_lock s x) ->
  g_lock s (opcode d) = None -> holds (t_ph th) = Some d ->
  forall t' th' c, nth_error (g_thr s') t' = Some th' -> holds (t_ph th') = Some c -> g_lock s' (opcode c) = Some t'.
Proof.
  intros r s s' t th0 th d I N T L F H t' th' c N' P. rewrite L. rewrite T, (upd_get _ _ _ _ _ N) in N'. destruct (Nat.eqb t t') eqn:E.
  - injection N' as <-. apply Nat.eqb_eq in E. subst t'. rewrite H in P. injection P as <-. now rewrite Z.eqb_refl.
  - pose proof (i_lock _ _ I _ _ _ N' P) as X. destruct (opcode c =? opcode d) eqn:Q; [|exact X]. apply Z.eqb_eq in Q. rewrite Q, F in X. discriminate X.
Qed.
Lemma lock_drop : forall r s s' t th0 th d, inv r s -> nth_error (g_thr s) t = Some th0 -> g_thr s' = upd (g_thr s) t th -> (forall x, g_lock s' x = if x =? opcode d then None else g_lock s x) ->
  holds (t_ph th0) = Some d -> holds (t_ph th) = None ->
  forall t' th' c, nth_error (g_thr s') t' = Some th' -> holds (t_ph th') = Some c -> g_lock s' (opcode c) = Some t'.
Proof.
  intros r s s' t th0 th d I N T L F H t' th' c N' P. rewrite L. rewrite T, (upd_get _ _ _ _ _ N) in N'. destruct (Nat.eqb t t') eqn:E.
  - injection N' as <-. rewrite H in P. discriminate P.
  - pose proof (i_lock _ _ I _ _ _ N' P) as X. destruct (opcode c =? opcode d) eqn:Q; [|exact X]. apply Z.eqb_eq in Q. rewrite Q in X. rewrite (i_lock _ _ I _ _ _ N F) in X. injection X as ->. rewrite Nat.eqb_refl in E. discriminate E.
Qed.
Lemma spawn_inv : forall r s k, inv r s -> inv r (mkG (g_host s) (g_thr s ++ [mkT k (prog k) Run]) (g_lock s) (g_log s) (g_hist s)).
Proof.
  intros r s k I. assert (G : forall t th, nth_error (g_thr s ++ [mkT k (prog k) Run]) t = Some th -> nth_error (g_thr s) t = Some th \/ th = mkT k (prog k) Run).
  { intros t th N. destruct (Nat.ltb t (length (g_thr s))) eqn:E; [apply Nat.ltb_lt in E; rewrite nth_error_app1 in N by exact E; now left|apply Nat.ltb_ge in E; rewrite nth_error_app2 in N by exact E]. right.
    destruct (t - length (g_thr s))%nat as [|[|]]; [injection N as <-; reflexivity|discriminate N|discriminate N]. }
  split; cbn [g_host g_thr g_lock g_log g_hist].
  - intros t th N. destruct (G _ _ N) as [N'| ->]; [apply (i_prog _ _ I _ _ N')|apply prog_ok].
  - intros t th c N P. destruct (G _ _ N) as [N'| ->]; [apply (i_lock _ _ I _ _ _ N' P)|discriminate P].
  - intros t th c q b N P. destruct (G _ _ N) as [N'| ->]; [apply (i_other _ _ I _ _ _ _ _ N' P)|discriminate P].
  - pose proof (i_last _ _ I) as X. destruct (last_asked (pick r) (g_hist s)) as [[t1 v]|]; [|exact X]. destruct X as (F & R & th1 & N1 & S1). split; [exact F|]. split; [exact R|]. exists th1.
    split; [rewrite nth_error_app1; [exact N1|apply nth_error_Some; congruence]|]. revert S1. apply state_mono. intros [A B]. split; [exact A|]. cbn [g_thr]. intros t th q b N P. destruct (G _ _ N) as [N'| ->]; [apply (B _ _ _ _ N' P)|discriminate P].
Qed.
Lemma told_app : forall (f : bytes -> option Z) l b acc, told f (l ++ [(b, acc)]) = if acc then match f b with Some e => Some e | None => told f l end else told f l.
Proof. intros. unfold told. rewrite fold_left_app. reflexivity. Qed.
Lemma last_app : forall f l t x, last_asked f (l ++ [(t, x)]) = match f x with Some v => Some (t, v) | None => last_asked f l end.
Proof. intros. unfold last_asked. rewrite fold_left_app. reflexivity. Qed.

Lemma exec_inv : forall r s a s', inv r s -> exec s a = Some s' -> inv r s'.
Proof.
  intros r s a s' I E. destruct a as [k| |t|t acc|t|t|t]; cbn [exec] in E.
  - destruct k; try discriminate E; injection E as <-; now apply spawn_inv.
  - injection E as <-. destruct (_ =? _); [now apply spawn_inv|exact I].
  - destruct (nth_error (g_thr s) t) as [[k todo ph]|] eqn:N; [|discriminate E]. cbn [t_ph t_todo t_call] in E. pose proof (i_prog _ _ I _ _ N) as OK. cbn [t_todo] in OK.
    destruct ph as [|c q|c q b|c q acc|ok]; try discriminate E.
    + destruct todo as [|[x|c q|q] rest]; try discriminate E.
      * injection E as <-. apply (upd_inv r s _ t (mkT k [] Run) (mkT k [] (Ended true)) I N); try reflexivity; try discriminate.
        -- eapply (lock_same r s _ t _ _ I N); [reflexivity|reflexivity|]. now right.
        -- intros v MO _ _ S1. apply MO. exact S1.
      * injection E as <-. destruct (pick r x) as [v|] eqn:P.
        -- cbn [ok_prog] in OK. rewrite P in OK. destruct OK as [V ->]. split; cbn [g_host g_thr g_lock g_log g_hist].
           ++ intros t' th' N'. rewrite (upd_get _ _ _ _ _ N) in N'. destruct (Nat.eqb t t'); [injection N' as <-; exact Coq.Init.Logic.I|apply (i_prog _ _ I _ _ N')].
           ++ intros t' th' c N' Q. rewrite (upd_get _ _ _ _ _ N) in N'. destruct (Nat.eqb t t'); [injection N' as <-; discriminate Q|apply (i_lock _ _ I _ _ _ N' Q)].
           ++ intros t' th' c q b N' Q. rewrite (upd_get _ _ _ _ _ N) in N'. destruct (Nat.eqb t t'); [injection N' as <-; discriminate Q|apply (i_other _ _ I _ _ _ _ _ N' Q)].
           ++ rewrite last_app, P, assign_field, P. split; [reflexivity|]. split; [exact V|]. exists (mkT k [ICmd (cmd_of r) false] Run). rewrite (upd_get _ _ _ _ _ N), Nat.eqb_refl. split; reflexivity.
        -- pose proof OK as OK2. cbn [ok_prog] in OK2. rewrite P in OK2.
           assert (MO : forall v s', g_thr s' = upd (g_thr s) t (mkT k rest Run) -> g_log s' = g_log s -> settled r s v -> settled r s' v) by (intros v s' T L; apply (settled_upd r s s' t _ _ v N T L); discriminate).
           split; cbn [g_host g_thr g_lock g_log g_hist].
           ++ intros t' th' N'. rewrite (upd_get _ _ _ _ _ N) in N'. destruct (Nat.eqb t t'); [injection N' as <-; exact OK2|apply (i_prog _ _ I _ _ N')].
           ++ intros t' th' c N' Q. rewrite (upd_get _ _ _ _ _ N) in N'. destruct (Nat.eqb t t'); [injection N' as <-; discriminate Q|apply (i_lock _ _ I _ _ _ N' Q)].
           ++ intros t' th' c q b N' Q. rewrite (upd_get _ _ _ _ _ N) in N'. destruct (Nat.eqb t t'); [injection N' as <-; discriminate Q|apply (i_other _ _ I _ _ _ _ _ N' Q)].
           ++ rewrite last_app, P, assign_field, P. pose proof (i_last _ _ I) as X. destruct (last_asked (pick r) (g_hist s)) as [[t1 v]|]; [|exact X]. destruct X as (F & R & th1 & N1 & S1).
              split; [exact F|]. split; [exact R|]. exists th1. rewrite (upd_get _ _ _ _ _ N). destruct (Nat.eqb t t1) eqn:Q.
              ** apply Nat.eqb_eq in Q. subst t1. rewrite N in N1. injection N1 as <-. destruct rest; elim S1.
              ** split; [exact N1|]. revert S1. apply state_mono. now apply MO.
      * destruct (g_lock s (opcode c)) as [t'|] eqn:LK; [discriminate E|]. injection E as <-. apply (upd_inv r s _ t (mkT k (ICmd c q :: rest) Run) (mkT k rest (Locked c q)) I N); try reflexivity; try discriminate.
        -- exact OK.
        -- eapply (lock_take r s _ t _ _ c I N); [reflexivity|reflexivity|exact LK|reflexivity].
        -- intros v MO _ _ S1. cbn in S1 |- *. destruct q, rest; try contradiction. exact S1.
      * injection E as <-. apply (upd_inv r s _ t (mkT k (IRet q :: rest) Run) (mkT k [] (Ended q)) I N); try reflexivity; try discriminate.
        -- eapply (lock_same r s _ t _ _ I N); [reflexivity|reflexivity|]. now right.
        -- intros v MO _ _ S1. cbn in S1. destruct rest; elim S1.
    + destruct (marshalled c (g_host s)) as [b|] eqn:MB; [|destruct todo; discriminate E].
      assert (E' : Some (set_thr s t (mkT k todo (Marsh c q b))) = Some s') by (destruct todo; exact E). injection E' as <-.
      pose proof (marsh_value r _ _ _ MB) as MV. apply (upd_inv r s _ t (mkT k todo (Locked c q)) (mkT k todo (Marsh c q b)) I N); try reflexivity.
      * exact OK.
      * eapply (lock_same r s _ t _ _ I N); [reflexivity|reflexivity|]. now left.
      * intros c' q' b' Q. injection Q as <- <- <-. exact MV.
      * intros v MO FV R S1. cbn in S1 |- *. destruct q; [contradiction|]. destruct todo; [|contradiction]. split; [exact S1|]. rewrite MV. destruct (cmd_dec c (cmd_of r)); [|congruence]. rewrite FV. unfold u8. now rewrite Z.mod_small.
  - destruct (nth_error (g_thr s) t) as [[k todo [|c q|c q b|c q acc'|ok]]|] eqn:N; try discriminate E. injection E as <-.
    assert (VB : value r b = if cmd_dec c (cmd_of r) then value r b else None) by (destruct (cmd_dec c (cmd_of r)) as [Q|Q]; [reflexivity|apply (i_other _ _ I _ _ _ _ _ N eq_refl Q)]).
    assert (UN : forall t' th' q' b', nth_error (g_thr s) t' = Some th' -> t_ph th' = Marsh (cmd_of r) q' b' -> c = cmd_of r -> t' = t).
    { intros t' th' q' b' N' P ->. pose proof (i_lock _ _ I _ _ (cmd_of r) N' ltac:(now rewrite P)) as A. pose proof (i_lock _ _ I _ _ (cmd_of r) N eq_refl) as B. congruence. }
    assert (MO : forall v, settled r s v -> settled r (mkG (g_host s) (upd (g_thr s) t (mkT k todo (Written c q acc))) (g_lock s) (g_log s ++ [(b, acc)]) (g_hist s)) v).
    { intros v [A B]. split; cbn [g_log g_thr].
      - rewrite told_app. destruct acc; [|exact A]. destruct (value r b) as [e|] eqn:Q; [|exact A]. destruct (cmd_dec c (cmd_of r)) as [->|]; [|discriminate VB]. rewrite (B _ _ _ _ N eq_refl) in Q. congruence.
      - intros t' th' q' b' N' P. rewrite (upd_get _ _ _ _ _ N) in N'. destruct (Nat.eqb t t'); [injection N' as <-; discriminate P|apply (B _ _ _ _ N' P)]. }
    split; cbn [g_host g_thr g_lock g_log g_hist].
    + intros t' th' N'. rewrite (upd_get _ _ _ _ _ N) in N'. destruct (Nat.eqb t t'); [injection N' as <-; exact (i_prog _ _ I _ _ N)|apply (i_prog _ _ I _ _ N')].
    + intros t' th' c' N' Q. rewrite (upd_get _ _ _ _ _ N) in N'. destruct (Nat.eqb t t') eqn:TT; [|apply (i_lock _ _ I _ _ _ N' Q)]. apply Nat.eqb_eq in TT. subst t'. injection N' as <-. injection Q as <-. apply (i_lock _ _ I _ _ _ N). reflexivity.
    + intros t' th' c' q' b' N' Q. rewrite (upd_get _ _ _ _ _ N) in N'. destruct (Nat.eqb t t'); [injection N' as <-; discriminate Q|apply (i_other _ _ I _ _ _ _ _ N' Q)].
    + pose proof (i_last _ _ I) as X. destruct (last_asked (pick r) (g_hist s)) as [[t1 v]|]; [|exact X]. destruct X as (F & R & th1 & N1 & S1). split; [exact F|]. split; [exact R|].
      destruct (Nat.eqb t t1) eqn:TT.
      * apply Nat.eqb_eq in TT. subst t1. rewrite N in N1. injection N1 as <-. eexists. rewrite (upd_get _ _ _ _ _ N), Nat.eqb_refl. split; [reflexivity|]. cbn in S1 |- *. destruct q; [contradiction|]. destruct todo; [|contradiction].
        destruct S1 as [-> VV]. split; [reflexivity|]. intros ->. split; cbn [g_log g_thr]; [rewrite told_app, VV; reflexivity|].
        intros t' th' q' b' N' P. rewrite (upd_get _ _ _ _ _ N) in N'. destruct (Nat.eqb t t') eqn:TT; [injection N' as <-; discriminate P|]. pose proof (UN _ _ _ _ N' P eq_refl) as ->. rewrite Nat.eqb_refl in TT. discriminate TT.
      * exists th1. rewrite (upd_get _ _ _ _ _ N), TT. split; [exact N1|]. revert S1. apply state_mono, MO.
  - destruct (nth_error (g_thr s) t) as [[k todo [|c q|c q b|c q acc'|ok]]|] eqn:N; try discriminate E. injection E as <-.
    apply (upd_inv r s _ t (mkT k todo (Marsh c q b)) (mkT k [] (Ended q)) I N); try reflexivity; try discriminate.
    + eapply (lock_drop r s _ t _ _ c I N); reflexivity.
    + intros v MO _ _ S1. cbn in S1 |- *. destruct q; [contradiction|exact Coq.Init.Logic.I].
  - destruct (nth_error (g_thr s) t) as [[k todo [|c q|c q b|c q acc|ok]]|] eqn:N; try discriminate E. injection E as <-.
    apply (upd_inv r s _ t (mkT k todo (Written c q acc)) (if acc then mkT k todo Run else mkT k [] (Ended q)) I N); try reflexivity; try (destruct acc; discriminate).
    + destruct acc; [exact (i_prog _ _ I _ _ N)|exact Coq.Init.Logic.I].
    + apply (lock_drop r s _ t _ (if acc then mkT k todo Run else mkT k [] (Ended q)) c I N); try reflexivity. destruct acc; reflexivity.
    + intros v MO _ _ S1. cbn in S1. destruct q; [contradiction|]. destruct todo; [|contradiction]. destruct S1 as [_ S1]. destruct acc; cbn; [apply MO, S1; reflexivity|exact Coq.Init.Logic.I].
  - destruct (nth_error (g_thr s) t) as [[k todo [|c q|c q b|c q acc|ok]]|] eqn:N; try discriminate E. injection E as <-.
    apply (upd_inv r s _ t (mkT k todo (Written c q acc)) (mkT k [] (Ended q)) I N); try reflexivity; try discriminate.
    + eapply (lock_drop r s _ t _ _ c I N); reflexivity.
    + intros v MO _ _ S1. cbn in S1 |- *. destruct q; [contradiction|exact Coq.Init.Logic.I].
Qed.
Lemma runs_inv : forall r h l s, runs h l s -> inv r s.
Proof.
  intros r h l s R. unfold runs in R. assert (G : forall l s0, inv r s0 -> exec_all s0 l = Some s -> inv r s); [|apply (G l _ (inv0 r h) R)].
  clear. induction l as [|a l IH]; intros s0 I E; cbn [exec_all] in E; [injection E as <-; exact I|]. destruct (exec s0 a) as [s1|] eqn:X; [|discriminate E]. apply (IH s1); [apply (exec_inv _ _ _ _ I X)|exact E].
Qed.
(** which call made an assignment *)
Lemma hist_calls : forall h l s t x, runs h l s -> In (t, x) (g_hist s) -> exists th, nth_error (g_thr s) t = Some th /\ In (ISet x) (prog (t_call th)).
Proof.
  intros h l s t x R. unfold runs in R.
  assert (G : forall l s0, (forall t th, nth_error (g_thr s0) t = Some th -> incl (t_todo th) (prog (t_call th))) -> (forall t x, In (t, x) (g_hist s0) -> exists th, nth_error (g_thr s0) t = Some th /\ In (ISet x) (prog (t_call th))) ->
    exec_all s0 l = Some s -> forall t x, In (t, x) (g_hist s) -> exists th, nth_error (g_thr s) t = Some th /\ In (ISet x) (prog (t_call th))).
  2:{ apply (G l (g0 h)); [intros [] th N; discriminate N|intros t' x' []|exact R]. }
  clear. induction l as [|a l IH]; intros s0 A B E; cbn [exec_all] in E; [injection E as <-; exact B|]. destruct (exec s0 a) as [s1|] eqn:X; [|discriminate E].
  assert (UPD : forall t th0 th, nth_error (g_thr s0) t = Some th0 -> t_call th = t_call th0 -> incl (t_todo th) (t_todo th0) -> g_thr s1 = upd (g_thr s0) t th ->
    (forall t x, In (t, x) (g_hist s1) -> exists th, nth_error (g_thr s0) t = Some th /\ In (ISet x) (prog (t_call th))) ->
    (forall t th, nth_error (g_thr s1) t = Some th -> incl (t_todo th) (prog (t_call th))) /\ (forall t x, In (t, x) (g_hist s1) -> exists th, nth_error (g_thr s1) t = Some th /\ In (ISet x) (prog (t_call th)))).
  { intros t th0 th N C S T HI. split.
    - intros t' th' N'. rewrite T, (upd_get _ _ _ _ _ N) in N'. destruct (Nat.eqb t t'); [injection N' as <-|apply (A _ _ N')]. rewrite C. intros i IN. apply (A _ _ N). now apply S.
    - intros t' x' IN. destruct (HI _ _ IN) as (th' & N' & P). rewrite T, (upd_get _ _ _ _ _ N). destruct (Nat.eqb t t') eqn:Q; [|exists th'; now split]. apply Nat.eqb_eq in Q. subst t'. exists th. split; [reflexivity|]. rewrite C. congruence. }
  assert (SP : forall k, (forall t th, nth_error (g_thr s0 ++ [mkT k (prog k) Run]) t = Some th -> incl (t_todo th) (prog (t_call th))) /\ (forall t x, In (t, x) (g_hist s0) -> exists th, nth_error (g_thr s0 ++ [mkT k (prog k) Run]) t = Some th /\ In (ISet x) (prog (t_call th)))).
  { intro k. split.
    - intros t th N. destruct (Nat.ltb t (length (g_thr s0))) eqn:Q; [apply Nat.ltb_lt in Q; rewrite nth_error_app1 in N by exact Q; now apply (A t)|apply Nat.ltb_ge in Q; rewrite nth_error_app2 in N by exact Q].
      destruct (t - length (g_thr s0))%nat as [|[|]]; [injection N as <-; apply incl_refl|discriminate N|discriminate N].
    - intros t x IN. destruct (B _ _ IN) as (th & N & P). exists th. split; [|exact P]. rewrite nth_error_app1; [exact N|]. apply nth_error_Some. congruence. }
  assert (Y : (forall t th, nth_error (g_thr s1) t = Some th -> incl (t_todo th) (prog (t_call th))) /\ (forall t x, In (t, x) (g_hist s1) -> exists th, nth_error (g_thr s1) t = Some th /\ In (ISet x) (prog (t_call th)))).
  2:{ destruct Y as [A1 B1]. apply (IH s1 A1 B1 E). }
  destruct a as [k| |t|t acc|t|t|t]; cbn [exec] in X.
  - destruct k; try discriminate X; injection X as <-; apply SP.
  - injection X as <-. destruct (_ =? _); [apply SP|now split].
  - destruct (nth_error (g_thr s0) t) as [[k todo ph]|] eqn:N; [|discriminate X]. cbn [t_ph t_todo t_call] in X. destruct ph as [|c q|c q b|c q acc|ok]; try discriminate X.
    + destruct todo as [|[y|c q|q] rest]; try discriminate X.
      * injection X as <-. eapply UPD; [exact N| | |reflexivity|exact B]; [reflexivity|apply incl_refl].
      * injection X as <-. eapply UPD; [exact N| | |reflexivity|]; [reflexivity|apply incl_tl, incl_refl|]. intros t' x' IN. cbn [g_hist] in IN. apply in_app_or in IN. destruct IN as [IN|[IN|[]]]; [now apply B|]. injection IN as <- <-. eexists. split; [exact N|]. apply (A _ _ N). now left.
      * destruct (g_lock s0 (opcode c)); [discriminate X|]. injection X as <-. eapply UPD; [exact N| | |reflexivity|exact B]; [reflexivity|apply incl_tl, incl_refl].
      * injection X as <-. eapply UPD; [exact N| | |reflexivity|exact B]; [reflexivity|apply incl_nil_l].
    + destruct (marshalled c (g_host s0)) as [b|]; [|destruct todo; discriminate X]. assert (X' : Some (set_thr s0 t (mkT k todo (Marsh c q b))) = Some s1) by (destruct todo; exact X). injection X' as <-. eapply UPD; [exact N| | |reflexivity|exact B]; [reflexivity|apply incl_refl].
  - destruct (nth_error (g_thr s0) t) as [[k todo [|c q|c q b|c q acc'|ok]]|] eqn:N; try discriminate X. injection X as <-. eapply UPD; [exact N| | |reflexivity|exact B]; [reflexivity|apply incl_refl].
  - destruct (nth_error (g_thr s0) t) as [[k todo [|c q|c q b|c q acc'|ok]]|] eqn:N; try discriminate X. injection X as <-. eapply UPD; [exact N| | |reflexivity|exact B]; [reflexivity|apply incl_nil_l].
  - destruct (nth_error (g_thr s0) t) as [[k todo [|c q|c q b|c q acc|ok]]|] eqn:N; try discriminate X. injection X as <-. eapply (UPD t _ (if acc then mkT k todo Run else mkT k [] (Ended q)) N); [| |reflexivity|exact B]; destruct acc; try reflexivity; [apply incl_refl|apply incl_nil_l].
  - destruct (nth_error (g_thr s0) t) as [[k todo [|c q|c q b|c q acc|ok]]|] eqn:N; try discriminate X. injection X as <-. eapply UPD; [exact N| | |reflexivity|exact B]; [reflexivity|apply incl_nil_l].
Qed.
Lemma last_asked_in : forall f l t v, last_asked f l = Some (t, v) -> exists x, In (t, x) l /\ f x = Some v.
Proof.
  intros f l t v. induction l as [|[t' x] l IH] using rev_ind; [discriminate|]. rewrite last_app. destruct (f x) as [w|] eqn:F.
  - intro H. injection H as -> ->. exists x. split; [apply in_or_app; right; now left|exact F].
  - intro H. destruct (IH H) as (y & IN & Q). exists y. split; [apply in_or_app; now left|exact Q].
Qed.
