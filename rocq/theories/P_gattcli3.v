(** Long reads and subscriptions. *)
Require Import Verif.Base Verif.M_uuid Verif.M_attdb Verif.S_attsrv Verif.M_attsrv Verif.M_attcli Verif.S_attcli Verif.M_gattcli Verif.S_gattcli Verif.P_attcli Verif.P_attcli2 Verif.P_gattcli.

Lemma check_value : forall op v, op <> 1 -> check (op :: v) (fun r => let! v := gfrom r 1 in Ret (COk v)) = Ret (COk v).
Proof. intros op v H. rewrite (check_op _ _ _ op v) by auto. rewrite gfrom_ok by (cbn; lia). reflexivity. Qed.
Lemma firstn_plus : forall {A} a b (v : list A), firstn (a + b) v = firstn a v ++ firstn b (skipn a v).
Proof. intros A a. induction a as [|a IH]; intros b [|x v]; cbn [Nat.add firstn skipn app]; [reflexivity|reflexivity|now rewrite firstn_nil|]. now rewrite IH. Qed.
Lemma firstn_len : forall {A} n (l : list A), firstn (length (firstn n l)) l = firstn n l.
Proof. intros A n. induction n as [|n IH]; intros [|x l]; cbn [firstn length]; [reflexivity..|]. now rewrite IH. Qed.
Lemma long_loop_ok : forall p h v m, 2 <= m -> Z.of_nat (length v) < 65536 -> serves_value p h v m ->
  forall fuel c k, usable c -> cmtu c = m -> (k <= length v)%nat -> (length v - k < fuel)%nat ->
  forall buf rd, buf = firstn (k + length rd) v -> rd = firstn (Z.to_nat (m - 1)) (skipn k v) ->
  exists c', same_cli c c' /\ long_loop fuel p c h buf rd = Ret (Some (c', COk v)).
Proof.
  intros p h v m M LV [SR SB] fuel. induction fuel as [|fuel IH]; intros c k U CM K F buf rd B R; [lia|].
  cbn [long_loop]. rewrite CM.
  assert (LR : length rd = Nat.min (Z.to_nat (m - 1)) (length v - k)) by (rewrite R, firstn_length, skipn_length; lia).
  destruct (Z.of_nat (length rd) >=? m - 1) eqn:G.
  - assert (LB : length buf = (k + length rd)%nat) by (rewrite B, firstn_length; lia).
    replace (u16 (Z.of_nat (length buf))) with (Z.of_nat (length buf)) by (unfold u16; rewrite Z.mod_small; lia).
    destruct (ask_blob p c h (Z.of_nat (length buf)) _ (SB (clog c) (Z.of_nat (length buf)) ltac:(lia)) ltac:(unfold usable in U; lia)) as (c' & SC & E).
    rewrite E, check_value by lia. cbn [gbind]. rewrite Nat2Z.id, LB.
    set (rd' := firstn (Z.to_nat (m - 1)) (skipn (k + length rd) v)).
    destruct (IH c' (k + length rd)%nat) with (buf := buf ++ rd') (rd := rd') as (c2 & SC2 & E2).
    + destruct SC as [L _]. unfold usable in *. lia.
    + destruct SC as (_ & X & _). lia.
    + lia.
    + lia.
    + rewrite firstn_plus, B. f_equal. unfold rd'. now rewrite firstn_len.
    + reflexivity.
    + exists c2. split; [eapply same_cli_trans; eassumption|exact E2].
  - exists c. split; [apply same_cli_refl|]. replace buf with v; [reflexivity|]. rewrite B. rewrite firstn_all2 by lia. reflexivity.
Qed.

(** ---- subscriptions ---- *)
Lemma aget_aset : forall {V} (m : list (Z * V)) k v k', aget (aset m k v) k' = if k' =? k then Some v else aget m k'.
Proof.
  intros V m k v k'. induction m as [|[a w] m IH]; cbn [aset aget].
  - destruct (k' =? k); reflexivity.
  - destruct (k =? a) eqn:E; cbn [aget].
    + apply Z.eqb_eq in E. subst a. destruct (k' =? k); reflexivity.
    + rewrite IH. destruct (k' =? a) eqn:Q; [|reflexivity]. apply Z.eqb_eq in Q. subst a. rewrite Z.eqb_sym, E. reflexivity.
Qed.
Lemma aget_adel : forall {V} (m : list (Z * V)) k k', aget (adel m k) k' = if k' =? k then None else aget m k'.
Proof.
  intros V m k k'. induction m as [|[a w] m IH]; cbn [adel aget]; [destruct (k' =? k); reflexivity|].
  destruct (k =? a) eqn:E.
  - apply Z.eqb_eq in E. subst a. rewrite IH. destruct (k' =? k); reflexivity.
  - cbn [aget]. rewrite IH. destruct (k' =? a) eqn:Q; [|reflexivity]. apply Z.eqb_eq in Q. subst a. rewrite Z.eqb_sym, E. reflexivity.
Qed.
Lemma find_aget : forall {V} (m : list (Z * V)) k, find (fun x => fst x =? k) m = match aget m k with None => None | Some v => Some (k, v) end.
Proof.
  intros V m k. induction m as [|[a w] m IH]; cbn [find aget fst]; [reflexivity|]. rewrite Z.eqb_sym. destruct (k =? a) eqn:E; [|exact IH]. apply Z.eqb_eq in E. now subst a.
Qed.
Lemma registered_aget : forall g vh ind, registered g vh ind = match aget (g_subs g) vh with None => None | Some s => if ind then sb_i s else sb_n s end.
Proof. intros g vh ind. unfold registered. rewrite find_aget. destruct (aget (g_subs g) vh); reflexivity. Qed.
(** an acknowledged write *)
Lemma write_log : forall p c h v c' r, write p c h v = Ret (c', r) ->
  same_cli c c' /\ (clog c' = clog c \/ exists rej, clog c' = clog c ++ [18 :: le16 h ++ v] ++ map reject rej) /\
  (r = COk tt -> exists rej, clog c' = clog c ++ [18 :: le16 h ++ v] ++ map reject rej).
Proof.
  intros p c h v c' r H. destruct (Z.of_nat (length v) >? cmtu c - 3) eqn:A.
  { unfold write in H. rewrite A in H. injection H as <- <-. split; [apply same_cli_refl|]. split; [now left|discriminate]. }
  destruct (Nat.ltb (length (ctx c)) (3 + length v)) eqn:L.
  { unfold write in H. rewrite A in H. rewrite transact_panic in H by lia. discriminate. }
  apply Nat.ltb_ge in L. unfold write in H. rewrite A in H.
  rewrite (transact_spec _ _ _ _ _ _ (OWrite h v) (le16 h ++ v) _ (build_ok _ _ _ (18 :: le16 h ++ v) L eq_refl (fun b H => eq_trans (f_write 18 h v b 0 ltac:(lia)) ltac:(rewrite skipn_all2 by lia; rewrite app_nil_r; reflexivity)))) in H by reflexivity.
  assert (TL : length ((18 :: le16 h ++ v) ++ skipn (3 + length v) (ctx c)) = length (ctx c)) by (apply build_len; [reflexivity|exact L]).
  unfold after in H. destruct (p _) as [inc|].
  - destruct (before_cases (OWrite h v) inc); [|discriminate]. destruct (find (answers_op (OWrite h v)) inc) as [rsp|].
    + destruct (check rsp _) as [x|]; [|discriminate]. cbn [gbind] in H. injection H as <- <-. split; [split; [exact TL|split; reflexivity]|]. split; [right|intros _]; eexists; reflexivity.
    + injection H as <- <-. split; [split; [exact TL|split; reflexivity]|]. split; [right; eexists; reflexivity|discriminate].
  - injection H as <- <-. split; [split; [exact TL|split; reflexivity]|]. split; [now left|discriminate].
Qed.
Lemma config_app : forall a b h, peer_config (a ++ b) h = fold_left (fun old pdu => write_to h pdu old) b (peer_config a h).
Proof. intros a b h. unfold peer_config. apply fold_left_app. Qed.
Lemma config_rejects : forall l h o, fold_left (fun old pdu => write_to h pdu old) (map reject l) o = o.
Proof. induction l as [|x l IH]; intros h o; [reflexivity|]. cbn [map fold_left]. rewrite IH. reflexivity. Qed.
Lemma config_write : forall log rej k v h, 0 <= k < 65536 -> 0 <= v < 65536 ->
  peer_config (log ++ [18 :: le16 k ++ le16 v] ++ map reject rej) h = if k =? h then v else peer_config log h.
Proof.
  intros log rej k v h K V. rewrite config_app, fold_left_app, config_rejects. cbn [fold_left]. unfold write_to. cbn [le16 app]. rewrite !de16_le16 by assumption. cbn [Z.eqb Pos.eqb andb].
  destruct (k =? h); reflexivity.
Qed.
Lemma bits_range : forall n i, 0 <= bits n i < 65536. Proof. intros [] []; cbn; lia. Qed.
(** what setHandlers does to an entry whose value has the bits of its handlers *)
Definition fresh (cccdh : Z) : sub := mkSub cccdh 0 None None 0.
Definition entry (g : gcl) (vh cccdh : Z) : sub := match aget (g_subs g) vh with Some s => s | None => fresh cccdh end.
Definition of_kind (s : sub) (ind : bool) : option nat := if ind then sb_i s else sb_n s.
Definition with_kind (s : sub) (ind : bool) (h : option nat) : sub :=
  let n := if ind then sb_n s else h in let i := if ind then h else sb_i s in mkSub (sb_cccdh s) (bits n i) n i (sb_id s).
Lemma set_handlers_same : forall p g cccdh vh ind h, let s := entry g vh cccdh in sb_ccc s = bits (sb_n s) (sb_i s) ->
  (h = None <-> of_kind s ind = None) -> set_handlers p g cccdh vh (flag_of ind) h = Ret (with_subs g (aset (g_subs g) vh s), COk tt).
Proof.
  intros p g cccdh vh ind h s C K. unfold set_handlers. fold (fresh cccdh). change (match aget (g_subs g) vh with Some s => s | None => fresh cccdh end) with s. rewrite C. unfold of_kind in K.
  destruct ind, h as [x|], (sb_n s) as [n|], (sb_i s) as [i|]; cbn; try reflexivity; exfalso; destruct K as [K1 K2]; (discriminate (K1 eq_refl) || discriminate (K2 eq_refl)).
Qed.
Lemma set_handlers_write : forall p g cccdh vh ind h, let s := entry g vh cccdh in sb_ccc s = bits (sb_n s) (sb_i s) ->
  ~ (h = None <-> of_kind s ind = None) ->
  set_handlers p g cccdh vh (flag_of ind) h =
   let s' := with_kind s ind h in
   let! (c', r) := write p (g_cli g) (sb_cccdh s) (le16 (sb_ccc s')) in
   let g' := with_cli (with_subs g (aset (aset (g_subs g) vh s) vh s')) c' in
   Ret (match r with COk _ => g' | _ => with_subs g' (adel (g_subs g') vh) end, r).
Proof.
  intros p g cccdh vh ind h s C K. unfold set_handlers. fold (fresh cccdh). change (match aget (g_subs g) vh with Some s => s | None => fresh cccdh end) with s. rewrite C. unfold of_kind in K. unfold with_kind.
  destruct ind, h as [x|], (sb_n s) as [n|] eqn:EN, (sb_i s) as [i|] eqn:EI; cbn -[aset adel write le16]; rewrite ?EN, ?EI; try reflexivity; exfalso; apply K; split; congruence.
Qed.

(** the invariant of all histories: the value of an entry has the bits of its handlers *)
Definition inv_a (g : gcl) : Prop := forall vh s, aget (g_subs g) vh = Some s -> sb_ccc s = bits (sb_n s) (sb_i s).
Lemma entry_bits : forall g vh cccdh, inv_a g -> sb_ccc (entry g vh cccdh) = bits (sb_n (entry g vh cccdh)) (sb_i (entry g vh cccdh)).
Proof. intros g vh cccdh I. unfold entry. destruct (aget (g_subs g) vh) as [s|] eqn:E; [now apply (I vh)|reflexivity]. Qed.
Definition kind_dec (h : option nat) (s : sub) (ind : bool) : {h = None <-> of_kind s ind = None} + {~ (h = None <-> of_kind s ind = None)}.
Proof. destruct h, (of_kind s ind); [left|right|right|left]; intuition discriminate. Qed.
Lemma inv_set : forall p g cccdh vh ind h g' r, inv_a g -> set_handlers p g cccdh vh (flag_of ind) h = Ret (g', r) -> inv_a g'.
Proof.
  intros p g cccdh vh ind h g' r I H. assert (B := entry_bits g vh cccdh I). destruct (kind_dec h (entry g vh cccdh) ind) as [K|K].
  - rewrite set_handlers_same in H by assumption. injection H as <- <-. intros k s E. cbn [with_subs g_subs] in E. rewrite aget_aset in E. destruct (k =? vh); [injection E as <-; exact B|now apply (I k)].
  - rewrite set_handlers_write in H by assumption. cbv zeta in H. destruct (write _ _ _ _) as [[c' r0]|]; [|discriminate]. cbn [gbind] in H.
    assert (G : inv_a (with_cli (with_subs g (aset (aset (g_subs g) vh (entry g vh cccdh)) vh (with_kind (entry g vh cccdh) ind h))) c')).
    { intros k s E. cbn [with_cli with_subs g_subs] in E. rewrite !aget_aset in E. destruct (k =? vh); [injection E as <-; reflexivity|now apply (I k)]. }
    destruct r0; injection H as <- _; try exact G; intros k s E; cbn [with_subs g_subs] in E; rewrite aget_adel in E; destruct (k =? vh); try discriminate; now apply (G k).
Qed.
Lemma inv_clear : forall p ord g g' r, inv_a g -> clear_subs p g ord = Ret (g', r) -> inv_a g'.
Proof.
  intros p ord. induction ord as [|vh ord IH]; intros g g' r I H; cbn [clear_subs] in H; [injection H as <- _; exact I|].
  destruct (aget (g_subs g) vh) as [s|]; [|now apply (IH g _ r)]. destruct (write _ _ _ _) as [[c' x]|]; [|discriminate]. cbn [gbind] in H.
  assert (W : inv_a (with_cli g c')) by (intros k t E; now apply (I k)).
  destruct x; try (injection H as <- _; exact W). apply (IH _ _ _) in H; [exact H|]. intros k t E. cbn [with_subs g_subs] in E. rewrite aget_adel in E. destruct (k =? vh); [discriminate|now apply (I k)].
Qed.
Lemma inv_ahist : forall g, ahist g -> inv_a g.
Proof.
  intros g H. induction H as [mtu|g p o g' x H IH R]; [intros vh s E; discriminate|]. destruct o as [ch ind h|ch ind|ord|b]; cbn [run_sop] in R.
  - unfold subscribe in R. destruct (gc_cccd ch) as [d|]; [|injection R as <- _; exact IH]. destruct (set_handlers _ _ _ _ _ _) as [[g1 r1]|] eqn:E; [|discriminate]. injection R as <- _. eapply inv_set; eassumption.
  - unfold subscribe in R. destruct (gc_cccd ch) as [d|]; [|injection R as <- _; exact IH]. destruct (set_handlers _ _ _ _ _ _) as [[g1 r1]|] eqn:E; [|discriminate]. injection R as <- _. eapply inv_set; eassumption.
  - destruct (clear_subs p g ord) as [[g1 r1]|] eqn:E; [|discriminate]. injection R as <- _. eapply inv_clear; eassumption.
  - destruct (handle_notification g b) as [[g1 r1]|] eqn:E; [|discriminate]. injection R as <- _. unfold handle_notification in E.
    destruct (r16 b 1) as [vh|]; [|discriminate]. cbn [gbind] in E. destruct (aget (g_subs g) vh) as [s|] eqn:A; [|injection E as <- _; exact IH].
    destruct (gidx b 0) as [op|]; [|discriminate]. cbn [gbind] in E. destruct (gfrom b 3) as [nd|]; [|discriminate]. cbn [gbind] in E. injection E as <- _.
    intros k t T. cbn [with_subs g_subs] in T. rewrite aget_aset in T. destruct (k =? vh); [injection T as <-; cbn; now apply (IH vh)|now apply (IH k)].
Qed.

(** the invariant of histories without failures *)
Definition inv_s (chs : list gchar) (g : gcl) : Prop :=
  inv_a g /\ 
  (forall vh s, aget (g_subs g) vh = Some s -> exists ch d, In ch chs /\ gc_vh ch = vh /\ gc_cccd ch = Some d /\ sb_cccdh s = gd_h d) /\
  (forall ch d, In ch chs -> gc_cccd ch = Some d -> peer_config (clog (g_cli g)) (gd_h d) = match aget (g_subs g) (gc_vh ch) with None => 0 | Some s => bits (sb_n s) (sb_i s) end).
Lemma ch_handle : forall chs ch d, distinct chs -> In ch chs -> gc_cccd ch = Some d -> 0 <= gd_h d < 65536.
Proof. intros chs ch d [F _] I E. rewrite Forall_forall in F. specialize (F ch I). unfold char_ok in F. now rewrite E in F. Qed.
Lemma inv_s_set : forall chs p g ch d ind h g' r, distinct chs -> inv_s chs g -> In ch chs -> gc_cccd ch = Some d ->
  set_handlers p g (gd_h d) (gc_vh ch) (flag_of ind) h = Ret (g', r) -> r = COk tt -> inv_s chs g'.
Proof.
  intros chs p g ch d ind h g' r DI (I & O & C) IN CD H OK. assert (IA := inv_set _ _ _ _ _ _ _ _ I H). split; [exact IA|].
  assert (B := entry_bits g (gc_vh ch) (gd_h d) I). set (s0 := entry g (gc_vh ch) (gd_h d)) in *.
  assert (EO : sb_cccdh s0 = gd_h d).
  { unfold s0, entry. destruct (aget (g_subs g) (gc_vh ch)) as [s|] eqn:E; [|reflexivity]. destruct (O _ _ E) as (ch' & d' & I' & V' & C' & ->). apply (proj2 DI ch' ch); assumption. }
  destruct (kind_dec h s0 ind) as [K|K].
  - rewrite set_handlers_same in H by assumption. injection H as <- _. split.
    + intros k s E. cbn [with_subs g_subs] in E. rewrite aget_aset in E. destruct (k =? gc_vh ch) eqn:Q; [|now apply O]. injection E as <-. exists ch, d. split; [exact IN|split; [lia|split; assumption]].
    + intros ch' d' I' C'. cbn [with_subs g_subs g_cli]. rewrite (C ch' d' I' C'), aget_aset. destruct (gc_vh ch' =? gc_vh ch) eqn:Q; [|reflexivity]. apply Z.eqb_eq in Q. rewrite Q. fold s0. unfold s0, entry.
      destruct (aget (g_subs g) (gc_vh ch)); reflexivity.
  - rewrite set_handlers_write in H by assumption. fold s0 in H. cbv zeta in H. destruct (write _ _ _ _) as [[c' r0]|] eqn:W; [|discriminate]. cbn [gbind] in H.
    assert (r0 = COk tt) by (injection H as _ H; congruence). subst r0. injection H as <- _. split.
    + intros k s E. cbn [with_subs with_cli g_subs] in E. rewrite !aget_aset in E. destruct (k =? gc_vh ch) eqn:Q; [|now apply O]. injection E as <-. exists ch, d. split; [exact IN|split; [lia|split; assumption]].
    + intros ch' d' I' C'. cbn [with_subs with_cli g_subs g_cli]. destruct (write_log _ _ _ _ _ _ W) as (_ & _ & WL). destruct (WL eq_refl) as (rej & ->).
      rewrite EO. rewrite config_write by (first [exact (ch_handle chs ch d DI IN CD)|exact (bits_range _ _)]). rewrite !aget_aset.
      assert (D := proj2 DI ch' ch d' d I' IN C' CD). destruct (gd_h d =? gd_h d') eqn:Q1, (gc_vh ch' =? gc_vh ch) eqn:Q2; [reflexivity|exfalso; clear - D Q1 Q2; lia|exfalso; clear - D Q1 Q2; lia|now apply C].
Qed.
Lemma inv_s_clear : forall chs p ord g g' r, distinct chs -> inv_s chs g -> clear_subs p g ord = Ret (g', r) -> r = COk tt -> inv_s chs g' /\ forall vh, In vh ord -> aget (g_subs g') vh = None.
Proof.
  intros chs p ord. assert (MONO : forall ord g g' r vh, clear_subs p g ord = Ret (g', r) -> aget (g_subs g) vh = None -> aget (g_subs g') vh = None).
  { clear. induction ord as [|k ord IH]; intros g g' r vh H E; cbn [clear_subs] in H; [injection H as <- _; exact E|]. destruct (aget (g_subs g) k) as [s|]; [|eapply IH; eassumption].
    destruct (write _ _ _ _) as [[c' x]|]; [|discriminate]. cbn [gbind] in H. destruct x; try (injection H as <- _; exact E). eapply IH; [exact H|]. cbn [with_subs g_subs]. rewrite aget_adel, E. now destruct (vh =? k). }
  induction ord as [|vh ord IH]; intros g g' r DI I H OK; cbn [clear_subs] in H; [injection H as <- _; split; [exact I|intros k []]|].
  destruct (aget (g_subs g) vh) as [s|] eqn:A.
  2:{ destruct (IH _ _ _ DI I H OK) as [I1 I2]. split; [exact I1|]. intros k [<-|K]; [|now apply I2]. eapply MONO; eassumption. }
  destruct (write _ _ _ _) as [[c' x]|] eqn:W; [|discriminate]. cbn [gbind] in H. destruct x as [[]|e| | |]; try (injection H as <- <-; discriminate).
  assert (PRE : inv_s chs (with_subs (with_cli g c') (adel (g_subs g) vh))); [|destruct (IH _ _ _ DI PRE H OK) as [I1 I2]].
  - destruct I as (I & O & C). split; [|split].
    + intros k t E. cbn [with_subs g_subs] in E. rewrite aget_adel in E. destruct (k =? vh); [discriminate|now apply (I k)].
    + intros k t E. cbn [with_subs g_subs] in E. rewrite aget_adel in E. destruct (k =? vh); [discriminate|now apply O].
    + intros ch' d' I' C'. cbn [with_subs with_cli g_subs g_cli]. destruct (write_log _ _ _ _ _ _ W) as (_ & _ & WL). destruct (WL eq_refl) as (rej & ->).
      destruct (O _ _ A) as (ch & d & IN & V & CD & EO). change [0; 0] with (le16 0). rewrite EO, config_write by (first [exact (ch_handle chs ch d DI IN CD)|lia]). rewrite aget_adel.
      assert (D := proj2 DI ch' ch d' d I' IN C' CD). destruct (gd_h d =? gd_h d') eqn:Q1, (gc_vh ch' =? vh) eqn:Q2; [reflexivity|exfalso; clear - D Q1 Q2 V; lia|exfalso; clear - D Q1 Q2 V; lia|now apply C].
  - split; [exact I1|]. intros k [<-|K]; [|now apply I2]. eapply MONO; [exact H|]. cbn [with_subs g_subs]. now rewrite aget_adel, Z.eqb_refl.
Qed.
Lemma inv_shist : forall chs g, distinct chs -> shist chs g -> inv_s chs g.
Proof.
  intros chs g DI H. induction H as [mtu M|g p o g' x H IH AB R].
  { split; [intros vh s E; discriminate|]. split; [intros vh s E; discriminate|reflexivity]. }
  destruct o as [ch ind h|ch ind|ord|b]; cbn [run_sop about] in *.
  - unfold subscribe in R. destruct (gc_cccd ch) as [d|] eqn:CD; [|discriminate R]. destruct (set_handlers _ _ _ _ _ _) as [[g1 r1]|] eqn:E; [|discriminate]. cbn [gbind] in R.
    destruct r1 as [[]|e| | |]; try discriminate R. injection R as <- _. exact (inv_s_set chs _ _ _ _ _ _ _ _ DI IH AB CD E eq_refl).
  - unfold subscribe in R. destruct (gc_cccd ch) as [d|] eqn:CD; [|discriminate R]. destruct (set_handlers _ _ _ _ _ _) as [[g1 r1]|] eqn:E; [|discriminate]. cbn [gbind] in R.
    destruct r1 as [[]|e| | |]; try discriminate R. injection R as <- _. exact (inv_s_set chs _ _ _ _ _ _ _ _ DI IH AB CD E eq_refl).
  - destruct (clear_subs p g ord) as [[g1 r1]|] eqn:E; [|discriminate]. cbn [gbind] in R. destruct r1 as [[]|e| | |]; try discriminate R. injection R as <- _. exact (proj1 (inv_s_clear chs _ _ _ _ _ DI IH E eq_refl)).
  - assert (IA : inv_a g') .
    { destruct (handle_notification g b) as [[g1 r1]|] eqn:E; [|discriminate]. injection R as <- _. unfold handle_notification in E.
      destruct (r16 b 1) as [vh|]; [|discriminate]. cbn [gbind] in E. destruct (aget (g_subs g) vh) as [s|] eqn:A; [|injection E as <- _; apply IH].
      destruct (gidx b 0) as [op|]; [|discriminate]. cbn [gbind] in E. destruct (gfrom b 3) as [nd|]; [|discriminate]. cbn [gbind] in E. injection E as <- _.
      intros k t T. cbn [with_subs g_subs] in T. rewrite aget_aset in T. destruct (k =? vh); [injection T as <-; cbn; now apply (proj1 IH vh)|now apply (proj1 IH k)]. }
    split; [exact IA|]. destruct IH as (I & O & C). destruct (handle_notification g b) as [[g1 r1]|] eqn:E; [|discriminate]. injection R as <- _. unfold handle_notification in E.
    destruct (r16 b 1) as [vh|]; [|discriminate]. cbn [gbind] in E. destruct (aget (g_subs g) vh) as [s|] eqn:A; [|injection E as <- _; split; assumption].
    destruct (gidx b 0) as [op|]; [|discriminate]. cbn [gbind] in E. destruct (gfrom b 3) as [nd|]; [|discriminate]. cbn [gbind] in E. injection E as <- _. split.
    + intros k t T. cbn [with_subs g_subs] in T. rewrite aget_aset in T. destruct (k =? vh) eqn:Q; [|now apply O]. injection T as <-. cbn. apply O. apply Z.eqb_eq in Q. now subst k.
    + intros ch d IN CD. cbn [with_subs g_subs g_cli]. rewrite (C ch d IN CD), aget_aset. destruct (gc_vh ch =? vh) eqn:Q; [|reflexivity]. apply Z.eqb_eq in Q. rewrite Q, A. reflexivity.
Qed.
