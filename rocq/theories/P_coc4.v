(** Credits and frame sizes. *)
Require Import Verif.Base Verif.M_attsrv Verif.M_gattcli Verif.M_coc Verif.S_coc Verif.P_gattcli Verif.P_gattcli3 Verif.P_coc Verif.P_coc2 Verif.P_coc3.

Definition inflight (cid : Z) (d : sender) : Z := if sd_cid d =? cid then match sd_have d with Some _ => 1 | None => 0 end else 0.
Definition waiting (cid : Z) (wt : waiter) : Z := if w_done wt then 0 else match w_rsp wt with None => 0 | Some b => sumZ (grant cid) (split_cmds 1 b) end.
Definition creds (cid : Z) (lut : list (Z * coi)) : Z := match aget lut cid with Some i => ci_credits i | None => 0 end.
Definition acct (cid : Z) (s : cst) : Z := frames_on cid (c_log s) + creds cid (c_lut s) + sumZ (inflight cid) (c_send s) + sumZ (waiting cid) (c_wait s).

(** [ps]: what came in *)
Definition rok (ps : list bytes) (b : bytes) : Prop := all_bytes b /\ forall c, In c (split_cmds 1 b) -> commanded ps c.
Definition invK (ps : list bytes) (s : cst) : Prop :=
  (forall k i, In (k, i) (c_lut s) -> 0 <= k < 65536 /\ 0 <= ci_credits i <= 65535 /\ announced ps k (ci_mps i)) /\
  (forall wt b, In wt (c_wait s) -> w_rsp wt = Some b -> rok ps b) /\
  (forall d, In d (c_send s) -> 0 <= sd_cid d < 65536 /\ announced ps (sd_cid d) (sd_mps d) /\ 2 < sd_mps d /\ (forall ch, sd_have d = Some ch -> Z.of_nat (length ch) <= sd_mps d - 2)) /\
  (forall p, In p (c_log s) -> on_channel 5 p = true \/ exists cid m, announced ps cid m /\ on_channel cid p = true /\ Z.of_nat (length p) <= 4 + m).


Lemma gslice_inv : forall {A} (b : list A) i j r, gslice b i j = Ret r -> (i <= j)%nat /\ (j <= length b)%nat /\ r = firstn (j - i) (skipn i b).
Proof. intros A b i j r H. unfold gslice in H. destruct (_ && _)%bool eqn:E; [|discriminate]. injection H as <-. apply andb_prop in E. destruct E as [E1 E2]. apply Nat.leb_le in E1, E2. auto. Qed.
Lemma gfrom_inv : forall {A} (b : list A) i r, gfrom b i = Ret r -> (i <= length b)%nat /\ r = skipn i b.
Proof. intros A b i r H. destruct (Nat.le_gt_cases i (length b)) as [L|L]; [rewrite gfrom_ok in H by assumption; injection H as <-; auto|]. unfold gfrom in H. destruct (Nat.leb i (length b)) eqn:E; [apply Nat.leb_le in E; lia|discriminate]. Qed.
Lemma cmd_first : forall b l r, sc_len b = Ret l -> gfrom b (4 + l) = Ret r ->
  exists c i l1 l2 t, b = c :: i :: l1 :: l2 :: t /\ l = Z.to_nat (de16 l1 l2) /\ (l <= length t)%nat /\ r = skipn l t /\ sc_code b = Ret c /\ sc_id b = Ret i /\ sc_data b = Ret (firstn l t).
Proof.
  intros b l r H G. apply gfrom_inv in G. destruct G as [G1 G2]. destruct b as [|c [|i [|l1 [|l2 t]]]]; try (cbn in G1; lia). exists c, i, l1, l2, t. assert (H0 := H). unfold sc_len in H. cbn in H. injection H as <-. cbn [length] in G1.
  split; [reflexivity|]. split; [reflexivity|]. split; [lia|]. split; [exact G2|]. split; [reflexivity|]. split; [reflexivity|]. unfold sc_data. rewrite H0. cbn [gbind]. rewrite gslice_ok by (cbn [length]; lia). f_equal. cbn [skipn]. f_equal. lia.
Qed.
Definition first_cmd (b : bytes) (c : scmd) : Prop := exists l1 l2 t, b = x_code c :: x_id c :: l1 :: l2 :: t /\ (Z.to_nat (de16 l1 l2) <= length t)%nat /\ x_data c = firstn (Z.to_nat (de16 l1 l2)) t.
Lemma first_split : forall b c n, first_cmd b c -> exists r, split_cmds (S n) b = c :: split_cmds n r.
Proof. intros b [cc ci cd] n (l1 & l2 & t & -> & L & D). cbn [x_code x_id x_data] in *. cbn [split_cmds]. rewrite (proj2 (Nat.leb_le _ _) L). rewrite <- D. eauto. Qed.
Lemma first_data : forall b c, first_cmd b c -> sc_code b = Ret (x_code c) /\ sc_id b = Ret (x_id c) /\ sc_data b = Ret (x_data c).
Proof.
  intros b [cc ci cd] (l1 & l2 & t & -> & L & D). cbn [x_code x_id x_data] in *. split; [reflexivity|]. split; [reflexivity|]. unfold sc_data, sc_len. cbn [gslice Nat.leb length andb Nat.sub firstn skipn gbind gle16].
  rewrite gslice_ok by (cbn [length]; lia). f_equal. cbn [skipn]. rewrite D. f_equal. lia.
Qed.
Lemma first_bytes : forall b c, all_bytes b -> first_cmd b c -> is_byte (x_code c) /\ is_byte (x_id c) /\ all_bytes (x_data c).
Proof.
  intros b [cc ci cd] B (l1 & l2 & t & -> & L & D). cbn [x_code x_id x_data] in *. apply Forall_cons_iff in B. destruct B as [B1 B]. apply Forall_cons_iff in B. destruct B as [B2 B]. apply Forall_cons_iff in B. destruct B as [_ B]. apply Forall_cons_iff in B. destruct B as [_ B].
  split; [exact B1|]. split; [exact B2|]. rewrite D. now apply Forall_firstn.
Qed.

(** ---- grants ---- *)
Lemma grant_fields : forall cid code id d, grant cid (mkSC code id d) =
  match sig_unmarshal code d with
  | Some (SCredit x n) => if code =? 22 then (if x =? cid then n else 0) else 0
  | Some (SCocRsp x _ _ n r) => if code =? 21 then (if (x =? cid) && (r =? 0) then n else 0) else 0
  | _ => 0 end.
Proof.
  intros cid code id d. unfold grant. cbn [x_code x_data]. destruct code as [|p|p]; try reflexivity.
  assert (K : (p = 21%positive \/ p = 22%positive) \/ ~ (Z.pos p = 21 \/ Z.pos p = 22)) by lia. destruct K as [[->| ->]|K].
  - cbn [Z.eqb Pos.eqb sig_unmarshal]. do 10 (destruct d as [|? d]; [reflexivity|]). reflexivity.
  - cbn [Z.eqb Pos.eqb sig_unmarshal]. do 4 (destruct d as [|? d]; [reflexivity|]). reflexivity.
  - rewrite (proj2 (Z.eqb_neq (Z.pos p) 21)) by lia. rewrite (proj2 (Z.eqb_neq (Z.pos p) 22)) by lia.
    transitivity 0; [|destruct (sig_unmarshal _ d) as [[]|]; reflexivity].
    do 5 (destruct p as [p|p|]; try reflexivity); lia.
Qed.

Lemma grant_nonneg : forall cid code id d, all_bytes d -> 0 <= grant cid (mkSC code id d).
Proof.
  intros cid code id d B. rewrite grant_fields. destruct (sig_unmarshal code d) as [[| | | | | | | |x1 x2 x3 x4 x5|x1 x2| |]|] eqn:U; try lia.
  - destruct (code =? 21) eqn:E; [|lia]. apply Z.eqb_eq in E. subst code. unfold sig_unmarshal in U. destruct (get_fields 5 d) as [l|] eqn:G; [|discriminate]. apply get_fields_range in G; [|exact B].
    destruct l as [|? [|? [|? [|? [|? [|? ?]]]]]]; try discriminate U; []. injection U as <- <- <- <- <-. do 4 (apply Forall_cons_iff in G; destruct G as [? G]). destruct (_ && _); lia.
  - destruct (code =? 22) eqn:E; [|lia]. apply Z.eqb_eq in E. subst code. unfold sig_unmarshal in U. destruct (get_fields 2 d) as [l|] eqn:G; [|discriminate]. apply get_fields_range in G; [|exact B].
    destruct l as [|? [|? [|? ?]]]; try discriminate U; []. injection U as <- <-. do 2 (apply Forall_cons_iff in G; destruct G as [? G]). destruct (_ =? _); lia.
Qed.
Lemma split_bytes : forall n b c, all_bytes b -> In c (split_cmds n b) -> all_bytes (x_data c) /\ is_byte (x_code c) /\ is_byte (x_id c).
Proof.
  induction n as [|n IH]; intros b c B I; [destruct I|]. destruct b as [|x [|y [|l1 [|l2 t]]]]; try destruct I. cbn [split_cmds] in I. destruct (Nat.leb _ _); [|destruct I].
  do 4 (let H := fresh in apply Forall_cons_iff in B; destruct B as [H B]). destruct I as [<-|I]; [cbn; split; [now apply Forall_firstn|auto]|]. eapply IH; [|exact I]. now apply Forall_skipn.
Qed.
Lemma grants_nonneg : forall cid n b, all_bytes b -> 0 <= sumZ (grant cid) (split_cmds n b).
Proof. intros cid n b B. apply sumZ_nonneg. intros [c i d] I. apply split_bytes in I; [|exact B]. destruct I as [I _]. now apply grant_nonneg. Qed.
Lemma waiting_nonneg : forall cid ps s, invK ps s -> forall wt, In wt (c_wait s) -> 0 <= waiting cid wt.
Proof.
  intros cid ps s (_ & K2 & _) wt I. unfold waiting. destruct (w_done wt); [lia|]. destruct (w_rsp wt) as [b|] eqn:E; [|lia]. destruct (K2 _ _ I E) as [B _]. now apply grants_nonneg.
Qed.
Lemma creds_nonneg : forall cid ps s, invK ps s -> 0 <= creds cid (c_lut s).
Proof. intros cid ps s (K1 & _). unfold creds. destruct (aget (c_lut s) cid) as [i|] eqn:E; [|lia]. apply aget_in in E. apply K1 in E. lia. Qed.

(** ---- steps that only write signaling PDUs ---- *)
Definition q5 (s s' : cst) : Prop := quiet s s' /\ exists l, c_log s' = c_log s ++ l /\ Forall (fun p => on_channel 5 p = true) l.
Lemma on_sig : forall cid code id d, on_channel cid (sig_pdu code id d) = (5 =? cid).
Proof. reflexivity. Qed.
Lemma q5_put : forall w s code id d s' b, put_pdu w s (sig_pdu code id d) = (s', b) -> q5 s s'.
Proof.
  intros w s code id d s' b H. split; [now apply quiet_put in H|]. unfold put_pdu in H. destruct (w (c_log s)); injection H as <- <-; [|exists []; split; [now rewrite app_nil_r|constructor]].
  exists [sig_pdu code id d]. split; [reflexivity|]. constructor; [reflexivity|constructor].
Qed.
Lemma q5_response : forall w s id m, q5 s (send_response w s id m).
Proof. intros w s id m. unfold send_response. destruct (put_pdu _ _ _) as [s' b] eqn:E. now apply q5_put in E. Qed.
Lemma q5_signal : forall w s m, q5 s (signal_only w s m).
Proof. intros w s m. unfold signal_only. destruct (put_pdu _ _ _) as [s' b] eqn:E. apply q5_put in E. exact E. Qed.
Lemma q5_acct : forall cid s s', cid <> 5 -> q5 s s' -> acct cid s' = acct cid s.
Proof.
  intros cid s s' N [(E1 & E2 & E3 & E4 & E5) (l & L & F)]. unfold acct. rewrite E2, E3, E4, L, frames_app.
  assert (Z0 : frames_on cid l = 0); [|lia]. unfold frames_on. clear L. induction F as [|p l P F IH]; [reflexivity|]. cbn [filter].
  assert (on_channel cid p = false) as ->; [|exact IH]. clear - P N. destruct p as [|a [|b [|c [|d p]]]]; try reflexivity. cbn [on_channel] in *. lia.
Qed.
Lemma commanded_app : forall ps qs c, commanded ps c -> commanded (ps ++ qs) c.
Proof. intros ps qs c (l1 & l2 & b & I & J). exists l1, l2, b. split; [apply in_or_app; now left|exact J]. Qed.
Lemma announced_app : forall ps qs cid m, announced ps cid m -> announced (ps ++ qs) cid m.
Proof. intros ps qs cid m (c & I & J). exists c. split; [now apply commanded_app|exact J]. Qed.
Lemma K_app : forall ps qs s, invK ps s -> invK (ps ++ qs) s.
Proof.
  intros ps qs s (K1 & K2 & K3 & K4). split; [|split; [|split]].
  - intros k i I. destruct (K1 k i I) as (A & B & C). split; [exact A|]. split; [exact B|]. now apply announced_app.
  - intros wt b I E. destruct (K2 wt b I E) as [A B]. split; [exact A|]. intros c J. apply commanded_app. now apply B.
  - intros d I. destruct (K3 d I) as (A & B & C & D). split; [exact A|]. split; [now apply announced_app|]. auto.
  - intros p I. destruct (K4 p I) as [A|(cid & m & A & B)]; [now left|right]. exists cid, m. split; [now apply announced_app|exact B].
Qed.
Lemma q5_K : forall ps s s', q5 s s' -> invK ps s -> invK ps s'.
Proof.
  intros ps s s' [(E1 & E2 & E3 & E4 & E5) (l & L & F)] (K1 & K2 & K3 & K4). unfold invK. rewrite E2, E3, E4, L. split; [exact K1|]. split; [exact K2|]. split; [exact K3|].
  intros p I. apply in_app_or in I. destruct I as [I|I]; [now apply K4|left]. rewrite Forall_forall in F. now apply F.
Qed.
(** ---- credits are added and taken ---- *)
Lemma K_lut : forall ps s k i, invK ps s -> 0 <= k < 65536 -> 0 <= ci_credits i <= 65535 -> announced ps k (ci_mps i) -> invK ps (set_lut (aset (c_lut s) k i) s).
Proof.
  intros ps s k i (K1 & K2 & K3 & K4) A B C. split; [|split; [exact K2|split; [exact K3|exact K4]]]. cbn [set_lut c_lut]. intros a x I. apply aset_in in I. destruct I as [I|I]; [injection I as -> ->; auto|now apply K1].
Qed.
Lemma modify_add : forall ps s x n s' b cid, invK ps s -> 0 <= n < 65536 -> modify_credits s x n true = (s', b) -> invK ps s' /\ acct cid s' <= acct cid s + (if x =? cid then n else 0).
Proof.
  intros ps s x n s' b cid K N H. unfold modify_credits in H. destruct (aget (c_lut s) x) as [v|] eqn:G; [|injection H as <- <-; split; [exact K|destruct (_ =? _); lia]].
  destruct (proj1 K x v (aget_in _ _ _ G)) as (R1 & R2 & R3). destruct (_ >? 65535) eqn:E; injection H as <- <-; [split; [exact K|destruct (_ =? _); lia]|]. assert (U : u16 (ci_credits v + n) = ci_credits v + n) by (unfold u16; lia). rewrite U.
  split; [apply K_lut; auto; cbn; lia|]. unfold acct. cbn [set_lut c_log c_lut c_send c_wait]. unfold creds. rewrite aget_aset. destruct (x =? cid) eqn:Q.
  - apply Z.eqb_eq in Q. subst x. rewrite Z.eqb_refl. rewrite G. cbn. lia.
  - rewrite (Z.eqb_sym cid x), Q. lia.
Qed.
Lemma modify_take : forall ps s x s' cid, invK ps s -> modify_credits s x 1 false = (s', true) -> invK ps s' /\ acct cid s' = acct cid s - (if x =? cid then 1 else 0) /\ c_send s' = c_send s.
Proof.
  intros ps s x s' cid K H. unfold modify_credits in H. destruct (aget (c_lut s) x) as [v|] eqn:G; [|discriminate].
  destruct (proj1 K x v (aget_in _ _ _ G)) as (R1 & R2 & R3). destruct (1 >? _) eqn:E; [discriminate|]. injection H as <-. assert (U : u16 (ci_credits v - 1) = ci_credits v - 1) by (unfold u16; lia). rewrite U.
  split; [apply K_lut; auto; cbn; lia|]. split; [|reflexivity]. unfold acct. cbn [set_lut c_log c_lut c_send c_wait]. unfold creds. rewrite aget_aset. destruct (x =? cid) eqn:Q.
  - apply Z.eqb_eq in Q. subst x. rewrite Z.eqb_refl. rewrite G. cbn. lia.
  - rewrite (Z.eqb_sym cid x), Q. lia.
Qed.
