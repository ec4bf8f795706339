(** Property C189 (and the ideal C190): packets of several goroutines writing at the same time. *)
Require Import Verif.Base Verif.S_l2cap Verif.M_l2cap Verif.M_aclw Verif.S_aclw Verif.P_aclw Verif.P_aclw2 Verif.P_aclw3 Verif.P_aclw4 Verif.P_aclw5 Verif.P_aclw6 Verif.P_aclw7 Verif.P_aclw8.
From Coq Require Import Lia Permutation.

(** The packets of a call are a contiguous part of what reaches the transport, whatever the other goroutines do on any connection: they are the
    first packets of the PDU cut into pieces of the buffer size, with the connection's handle, and all of them once the call has returned without an error. *)
Theorem C189_whole : forall cnt n l s t k, (1 <= n)%nat -> handles_ok l -> calm cnt n l -> runs cnt n l s -> call_of s t = Some k ->
  exists before fs more after h, k_log s = before ++ map (fun p => (t, 2 :: p)) fs ++ after /\ none_of t before /\ none_of t after /\
    handle_of s (conn_of k) = Some h /\ (pdu_of k = [] -> fs = []) /\ (pdu_of k <> [] -> cut n h (pdu_of k) (fs ++ more)) /\ (returned s t true -> more = []).
Proof.
  intros cnt n l s t k N HO CA R C. destruct (runs_inv cnt n l s N HO CA R) as ((bl & IV) & _ & BS). destruct (whole s bl t k ltac:(lia) IV C) as (b & fs & more & a & H). rewrite BS in H. exists b, fs, more, a, (hnd s k). exact H.
Qed.
Print Assumptions C189_whole.

(** A call that starts after another has returned has all its packets after that one's. *)
Theorem C189_order : forall cnt n l1 l2 s1 s t1 t2 ok, runs cnt n l1 s1 -> runs cnt n (l1 ++ l2) s -> returned s1 t1 ok -> call_of s1 t2 = None ->
  exists a b, k_log s = a ++ b /\ none_of t2 a /\ none_of t1 b.
Proof. exact order. Qed.
Print Assumptions C189_order.

(** When all calls on a connection have returned without an error, what its peer recombines is exactly the PDUs of those calls that have one, each once. *)
Theorem C189_peer : forall cnt n rxmps l s c h, (4 <= n)%nat -> handles_ok l -> calm cnt n l -> runs cnt n l s -> handle_of s c = Some h ->
  (forall t k, call_of s t = Some k -> conn_of k = c -> returned s t true) ->
  (forall t k, call_of s t = Some k -> conn_of k = c -> pdu_of k <> [] -> good_pdu rxmps (pdu_of k)) ->
  exists ts, NoDup ts /\ (forall t, In t ts <-> exists k, call_of s t = Some k /\ conn_of k = c /\ pdu_of k <> []) /\
    recombine_run rxmps (map (@tl Z) (on_conn s c (k_log s))) = Ret (map (fun t => match call_of s t with Some k => pdu_of k | None => [] end) ts, true).
Proof.
  intros cnt n rxmps l s c h N HO CA R H RT GD. destruct (runs_inv cnt n l s ltac:(lia) HO CA R) as ((bl & IV) & _ & BS). apply (peer s bl c h rxmps); try assumption. lia.
Qed.
Print Assumptions C189_peer.

(** After a connection has been declared closed, at most one more packet is written for it. *)
Theorem C189_closed : forall cnt n l1 l2 s1 s c, (1 <= n)%nat -> handles_ok (l1 ++ l2) -> calm cnt n (l1 ++ l2) -> runs cnt n l1 s1 -> closed s1 c -> runs cnt n (l1 ++ l2) s ->
  exists b, k_log s = k_log s1 ++ b /\ (length (on_conn s c b) <= 1)%nat.
Proof. intros cnt n l1 l2 s1 s c N HO CA R1 CL R. destruct (closed_run cnt n l1 l2 s1 s c N HO CA R1 CL R) as (_ & b & L & B & _). now exists b. Qed.
Print Assumptions C189_closed.

Theorem C189_no_crash : forall cnt n l s, (1 <= n)%nat -> handles_ok l -> calm cnt n l -> runs cnt n l s -> ~ crashed s.
Proof. intros cnt n l s N HO CA R. destruct (runs_inv cnt n l s N HO CA R) as ((bl & IV) & _). exact (calm_no_crash s bl IV). Qed.
Print Assumptions C189_no_crash.

(** A call that has not returned can go on, or the one holding the lock can, or that one waits for the controller to report completed packets. *)
Theorem C189_progress : forall cnt n l s t k, (1 <= n)%nat -> handles_ok l -> calm cnt n l -> runs cnt n l s -> call_of s t = Some k -> ~ returned s t true -> ~ returned s t false ->
  can s t \/ exists u, k_lock s = Some u /\ (can s u \/ k_free s = []).
Proof.
  intros cnt n l s t k N HO CA R C N1 N2. destruct (runs_inv cnt n l s N HO CA R) as ((bl & IV) & LK & _). destruct (call_thr s t k C) as (p & P). apply (progress s bl t k p IV LK P).
  intros [|] ->; [apply N1|apply N2]; now exists k.
Qed.
Print Assumptions C189_progress.
(** A call takes a number of steps bounded by the length of its PDU. *)
Theorem C189_few_steps : forall cnt n l s t k, (1 <= n)%nat -> handles_ok l -> calm cnt n l -> runs cnt n l s -> call_of s t = Some k -> (own t l <= 4 * length (pdu_of k) + 5)%nat.
Proof. intros cnt n l s t k N HO CA R C. assert (H := few cnt n l s t k N HO CA R C). lia. Qed.
Print Assumptions C189_few_steps.

(** At all times every buffer is either free or recorded, once, as sent on one connection: a packet takes a buffer no other packet occupies. *)
Theorem C189_buffers : forall cnt n l s, runs cnt n l s -> Permutation (k_free s ++ flat_map c_sent (k_conns s)) (seq 0 cnt).
Proof. exact runs_pool. Qed.
Print Assumptions C189_buffers.

(** Two connections, two buffers of 4 bytes: two goroutines write on connection 0, one on connection 1; two packets are reported completed in between. *)
Definition ex_run : list act :=
  [AConnect 64 23; AConnect 65 23; ACall (KWrite 0 [1; 2; 3]); ACall (KWrite 0 [9]); AStep 0; AStep 1; AMtu 0 50; AStep 1; AStep 0; AStep 0; AStep 0;
   ACall (KPdu 1 [5; 6; 7; 8]); AStep 0; AStep 0; AStep 0; AWrite 0 true; AStep 0; AStep 0; AStep 0; AWrite 0 true; AStep 0;
   AStep 1; AStep 1; ACompleted 0 2; AStep 1; AStep 1; AStep 1; AWrite 1 true; AStep 1; AStep 1; AStep 1; AWrite 1 true; AStep 1;
   AStep 2; AStep 2; ACompleted 0 2; AStep 2; AStep 2; AStep 2; AWrite 2 true; AStep 2].
Example C189_ex : exists s, runs 2 4 ex_run s /\ handle_of s 0 = Some 64 /\ (forall t, (t < 3)%nat -> returned s t true) /\
  k_log s = [(0%nat, 2 :: acl 64 0 [3; 0; 4; 0]); (0%nat, 2 :: acl 64 1 [1; 2; 3]); (1%nat, 2 :: acl 64 0 [1; 0; 4; 0]); (1%nat, 2 :: acl 64 1 [9]); (2%nat, 2 :: acl 65 0 [5; 6; 7; 8])] /\
  recombine_run 23 (map (@tl Z) (on_conn s 0 (k_log s))) = Ret ([b_frame 4 [1; 2; 3]; b_frame 4 [9]], true).
Proof.
  eexists. split; [unfold runs; vm_compute; reflexivity|]. split; [reflexivity|]. split; [|split; reflexivity]. intros t L. unfold returned. destruct t as [|[|[|t]]]; [eexists; reflexivity|eexists; reflexivity|eexists; reflexivity|lia].
Qed.
Example C189_ex_handles : handles_ok ex_run.
Proof. intros h v I. cbn in I. repeat (destruct I as [I|I]; [try discriminate; injection I as <- <-; lia|]). destruct I. Qed.
Example C189_ex_calm : calm 2 4 ex_run.
Proof.
  intros l1 c v l2 s t sdu E R N. unfold ex_run in E. do 6 (destruct l1 as [|? l1]; [discriminate E|injection E as <- E]). destruct l1 as [|a l1].
  - injection E as <- <- _. unfold runs in R. cbn in R. apply some_inj in R. subst s. destruct t as [|[|t]]; cbn in N; [injection N as <-; cbn; lia|injection N as <-; cbn; lia|destruct t; discriminate].
  - exfalso. injection E as <- E. repeat (destruct l1 as [|? l1]; [discriminate E|cbn [app] in E; injection E as <- E]). destruct l1; discriminate E.
Qed.
(** A closed connection: the packet already past the check goes out, the rest of the PDU does not. *)
Definition ex_close : list act := [AConnect 64 23; ACall (KPdu 0 [1; 2; 3]); AStep 0; AStep 0; AStep 0; AStep 0; AStep 0; ACall (KClose 0); AStep 1].
Example C189_ex2 : exists s1 s, runs 2 2 ex_close s1 /\ closed s1 0 /\ runs 2 2 (ex_close ++ [AWrite 0 true; AStep 0; AStep 0; AStep 0; AStep 1; AStep 1]) s /\
  k_log s = [(0%nat, 2 :: acl 64 0 [1; 2])] /\ returned s 0 false /\ returned s 1 true /\ k_free s = [0%nat; 1%nat].
Proof.
  eexists. eexists. split; [unfold runs; vm_compute; reflexivity|]. split; [eexists; split; reflexivity|]. split; [unfold runs; vm_compute; reflexivity|]. split; [reflexivity|]. split; [eexists; reflexivity|]. split; [eexists; reflexivity|reflexivity].
Qed.

(** Without the condition on the MTU: a Write of 6 bytes returns without an error, the MTU having been 23 when it was called and 2 soon after;
    its value goes out as three PDUs the peer cannot take for one. *)
Definition lower : list act :=
  [AConnect 64 23; ACall (KWrite 0 [1; 2; 3; 4; 5; 6]); AStep 0; AMtu 0 2; AStep 0; AStep 0;
   AStep 0; AStep 0; AStep 0; AStep 0; AStep 0; AWrite 0 true; AStep 0;
   AStep 0; AStep 0; AStep 0; AStep 0; AStep 0; AStep 0; AStep 0; AWrite 0 true; AStep 0;
   AStep 0; AStep 0; AStep 0; AStep 0; AStep 0; AStep 0; AWrite 0 true; AStep 0].
Theorem C190_whole_refuted : exists l s, handles_ok l /\ runs 4 27 l s /\ call_of s 0 = Some (KWrite 0 [1; 2; 3; 4; 5; 6]) /\ returned s 0 true /\
  k_log s = [(0%nat, 2 :: acl 64 0 [6; 0; 4; 0; 1; 2]); (0%nat, 2 :: acl 64 0 [3; 4]); (0%nat, 2 :: acl 64 0 [5; 6])] /\
  (exists r, recombine_run 23 (map (@tl Z) (on_conn s 0 (k_log s))) = r /\ r <> Ret ([b_frame 4 [1; 2; 3; 4; 5; 6]], true)).
Proof.
  exists lower. eexists. split; [intros h v I; cbn in I; repeat (destruct I as [I|I]; [try discriminate; injection I as <- <-; lia|]); destruct I|].
  split; [unfold runs; vm_compute; reflexivity|]. split; [reflexivity|]. split; [eexists; reflexivity|]. split; [reflexivity|]. eexists. split; [vm_compute; reflexivity|]. vm_compute. discriminate.
Qed.
Print Assumptions C190_whole_refuted.
(** And when the MTU goes down after the check and up again, Write crashes. *)
Theorem C190_no_crash_refuted : exists l s, handles_ok l /\ runs 4 27 l s /\ crashed s /\
  k_log s = [(0%nat, [2; 64; 0; 27; 0] ++ [6; 0; 4; 0; 1; 2; 3; 4; 5; 6] ++ repeat 0 17)].
Proof.
  exists [AConnect 64 23; ACall (KWrite 0 [1; 2; 3; 4; 5; 6]); AStep 0; AMtu 0 2; AStep 0; AMtu 0 23; AStep 0;
   AStep 0; AStep 0; AStep 0; AStep 0; AStep 0; AWrite 0 true; AStep 0].
  eexists. split; [intros h v I; cbn in I; repeat (destruct I as [I|I]; [try discriminate; injection I as <- <-; lia|]); destruct I|].
  split; [unfold runs; vm_compute; reflexivity|]. split; [exists 0%nat, (KWrite 0 [1; 2; 3; 4; 5; 6]); reflexivity|vm_compute; reflexivity].
Qed.
Print Assumptions C190_no_crash_refuted.
