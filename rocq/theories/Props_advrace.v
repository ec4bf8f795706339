(** Property C186 (ideals C187, C188): advertising reports handled while Scan is called. *)
Require Import Verif.Base Verif.M_advrep Verif.M_advrace Verif.S_advrace Verif.P_advrace Verif.P_advrace2 Verif.P_advrace3 Verif.P_advrace4 Verif.P_advrace5 Verif.P_advrace6.
From Coq Require Import Lia.

(** C186: the loop crashes on the history only while it handles a scan response during which a Scan replaced the history. *)
Theorem C186_no_crash : forall l s, runs l s -> crashed s -> exists e, of_type e 4 /\ replaced l e.
Proof. exact crash_needs_scan. Qed.
Print Assumptions C186_no_crash.
(** What is handed over, whatever Scans happen meanwhile, is right for the report. *)
Theorem C186_handed_over : forall l s a s', runs l s -> exec s a = Some s' -> handed s' <> handed s ->
  exists e l2 id, during l e l2 /\ handed s' = handed s ++ [id] /\ (id < length (r_heap s'))%nat /\ right_for l e (entry s' id).
Proof. exact handed_over. Qed.
Print Assumptions C186_handed_over.
(** An advertisement changes only by a scan response from its own address. *)
Theorem C186_changes : forall l s a s' id, runs l s -> exec s a = Some s' -> (id < length (r_heap s))%nat ->
  (length (r_heap s) <= length (r_heap s'))%nat /\
  (entry s' id = entry s id \/ exists e l2 sr, during l e l2 /\ of_type e 4 /\ advertised e sr /\ merged (entry s id) sr (entry s' id) /\ same_address (entry s id) sr).
Proof. exact changes. Qed.
Print Assumptions C186_changes.
(** At most one advertisement is handed over per report. *)
Theorem C186_once : forall l s, runs l s -> (length (handed s) <= length (filter (fun a => match a with RReport _ => true | _ => false end) l))%nat.
Proof. intros l s R. pose proof (once_runs l s R). unfold reports_in in *. lia. Qed.
Print Assumptions C186_once.
(** A report costs at most 1300 steps of the loop, whatever the Scans do, and the loop is never stuck. *)
Theorem C186_few_steps : forall l s e l2, runs l s -> during l e l2 -> (loop_steps l2 <= 1300)%nat /\
  (r_loop s = LIdle \/ r_loop s = LNil \/ r_loop s = LDied \/ exists s', exec s RLoop = Some s').
Proof. intros l s e l2 R D. split; [now apply (few_steps l s e l2)|now apply (loop_progress l)]. Qed.
Print Assumptions C186_few_steps.
(** A report during which Scan does nothing is handled as in [M_advrep] (C04, C08), whatever happened before. *)
Theorem C186_undisturbed : forall l s e s', runs l s -> r_loop s = LIdle -> alone s e s' ->
  (r_loop s' = LIdle /\ exists o, handle_adv_report (as_hist s) e = Ret (as_hist s', o) /\
     match o with None => handed s' = handed s | Some a => exists id, handed s' = handed s ++ [id] /\ entry s' id = a end) \/
  (r_loop s' = LDied /\ handle_adv_report (as_hist s) e = Panic).
Proof.
  intros l s e s' R L ((n & E) & T). cbn [exec_all] in E. destruct (exec s (RReport e)) as [s1|] eqn:E1; [|discriminate].
  apply (sequential l s e s1 s' R E1). split; [now exists n|]. unfold loop_step. destruct T as [->|[->| ->]]; reflexivity.
Qed.
Print Assumptions C186_undisturbed.
(** A Scan between two reports empties the history. *)
Theorem C186_scan_between : forall l s t s', runs l s -> nth_error (r_scan s) t = Some 0%nat -> exec_all s [RScanStep t; RScanStep t] = Some s' -> as_hist s' = scan_start 128.
Proof.
  intros l s t s' R Z E. cbn [exec_all] in E. destruct (exec s (RScanStep t)) as [s1|] eqn:E1; [|discriminate]. destruct (exec s1 (RScanStep t)) as [s2|] eqn:E2; [|discriminate].
  apply some_inj in E. subst s2. exact (scan_alone l s t s1 s' R Z E1 E2).
Qed.
Print Assumptions C186_scan_between.

Definition ad1 : bytes := [2; 1; 0; 0; 1; 2; 3; 4; 5; 6; 3; 2; 1; 6; 200].
Definition sr1 : bytes := [2; 1; 4; 0; 1; 2; 3; 4; 5; 6; 3; 2; 10; 0; 201].
Definition one (e : bytes) (n : nat) : list act := RReport e :: repeat RLoop n.
Definition after (l : list act) : rst := match exec_all r1 l with Some s => s | None => r0 end.
Lemma runs_after : forall l, (match exec_all r1 l with Some _ => true | None => false end) = true -> runs l (after l).
Proof. intros l H. apply runs_r1. unfold after. destruct (exec_all r1 l); [reflexivity|discriminate]. Qed.
(** The advertisement, then its scan response: both are handed over, the same object. *)
Example C186_example : let s := after (one ad1 6 ++ one sr1 7) in runs (one ad1 6 ++ one sr1 7) s /\ handed s = [0%nat; 0%nat] /\ ad_sr (entry s 0) = Some (sr1, 0%nat) /\ r_loop s = LIdle.
Proof. split; [apply runs_after; now vm_compute|]. repeat split; now vm_compute. Qed.
(** With a Scan in between the scan response finds nothing and nothing crashes; with two Scans at work likewise. *)
Example C186_example_scan : let l := one ad1 6 ++ [RScan; RScanStep 1; RScanStep 1] ++ one sr1 5 in let s := after l in runs l s /\ handed s = [0%nat] /\ r_loop s = LIdle.
Proof. split; [apply runs_after; now vm_compute|]. repeat split; now vm_compute. Qed.
(** The last thing of a Scan (resetting the position) during a report: the report is stored and handed over. *)
Example C186_example_during : let l := [RScan; RScanStep 1] ++ one ad1 3 ++ [RScanStep 1] ++ repeat RLoop 3 in let s := after l in runs l s /\ handed s = [0%nat] /\ r_loop s = LIdle /\ r_last s = 1.
Proof. split; [apply runs_after; now vm_compute|]. repeat split; now vm_compute. Qed.

(** C187: a call of Scan while a scan response is handled crashes the process. *)
Theorem C187_scan_crash_refuted : exists l s, runs l s /\ crashed s.
Proof.
  exists (one ad1 6 ++ one sr1 3 ++ [RScan; RScanStep 1; RLoop]), (after (one ad1 6 ++ one sr1 3 ++ [RScan; RScanStep 1; RLoop])).
  split; [apply runs_after; now vm_compute|]. unfold crashed. now vm_compute.
Qed.
Print Assumptions C187_scan_crash_refuted.
(** C188: an advertisement that has been handed over is changed by the next scan response, without any Scan. *)
Theorem C188_changes_later_refuted : exists l l' s s' id, runs l s /\ runs (l ++ l') s' /\ In id (handed s) /\ entry s' id <> entry s id.
Proof.
  exists (one ad1 6), (one sr1 7), (after (one ad1 6)), (after (one ad1 6 ++ one sr1 7)), 0%nat.
  split; [apply runs_after; now vm_compute|]. split; [apply runs_after; now vm_compute|]. split; [left; now vm_compute|].
  intros H. apply (f_equal ad_sr) in H. vm_compute in H. discriminate.
Qed.
Print Assumptions C188_changes_later_refuted.
