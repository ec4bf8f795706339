(** Observations for C186. *)
Require Import Verif.Base Verif.M_advrep Verif.M_advrace.

(** The history exists: one call of Scan has been made. *)
Definition ready (s : rst) : Prop := exec_all r0 [RScan; RScanStep 0; RScanStep 0] = Some s.
Definition runs (l : list act) (s : rst) : Prop := exists s0, ready s0 /\ exec_all s0 l = Some s.
Definition no_report (l : list act) : Prop := forall e, ~ In (RReport e) l.
(** The report taken last is [e], and [l2] has happened since *)
Definition during (l : list act) (e : bytes) (l2 : list act) : Prop := exists l1, l = l1 ++ RReport e :: l2 /\ no_report l2.
(** In [l], after the report [e] was taken, a call of Scan replaced the history. *)
Definition replaced (l : list act) (e : bytes) : Prop := exists l2 m t m' s, during l e l2 /\ l2 = m ++ RScanStep t :: m' /\
  (exists l1, l = l1 ++ RScanStep t :: m' /\ runs l1 s) /\ nth_error (r_scan s) t = Some 0%nat.
(** The type of a report; the advertisement in it; its address as text *)
Definition of_type (e : bytes) (t : Z) : Prop := event_type e 0 = Ret (Some t).
Definition advertised (e : bytes) (a : advert) : Prop := new_advertisement e 0 = Ret (Some a).
Definition same_address (a b : advert) : Prop := exists x rx ry, ad_addr a = Ret (Some (x, rx)) /\ ad_addr b = Ret (Some (x, ry)).
(** [a'] is [a] with the scan response [sr] *)
Definition merged (a sr a' : advert) : Prop := set_scan_response a sr = Ret (Some a').
Definition loop_steps (l : list act) : nat := length (filter (fun a => match a with RLoop => true | _ => false end) l).
Definition handed (s : rst) : list nat := r_out s.
Definition crashed (s : rst) : Prop := r_loop s = LNil.
(** What the history is worth to [M_advrep], where nothing happens at the same time *)
Definition as_hist (s : rst) : hist_st := mkHist (map (option_map (entry s)) (arr s (r_cur s))) (Z.to_nat (r_last s)).
(** [a] was made of an earlier report of a scannable advertisement *)
Definition scannable (l : list act) (a : advert) : Prop := In (RReport (ad_e a)) l /\ ad_i a = 0%nat /\ (of_type (ad_e a) 0 \/ of_type (ad_e a) 2).
(** What is to be handed over for the report [e]: the advertisement in it, or, for a scan response, an earlier advertisement from
    the same address with that scan response *)
Definition right_for (l : list act) (e : bytes) (a : advert) : Prop :=
  (advertised e a /\ ad_e a = e /\ ad_sr a = None /\ exists t, of_type e t /\ (t = 0 \/ t = 1 \/ t = 2 \/ t = 3)) \/
  (of_type e 4 /\ exists sr b, advertised e sr /\ merged b sr a /\ same_address b sr /\ scannable l b).
(** From [s], where the event loop waits, to [s'], where it is done with the report [e], nothing else happening *)
Definition alone (s : rst) (e : bytes) (s' : rst) : Prop :=
  (exists n, exec_all s (RReport e :: repeat RLoop n) = Some s') /\ (r_loop s' = LIdle \/ r_loop s' = LDied \/ r_loop s' = LNil).
