(** Property C41: scan and connection parameter validation. *)
Require Import Verif.Base Verif.M_params Verif.S_params.

Theorem C41_scan_params : forall p, validate_scan p = true <-> scan_legal p.
Proof.
  intro p. unfold validate_scan, scan_legal, within.
  repeat match goal with |- context [if ?c then _ else _] => destruct c eqn:? end; split; intro H; try discriminate; try reflexivity; lia.
Qed.
Print Assumptions C41_scan_params.

(** Every range and order condition is enforced, and the timeout is never below the specified minimum. *)
Theorem C41_conn_params_sound : forall p, validate_conn p = true ->
  ranges_legal p /\ timeout_quarter_ms p >= required_quarter_ms p.
Proof.
  intros p. unfold validate_conn, ranges_legal, within, timeout_quarter_ms, required_quarter_ms, sto16, min_sto16.
  repeat match goal with |- context [if ?c then _ else _] => destruct c eqn:? end; intro H; try discriminate. split; [lia|]. nia.
Qed.
Print Assumptions C41_conn_params_sound.

(** With zero latency every legal set is accepted, and only the boundary is accepted in excess. *)
Theorem C41_conn_params_no_latency : forall p, c_latency p = 0 ->
  (validate_conn p = true <-> ranges_legal p /\ timeout_quarter_ms p >= required_quarter_ms p).
Proof.
  intros p L. split; [apply C41_conn_params_sound|].
  unfold validate_conn, ranges_legal, within, timeout_quarter_ms, required_quarter_ms, sto16, min_sto16. rewrite L. intros [H1 H2].
  repeat match goal with |- context [if ?c then _ else _] => destruct c eqn:? end; lia.
Qed.
Print Assumptions C41_conn_params_no_latency.

(** What the code accepts, exactly: the latency enters as (1 + 1.25*latency). *)
Theorem C41_conn_params_exact : forall p,
  validate_conn p = true <-> ranges_legal p /\ 16 * (10 * c_timeout p) >= (4 + 5 * c_latency p) * (5 * c_int_max p) * 2.
Proof.
  intro p. unfold validate_conn, ranges_legal, within, sto16, min_sto16.
  repeat match goal with |- context [if ?c then _ else _] => destruct c eqn:? end; split; intro H; try discriminate; try reflexivity; lia.
Qed.
Print Assumptions C41_conn_params_exact.

(** A timeout equal to the bound is accepted although it must be larger. *)
Theorem C99_strict_bound_refuted : exists p, validate_conn p = true /\ ~ conn_legal p.
Proof.
  exists (mkConn 64 64 0 0 0 8 40 0 10 0 0). split; [reflexivity|]. intros [_ H]. unfold timeout_quarter_ms, required_quarter_ms in H. cbn in H. lia.
Qed.
Print Assumptions C99_strict_bound_refuted.
(** Legal parameters with latency are rejected. *)
Theorem C99_complete_refuted : exists p, conn_legal p /\ validate_conn p = false.
Proof.
  exists (mkConn 64 64 0 0 0 40 40 4 52 0 0). split; [|reflexivity].
  unfold conn_legal, ranges_legal, within, timeout_quarter_ms, required_quarter_ms. cbn. lia.
Qed.
Print Assumptions C99_complete_refuted.
Theorem C41_defaults_accepted : validate default_conn default_scan = true /\ conn_legal default_conn /\ scan_legal default_scan.
Proof. split; [reflexivity|]. unfold conn_legal, ranges_legal, scan_legal, within, timeout_quarter_ms, required_quarter_ms. cbn. lia. Qed.
Print Assumptions C41_defaults_accepted.
(** The defaults in real units (microseconds): active scanning, interval and window 2.5 ms, no filter, public address; connecting with scan interval
    and window 40 ms, connection interval 7.5 ms, no latency, supervision time-out 10.24 s, no white list, public addresses. *)
Theorem C41_default_values :
  s_type default_scan = 1 /\ s_interval default_scan * 625 = 2500 /\ s_window default_scan * 625 = 2500 /\ s_own default_scan = 0 /\ s_policy default_scan = 0 /\
  c_scan_interval default_conn * 625 = 40000 /\ c_scan_window default_conn * 625 = 40000 /\ c_policy default_conn = 0 /\ c_peer_type default_conn = 0 /\ c_own_type default_conn = 0 /\
  c_int_min default_conn * 1250 = 7500 /\ c_int_max default_conn * 1250 = 7500 /\ c_latency default_conn = 0 /\ c_timeout default_conn * 10000 = 10240000 /\
  c_ce_min default_conn = 0 /\ c_ce_max default_conn = 0.
Proof. repeat split. Qed.
Print Assumptions C41_default_values.

(** Init goes on only when both sets are acceptable. *)
Theorem C41_init_checks_both : forall c s, validate c s = true <-> validate_conn c = true /\ scan_legal s.
Proof. intros c s. unfold validate. rewrite <- C41_scan_params. destruct (validate_conn c); intuition discriminate. Qed.
Print Assumptions C41_init_checks_both.
