(** Core Specification ranges for LE Create Connection / LE Set Scan Parameters (Vol 4 Part E 7.8.10, 7.8.12). *)
Require Import Verif.Base Verif.M_params.
Definition within (lo hi x : Z) : Prop := lo <= x <= hi.
Definition scan_legal (p : scan_params) : Prop :=
  within 0 1 (s_type p) /\ within 0x4 0x4000 (s_interval p) /\ within 0x4 0x4000 (s_window p) /\
  s_window p <= s_interval p /\ within 0 1 (s_own p) /\ within 0 1 (s_policy p).
Definition ranges_legal (p : conn_params) : Prop :=
  within 0x4 0x4000 (c_scan_interval p) /\ within 0x4 0x4000 (c_scan_window p) /\ c_scan_window p <= c_scan_interval p /\
  within 0 1 (c_policy p) /\ within 0 1 (c_peer_type p) /\ within 0 1 (c_own_type p) /\
  within 0x6 0xC80 (c_int_min p) /\ within 0x6 0xC80 (c_int_max p) /\ c_int_min p <= c_int_max p /\
  within 0 0x1F3 (c_latency p) /\ within 0xA 0xC80 (c_timeout p) /\
  within 0 0xFFFF (c_ce_min p) /\ within 0 0xFFFF (c_ce_max p) /\ c_ce_min p <= c_ce_max p.
(** in quarters of a millisecond: timeout 10 ms units, interval 1.25 ms units *)
Definition timeout_quarter_ms (p : conn_params) : Z := 40 * c_timeout p.
Definition required_quarter_ms (p : conn_params) : Z := (1 + c_latency p) * (5 * c_int_max p) * 2.
Definition conn_legal (p : conn_params) : Prop := ranges_legal p /\ timeout_quarter_ms p > required_quarter_ms p.
