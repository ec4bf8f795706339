(** Model of linux/hci/params.go: validation of scan and connection parameters. *)
Require Import Verif.Base.

(** cmd.LESetScanParameters (linux/hci/cmd/cmd_gen.go) *)
Record scan_params := mkScan { s_type : Z; s_interval : Z; s_window : Z; s_own : Z; s_policy : Z }.
(** cmd.LECreateConnection (linux/hci/cmd/cmd_gen.go); the peer address is not validated and is omitted *)
Record conn_params := mkConn { c_scan_interval : Z; c_scan_window : Z; c_policy : Z; c_peer_type : Z; c_own_type : Z;
  c_int_min : Z; c_int_max : Z; c_latency : Z; c_timeout : Z; c_ce_min : Z; c_ce_max : Z }.

(** params.go:98-121 ValidateScanParams: true = no error. Constants params.go:10-33. *)
Definition validate_scan (p : scan_params) : bool :=
  if negb (s_type p =? 1) && negb (s_type p =? 0) then false
  else if (s_interval p <? 4) || (s_interval p >? 16384) then false
  else if (s_window p <? 4) || (s_window p >? 16384) then false
  else if s_window p >? s_interval p then false
  else if negb (s_own p =? 0) && negb (s_own p =? 1) then false
  else if negb (s_policy p =? 0) && negb (s_policy p =? 1) then false
  else true.

(** params.go:129-130: the float64 values, scaled by 16: every intermediate value is a multiple of 1/16 below 2^53/16
    (lemma float_exact), hence exactly representable, so float64 arithmetic equals this integer arithmetic. *)
Definition min_sto16 (p : conn_params) : Z := (4 + c_latency p * 5) * (c_int_max p * 5) * 2.
Definition sto16 (p : conn_params) : Z := c_timeout p * 10 * 16.

(** params.go:123-185 ValidateConnParams: true = no error. *)
Definition validate_conn (p : conn_params) : bool :=
  if (c_scan_interval p <? 4) || (c_scan_interval p >? 16384) then false
  else if (c_scan_window p <? 4) || (c_scan_window p >? 16384) then false
  else if c_scan_window p >? c_scan_interval p then false
  else if negb (c_policy p =? 0) && negb (c_policy p =? 1) then false
  else if negb (c_own_type p =? 0) && negb (c_own_type p =? 1) then false
  else if negb (c_peer_type p =? 0) && negb (c_peer_type p =? 1) then false
  else if (c_int_max p <? 6) || (c_int_max p >? 3200) then false
  else if (c_int_min p <? 6) || (c_int_min p >? 3200) then false
  else if c_int_min p >? c_int_max p then false
  else if (c_latency p <? 0) || (c_latency p >? 499) then false
  else if (c_timeout p <? 10) || (c_timeout p >? 3200) then false
  else if sto16 p <? min_sto16 p then false
  else if (c_ce_min p <? 0) || (c_ce_min p >? 65535) then false
  else if (c_ce_max p <? 0) || (c_ce_max p >? 65535) then false
  else if c_ce_min p >? c_ce_max p then false
  else true.

(** params.go:49-81 init: the defaults *)
Definition default_scan : scan_params := mkScan 1 4 4 0 0.
Definition default_conn : conn_params := mkConn 64 64 0 0 0 6 6 0 1024 0 0.

(** params.go:83-96 validate, called by hci.go Init:142-192 before anything is sent *)
Definition validate (c : conn_params) (s : scan_params) : bool :=
  if validate_conn c then validate_scan s else false.

Lemma float_exact : forall p, 0 <= c_latency p < 65536 -> 0 <= c_int_max p < 65536 -> 0 <= c_timeout p < 65536 ->
  0 <= 4 * (4 + c_latency p * 5) < 2 ^ 53 /\ 0 <= 4 * (c_int_max p * 5) < 2 ^ 53 /\
  0 <= (4 + c_latency p * 5) * (c_int_max p * 5) < 2 ^ 53 /\ 0 <= min_sto16 p < 2 ^ 53 /\ 0 <= sto16 p < 2 ^ 53.
Proof. intros p H1 H2 H3. unfold min_sto16, sto16. nia. Qed.
