(** What a user sees through the accessors of a decoded packet, for a given record list. *)
Require Import Verif.Base Verif.M_adv Verif.S_adv.

Definition decoded (rs : list rec) (m : advmap) : Prop :=
  pk_uuids m = exp_services rs /\
  pk_sol m = exp_solicited rs /\
  pk_local_name m = exp_bytes is_name rs /\
  pk_mfg m = exp_mfg rs /\
  pk_flags m = Ret (hd_error (exp_bytes is_flags rs)) /\
  pk_tx_power m = Ret (option_map int8 (hd_error (exp_bytes is_txpwr rs))) /\
  (Forall (fun r => all_bytes (snd r)) rs ->
   exists out, pk_service_data m = Ret out /\
    (forall u, all_bytes u -> data_of u out = if ok_len u then data_of u (exp_svc rs) else []) /\
    (forall p, In p out -> ok_len (fst p) = true)).
