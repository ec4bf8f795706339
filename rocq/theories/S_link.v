(** Specification of C165: two ends of a link layer connection. *)
Require Import Verif.Base Verif.M_l2cap Verif.S_l2cap Verif.M_hci Verif.S_hci.
(** What the controllers and the air do with the packets [out] of one write: the receiving controller hands over the same payload
    bytes, under its own connection handle, cut into packets of any positive size (the first holding at least the 4-byte header). *)
Definition air (h : Z) (out rec : list bytes) : Prop := rx_frags h (flat_map (skipn 5) out) rec.
(** What successive calls of Read with a buffer of [cap] bytes return for the PDUs that came. *)
Definition reads (cap : nat) (stale : bytes) (pdus : list bytes) (got : list bytes) : Prop :=
  Forall2 (fun p d => conn_read cap stale p = Ret (Some d)) pdus got.
(** The ACL packets of connection handle [h] that the controller hands over during a trace. *)
Definition of_handle (h : Z) (l : list act) : list bytes := map snd (filter (fun x => fst x =? h) (flat_map arrivals1 l)).
