(** L2CAP basic frames and HCI ACL fragments (Core Spec Vol 3 Part A 3.1, 7.2; Vol 4 Part E 5.4.2). *)
Require Import Verif.Base.
(** a basic frame *)
Definition b_frame (cid : Z) (payload : bytes) : bytes := le16 (Z.of_nat (length payload)) ++ le16 cid ++ payload.
(** an ACL data packet (without the packet type octet): 12-bit handle, boundary flag, length, data *)
Definition acl (handle pbf : Z) (data : bytes) : bytes := le16 (handle + 4096 * pbf) ++ le16 (Z.of_nat (length data)) ++ data.
(** [frags n h p fs]: the packets fs carry p: pieces of 1..n bytes, the first flagged start (0), the others continuing (1) *)
Inductive conts (n : nat) (h : Z) : bytes -> list bytes -> Prop :=
| ct_nil : conts n h [] []
| ct_cons : forall a b fs, (1 <= length a <= n)%nat -> conts n h b fs -> conts n h (a ++ b) (acl h 1 a :: fs).
Definition frags (n : nat) (h : Z) (p : bytes) (fs : list bytes) : Prop :=
  exists a b fs', (1 <= length a <= n)%nat /\ p = a ++ b /\ fs = acl h 0 a :: fs' /\ conts n h b fs'.

(** receive side: any start flag (0 or 2), pieces of any positive size, the first holding the frame header *)
Inductive rx_conts (h : Z) : bytes -> list bytes -> Prop :=
| rc_nil : rx_conts h [] []
| rc_cons : forall a b fs, a <> [] -> rx_conts h b fs -> rx_conts h (a ++ b) (acl h 1 a :: fs).
Definition rx_frags (h : Z) (p : bytes) (fs : list bytes) : Prop :=
  exists a b fs' st, (4 <= length a)%nat /\ (st = 0 \/ st = 2) /\ p = a ++ b /\ fs = acl h st a :: fs' /\ rx_conts h b fs'.
(** a frame that a receiver with receive MTU [rxmps] accepts: ATT frames carry at most that much *)
Definition good_pdu (rxmps : nat) (p : bytes) : Prop :=
  exists c d, p = b_frame c d /\ 0 <= c < 65536 /\ Z.of_nat (length d) <= 65535 /\ (c = 4 -> (length d <= rxmps)%nat).
