(** Specification of C172: Security Manager PDUs, after the Core Specification Vol 3 Part H 3.3. *)
Require Import Verif.Base Verif.M_smp.
(** A PDU on the Security Manager channel (6): length, channel, code, fields. *)
Definition sm_packet (code : Z) (fields : bytes) : bytes := let n := 1 + Z.of_nat (length fields) in [n mod 256; n / 256 mod 256; 6; 0; code] ++ fields.
Inductive smcode := PairingRequest | PairingConfirm | PairingRandom | PairingFailed | PublicKey | DHKeyCheck.
Definition code_of (c : smcode) : Z := match c with PairingRequest => 1 | PairingConfirm => 3 | PairingRandom => 4 | PairingFailed => 5 | PublicKey => 12 | DHKeyCheck => 13 end.
(** What the initiator may say in answer to a PDU of the responder. *)
Inductive answers : Z -> smcode -> bytes -> Prop :=
| an_response_sc : forall f, answers 2 PublicKey f            (* Pairing Response: Secure Connections *)
| an_response_legacy : forall f, answers 2 PairingConfirm f   (* Pairing Response: legacy pairing *)
| an_confirm : forall f, answers 3 PairingRandom f
| an_random_round : forall f, answers 4 PairingConfirm f      (* the next round of passkey entry *)
| an_random_last : forall f, answers 4 DHKeyCheck f
| an_security_request : forall f, answers 11 PairingRequest f
| an_public_key : forall f, answers 12 PairingConfirm f       (* the first round of passkey entry *)
| an_unknown : forall c, ~ In c [2; 3; 4; 5; 6; 7; 11; 12; 13] -> answers c PairingFailed [5]. (* reason: not supported *)
Definition is_send (e : ev) : bool := match e with EOut (OSend _) => true | _ => false end.
