(** Specification of H4 framing: a byte-at-a-time decoder that knows nothing about how reads are split. *)
Require Import Verif.Base.

(** An HCI event or ACL packet in H4 form (Core Spec Vol 4 Part A 2, Part E 5.4). *)
Inductive h4_packet : bytes -> Prop :=
| h4_event : forall code params, (length params <= 255)%nat ->
    h4_packet (4 :: code :: Z.of_nat (length params) :: params)
| h4_acl : forall h0 h1 data, Z.of_nat (length data) <= 65535 ->
    h4_packet (2 :: h0 :: h1 :: le16 (Z.of_nat (length data)) ++ data).

(** total length announced by the header, once the header is complete *)
Definition announced (p : bytes) : option nat :=
  match p with
  | 4 :: _ :: n :: _ => Some (Z.to_nat n + 3)%nat
  | 2 :: _ :: _ :: l0 :: l1 :: _ => Some (Z.to_nat (l0 + 256 * l1) + 5)%nat
  | _ => None
  end.
(** The partial packet and the arrival time of its first byte. *)
Record dec := mkDec { d_part : bytes; d_since : Z }.
Definition dec0 : dec := mkDec [] 0.
(** one byte arriving at time t *)
Definition dec_byte (d : dec) (t x : Z) : dec * list bytes :=
  let p := if d_since d + 500 <? t then [] else d_part d in
  match p with
  | [] => if (x =? 4) || (x =? 2) then (mkDec [x] t, []) else (mkDec [] t, [])
  | _ => let q := p ++ [x] in
         match announced q with
         | Some n => if Nat.eqb n (length q) then (mkDec [] t, [q]) else (mkDec q (d_since d), [])
         | None => (mkDec q (d_since d), [])
         end
  end.
Fixpoint dec_run (d : dec) (s : list (Z * Z)) : dec * list bytes :=
  match s with
  | [] => (d, [])
  | (t, x) :: r => let '(d1, o1) := dec_byte d t x in let '(d2, o2) := dec_run d1 r in (d2, o1 ++ o2)
  end.
(** every byte of a chunk carries the arrival time of the chunk *)
Definition timed (chunks : list (Z * bytes)) : list (Z * Z) := flat_map (fun c => map (fun x => (fst c, x)) (snd c)) chunks.

(** A stream of packets, each possibly preceded by bytes that are no packet indicator, every packet arriving within 500 ms. *)
Inductive packet_stream : list (Z * Z) -> list bytes -> Prop :=
| ps_end : forall g, Forall (fun tx => snd tx <> 2 /\ snd tx <> 4) g -> packet_stream g []
| ps_cons : forall g s p ps rest,
    Forall (fun tx => snd tx <> 2 /\ snd tx <> 4) g ->
    h4_packet p -> map snd s = p ->
    (forall t0 x0 s', s = (t0, x0) :: s' -> Forall (fun tx => fst tx <= t0 + 500) s') ->
    packet_stream rest ps ->
    packet_stream (g ++ s ++ rest) (p :: ps).
