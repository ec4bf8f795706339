(** What a scanner should show of what a peer advertises with one of the advertising calls (C175).  An advertising packet and a scan response have
    room for 31 bytes each; a field takes two bytes more than its content; the flags take three. *)
Require Import Verif.Base Verif.S_adv Verif.M_advrep Verif.M_gap Verif.M_air.

Record shown := mkSh { sh_name : bytes; sh_services : list bytes; sh_mfg : bytes; sh_svc : list (bytes * bytes) }.

(** as many of the UUIDs, in order, as fit in [room] bytes *)
Fixpoint that_fit (room : nat) (us : list bytes) : list bytes :=
  match us with
  | [] => []
  | u :: r => if Nat.leb (2 + length u) room then u :: that_fit (room - (2 + length u)) r else []
  end.
Definition size_of (us : list bytes) : nat := list_sum (map (fun u => (2 + length u)%nat) us).

(** the room left in the advertising packet for the name; whether the name is in it *)
Definition left_for_name (us : list bytes) : nat := (28 - size_of (that_fit 28 us))%nat.
Definition name_with_flags (name : bytes) (us : list bytes) : bool := Nat.leb (2 + length name) (left_for_name us).
(** the room left for manufacturer data in the packet, and in the scan response *)
Definition left_for_mfg (name : bytes) (us : list bytes) : nat := if name_with_flags name us then (left_for_name us - (2 + length name))%nat else left_for_name us.
Definition left_in_response (name : bytes) (us : list bytes) : nat := if name_with_flags name us then 31%nat else if Nat.leb (2 + length name) 31 then (31 - (2 + length name))%nat else 31%nat.
Definition mfg_in_packet (md name : bytes) (us : list bytes) : bool := Nat.leb (4 + length md) (left_for_mfg name us).
Definition mfg_in_response (md name : bytes) (us : list bytes) : bool := negb (mfg_in_packet md name us) && Nat.leb (4 + length md) (left_in_response name us).

(** [rsp]: with the scan response, or the advertising packet alone.  [None]: a raw call *)
Definition on_air (c : acall) (rsp : bool) : option shown :=
  let name_shown name us : bytes := if name_with_flags name us || (rsp && Nat.leb (length name) 29) then name else [] in
  match c with
  | ANames name us | AAdv name us None => Some (mkSh (name_shown name us) (that_fit 28 us) [] [])
  | AAdv name us (Some md) => Some (mkSh (name_shown name us) (that_fit 28 us) (if mfg_in_packet md name us || (rsp && mfg_in_response md name us) then two 1337 ++ md else []) [])
  | AMfg id md => Some (mkSh [] [] (two id ++ md) [])
  | ASvc16 id b => Some (mkSh [] [two id] [] [(two id, b)])
  | AIBeaconData md => Some (mkSh [] [] ([76; 0] ++ md) [])
  | AIBeacon u major minor pwr => Some (mkSh [] [] ([76; 0; 2; 21] ++ rev u ++ two_be major ++ two_be minor ++ [pwr mod 256]) [])
  | ARaw _ _ _ => None
  end.
(** UUIDs are of 16, 32 or 128 bits *)
Definition uuids_ok (c : acall) : Prop :=
  match c with ANames _ us | AAdv _ us _ => Forall (fun u => length u = 2%nat \/ length u = 4%nat \/ length u = 16%nat) us | _ => True end.
(** the accessors of an advertisement *)
Definition shows (a : advert) (x : shown) : Prop :=
  LocalName a = sh_name x /\ Services a = sh_services x /\ OverflowService a = sh_services x /\ ManufacturerData a = sh_mfg x /\ ServiceData a = Ret (sh_svc x) /\ SolicitedService a = [].
