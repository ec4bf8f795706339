(** Specification of advertising data (Core Specification Supplement, Part A), written on record lists. *)
Require Import Verif.Base.

(** An AD structure: type and data. *)
Notation rec := (prod Z (list Z)).
Definition enc_rec (r : rec) : bytes := (Z.of_nat (length (snd r)) + 1) :: fst r :: snd r.
Definition enc (rs : list rec) : bytes := flat_map enc_rec rs.

(** Element size of the UUID list types. *)
Definition services_size (t : Z) : option nat :=
  if (t =? 2) || (t =? 3) then Some 2%nat
  else if (t =? 4) || (t =? 5) then Some 4%nat
  else if (t =? 6) || (t =? 7) then Some 16%nat else None.
Definition solicited_size (t : Z) : option nat :=
  if t =? 20 then Some 2%nat else if t =? 31 then Some 4%nat else if t =? 21 then Some 16%nat else None.
Definition svcdata_size (t : Z) : option nat :=
  if t =? 22 then Some 2%nat else if t =? 32 then Some 4%nat else if t =? 33 then Some 16%nat else None.
Definition is_flags (t : Z) := t =? 1.
Definition is_name (t : Z) := (t =? 8) || (t =? 9).
Definition is_txpwr (t : Z) := t =? 10.
Definition is_mfg (t : Z) := t =? 255.

(** A record of data shorter than 256 (so that the length fits a byte), whose payload has a legal length for its type.
    Records with empty data are always legal (they carry nothing). *)
Definition legal_payload (r : rec) : Prop :=
  let (t, d) := r in
  d = [] \/
  ((forall n, services_size t = Some n -> (length d mod n = 0)%nat) /\
   (forall n, solicited_size t = Some n -> (length d mod n = 0)%nat) /\
   (forall n, svcdata_size t = Some n -> (n <= length d)%nat)).
Definition rec_fits (r : rec) : Prop := (length (snd r) <= 254)%nat.

(** cut a list into pieces of n *)
Fixpoint chunks (n : nat) (l : bytes) (fuel : nat) : list bytes :=
  match fuel, l with
  | O, _ => []
  | _, [] => []
  | S f, _ => firstn n l :: chunks n (skipn n l) f
  end.

(** Expected field contents of a record list. *)
Definition exp_list (size : Z -> option nat) (rs : list rec) : list bytes :=
  flat_map (fun r => match size (fst r) with Some n => chunks n (snd r) (length (snd r)) | None => [] end) rs.
Definition exp_services := exp_list services_size.
Definition exp_solicited := exp_list solicited_size.
Definition exp_bytes (p : Z -> bool) (rs : list rec) : bytes :=
  flat_map (fun r => if p (fst r) then snd r else []) rs.
(** manufacturer data: repeated records (scan response) drop the repeated two-byte company id *)
Definition nonempty_mfg (rs : list rec) : list bytes :=
  flat_map (fun r => if is_mfg (fst r) then (match snd r with [] => [] | d => [d] end) else []) rs.
Definition exp_mfg (rs : list rec) : bytes :=
  match nonempty_mfg rs with [] => [] | d :: ds => d ++ flat_map (skipn 2) ds end.
(** service data records as (uuid bytes, data), in order *)
Definition exp_svc (rs : list rec) : list (bytes * bytes) :=
  flat_map (fun r => match svcdata_size (fst r), snd r with
                     | Some n, _ :: _ => [(firstn n (snd r), skipn n (snd r))] | _, _ => [] end) rs.
(** later manufacturer records must carry the two company id bytes to be handled *)
Definition mfg_ok (rs : list rec) : Prop := forall d ds, nonempty_mfg rs = d :: ds -> Forall (fun x => (2 <= length x)%nat) ds.

(** The ways data can end after a sequence of complete legal records. *)
Inductive tail_end : bytes -> Prop :=
| te_nil : tail_end []
| te_one : forall x, tail_end [x].
Inductive tail_malformed : bytes -> Prop :=
| tm_zero : forall t r, tail_malformed (0 :: t :: r)                       (* zero length byte *)
| tm_over : forall n t r, 0 < n -> Z.of_nat (length r) < n - 1 -> tail_malformed (n :: t :: r)  (* runs past the end *)
| tm_size : forall r rest, ~ legal_payload r -> tail_malformed (enc_rec r ++ rest). (* illegal payload size *)

(** The fields a user can put in a packet, and the records each stands for. *)
Inductive fdesc :=
| DFlags (f : Z) | DShort (n : bytes) | DComplete (n : bytes) | DMfg (id : Z) (b : bytes)
| DAll (u : bytes) | DSome (u : bytes) | DSvc16 (id : Z) (b : bytes)
| DIBeaconData (md : bytes) | DIBeacon (u : bytes) (major minor pwr : Z).
Definition uuid_type (complete : bool) (u : bytes) : Z :=
  let base := if Nat.eqb (length u) 2 then 2 else if Nat.eqb (length u) 4 then 4 else 6 in
  if complete then base + 1 else base.
Definition two (x : Z) : bytes := [x mod 256; (x / 256) mod 256].      (* little endian *)
Definition two_be (x : Z) : bytes := [(x / 256) mod 256; x mod 256].
Definition desc_recs (d : fdesc) : list rec :=
  match d with
  | DFlags f => [(1, [f])]
  | DShort n => [(8, n)]
  | DComplete n => [(9, n)]
  | DMfg id b => [(255, two id ++ b)]
  | DAll u => [(uuid_type true u, u)]
  | DSome u => [(uuid_type false u, u)]
  | DSvc16 id b => [(3, two id); (22, two id ++ b)]
  | DIBeaconData md => [(255, [76; 0] ++ md)]
  | DIBeacon u major minor pwr => [(255, [76; 0; 2; 21] ++ rev u ++ two_be major ++ two_be minor ++ [pwr mod 256])]
  end.
(** arguments for which the field makes sense *)
Definition desc_ok (d : fdesc) : Prop :=
  match d with
  | DAll u | DSome u => length u = 2%nat \/ length u = 4%nat \/ length u = 16%nat
  | DIBeacon u _ _ _ => length u = 16%nat
  | _ => True
  end.

(** the data entries listed for uuid u, in order *)
Definition data_of (u : bytes) (l : list (bytes * bytes)) : list bytes :=
  map snd (filter (fun p => beq_bytes (fst p) u) l).
(** UUIDs of 16 or 128 bits *)
Definition ok_len (u : bytes) : bool := (Nat.eqb (length u) 2 || Nat.eqb (length u) 16)%bool.
(** some known field is present *)
Definition has_field (rs : list rec) : Prop :=
  exp_services rs <> [] \/ exp_solicited rs <> [] \/ exp_svc rs <> [] \/ exp_mfg rs <> [] \/
  exp_bytes is_name rs <> [] \/ exp_bytes is_flags rs <> [] \/ exp_bytes is_txpwr rs <> [].
