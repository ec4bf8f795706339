(** Model of parser/parser.go, linux/adv/packet.go, and the advertising set-up functions of linux/hci/gap.go. *)
Require Import Verif.Base Verif.M_uuid.

(** adv.go:31-63 AdvertisementMapKeys used by the parser (distinct string constants). *)
Inductive advkey := KFlags | KServices | KSolicited | KServiceData | KName | KTxpwr | KMfg | KErr.
Definition advkey_eqb (a b : advkey) : bool :=
  match a, b with
  | KFlags, KFlags | KServices, KServices | KSolicited, KSolicited | KServiceData, KServiceData
  | KName, KName | KTxpwr, KTxpwr | KMfg, KMfg | KErr, KErr => true
  | _, _ => false
  end.

(** Dynamic values stored in the map[string]interface{}:
    []byte, []ble.UUID, map[string]interface{} of []interface{} of []byte, and the error string. *)
Inductive advval :=
| VBytes (b : bytes)
| VUuids (l : list bytes)
| VSvc (m : list (bytes * list bytes))
| VStr.

(** map[string]interface{} restricted to the keys above: one optional slot per key. *)
Record advmap := mkMap {
  m_flags : option advval; m_services : option advval; m_solicited : option advval;
  m_svcdata : option advval; m_name : option advval; m_txpwr : option advval;
  m_mfg : option advval; m_err : option advval }.
Definition empty_map : advmap := mkMap None None None None None None None None.
Definition mget (m : advmap) (k : advkey) : option advval :=
  match k with
  | KFlags => m_flags m | KServices => m_services m | KSolicited => m_solicited m
  | KServiceData => m_svcdata m | KName => m_name m | KTxpwr => m_txpwr m | KMfg => m_mfg m | KErr => m_err m
  end.
Definition mset (m : advmap) (k : advkey) (v : advval) : advmap :=
  let f k' := if advkey_eqb k k' then Some v else mget m k' in
  mkMap (f KFlags) (f KServices) (f KSolicited) (f KServiceData) (f KName) (f KTxpwr) (f KMfg) (f KErr).
(** len(m) > 0 *)
Definition mnonempty (m : advmap) : bool :=
  let p (o : option advval) := match o with Some _ => true | None => false end in
  p (m_flags m) || p (m_services m) || p (m_solicited m) || p (m_svcdata m) || p (m_name m)
  || p (m_txpwr m) || p (m_mfg m) || p (m_err m).

(** parser/parser.go:69-74 pduRecord *)
Record pdurec := mkRec { arrayElementSz : nat; minSz : nat; svcDataUUIDSz : nat; reckey : advkey }.

(** parser/parser.go:76-179 pduDecodeMap with the type codes of parser.go:13-51 *)
Definition decode_map (typ : Z) : option pdurec :=
  if typ =? 2 then Some (mkRec 2 2 0 KServices)
  else if typ =? 3 then Some (mkRec 2 2 0 KServices)
  else if typ =? 4 then Some (mkRec 4 4 0 KServices)
  else if typ =? 5 then Some (mkRec 4 4 0 KServices)
  else if typ =? 6 then Some (mkRec 16 16 0 KServices)
  else if typ =? 7 then Some (mkRec 16 16 0 KServices)
  else if typ =? 20 then Some (mkRec 2 2 0 KSolicited)
  else if typ =? 31 then Some (mkRec 4 4 0 KSolicited)
  else if typ =? 21 then Some (mkRec 16 16 0 KSolicited)
  else if typ =? 22 then Some (mkRec 0 2 2 KServiceData)
  else if typ =? 32 then Some (mkRec 0 4 4 KServiceData)
  else if typ =? 33 then Some (mkRec 0 16 16 KServiceData)
  else if typ =? 9 then Some (mkRec 0 1 0 KName)
  else if typ =? 8 then Some (mkRec 0 1 0 KName)
  else if typ =? 10 then Some (mkRec 0 1 0 KTxpwr)
  else if typ =? 255 then Some (mkRec 0 1 0 KMfg)
  else if typ =? 1 then Some (mkRec 0 1 0 KFlags)
  else None.

(** parser/parser.go:201-205 the slicing loop of getArray; [fuel] bounds the number of iterations. *)
Fixpoint array_loop (size : nat) (b : bytes) (j : nat) (fuel : nat) : go (list bytes) :=
  match fuel with
  | O => Ret []
  | S f =>
      if Nat.ltb j (length b) then
        let! o := gslice b j (j + size) in
        let! r := array_loop size b (j + size) f in
        Ret (o :: r)
      else Ret []
  end.
(** parser/parser.go:181-208 getArray; [Ret None] is a returned error. *)
Definition get_array (size : nat) (b : bytes) : go (option (list bytes)) :=
  if Nat.eqb size 0 then Ret None
  else if Nat.eqb (length b) 0 then Ret None
  else if negb (Nat.eqb (length b mod size) 0) || Nat.eqb (length b / size) 0 then Ret None
  else let! l := array_loop size b 0 (length b) in Ret (Some l).

(** Go map[string][]interface{} of the service data entry *)
Fixpoint svc_append (m : list (bytes * list bytes)) (su sd : bytes) : list (bytes * list bytes) :=
  match m with
  | [] => [(su, [sd])]
  | (k, l) :: r => if beq_bytes k su then (k, l ++ [sd]) :: r else (k, l) :: svc_append r su sd
  end.

(** parser/parser.go:293-311 writeOrAppendBytes *)
Definition write_or_append (m : advmap) (k : advkey) (data : bytes) : go advmap :=
  match mget m k with
  | None => Ret (mset m k (VBytes data))
  | Some (VBytes d) =>
      let! data' := (if advkey_eqb k KMfg then gfrom data 2 else Ret data) in
      Ret (mset m k (VBytes (d ++ data')))
  | Some _ => Ret (mset m k (VBytes data))
  end.

Inductive perr := EEmpty | ELen | EOverflow | EMin | EArray.

(** parser/parser.go:236-283: decoding of one record's payload into the map. *)
Definition parse_record (m : advmap) (typ : Z) (b : bytes) : go (advmap * option perr) :=
  match decode_map typ with
  | Some dec =>
      if Nat.eqb (length b) 0 then Ret (m, None)
      else if Nat.ltb (length b) (minSz dec) then Ret (m, Some EMin)
      else if Nat.ltb 0 (arrayElementSz dec) then
        let! r := get_array (arrayElementSz dec) b in
        match r with
        | None => Ret (m, Some EArray)
        | Some arr =>
            match mget m (reckey dec) with
            | Some (VUuids v) => Ret (mset m (reckey dec) (VUuids (v ++ arr)), None)
            | _ => Ret (mset m (reckey dec) (VUuids arr), None)
            end
        end
      else if Nat.ltb 0 (svcDataUUIDSz dec) then
        let! ub := gslice b 0 (svcDataUUIDSz dec) in
        let! su := uuid_string ub in
        let! sd := gfrom b (svcDataUUIDSz dec) in
        let msd := match mget m (reckey dec) with Some (VSvc x) => x | _ => [] end in
        Ret (mset m (reckey dec) (VSvc (svc_append msd su sd)), None)
      else
        let! m' := write_or_append m (reckey dec) b in Ret (m', None)
  | None => Ret (m, None)
  end.

(** parser/parser.go:216-287 the record loop; every iteration advances i by at least 2, so [length pdu] is enough fuel
    (out of fuel is reported as Panic, and proved not to happen). *)
Fixpoint parse_loop (pdu : bytes) (i : nat) (m : advmap) (fuel : nat) : go (advmap * option perr) :=
  match fuel with
  | O => Panic
  | S f =>
      if Nat.ltb (i + 1) (length pdu) then
        let! l := gidx pdu i in
        let len := Z.to_nat l in
        let! typ := gidx pdu (i + 1) in
        if Nat.ltb len 1 then Ret (m, Some ELen)
        else if Nat.leb (length pdu) (i + len) then Ret (m, Some EOverflow)
        else
          let start := (i + 2)%nat in
          let en := (start + len - 1)%nat in
          let! b := gslice pdu start en in
          let! r := parse_record m typ b in
          match r with
          | (m', Some e) => Ret (m', Some e)
          | (m', None) => parse_loop pdu (i + (len + 1)) m' f
          end
      else Ret (m, None)
  end.

(** parser/parser.go:210-291 Parse; the nil map returned for empty input is modelled as the empty map. *)
Definition Parse (pdu : bytes) : go (advmap * option perr) :=
  if Nat.eqb (length pdu) 0 then Ret (empty_map, Some EEmpty)
  else parse_loop pdu 0 empty_map (S (length pdu)).

(** linux/adv/packet.go:63-93 NewRawPacket on the concatenated bytes: None = error, Some (bytes, map). *)
Definition NewRawPacket (parts : list bytes) : go (option (bytes * advmap)) :=
  let b := concat parts in
  let! r := Parse b in
  match r with
  | (m, None) => Ret (Some (b, m))
  | (m, Some EEmpty) => Ret (Some (b, m))
  | (m, Some _) => if mnonempty m then Ret (Some (b, mset m KErr VStr)) else Ret None
  end.

(** linux/adv/packet.go:219-224 Flags *)
Definition pk_flags (m : advmap) : go (option Z) :=
  match mget m KFlags with Some (VBytes b) => let! x := gidx b 0 in Ret (Some x) | _ => Ret None end.
(** linux/adv/packet.go:227-232 LocalName *)
Definition pk_local_name (m : advmap) : bytes :=
  match mget m KName with Some (VBytes b) => b | _ => [] end.
(** linux/adv/packet.go:235-241 TxPower: int8 interpretation *)
Definition int8 (x : Z) : Z := if x <? 128 then x else x - 256.
Definition pk_tx_power (m : advmap) : go (option Z) :=
  match mget m KTxpwr with Some (VBytes b) => let! x := gidx b 0 in Ret (Some (int8 x)) | _ => Ret None end.
(** linux/adv/packet.go:244-253 UUIDs, ServiceSol *)
Definition pk_uuids (m : advmap) : list bytes := match mget m KServices with Some (VUuids l) => l | _ => [] end.
Definition pk_sol (m : advmap) : list bytes := match mget m KSolicited with Some (VUuids l) => l | _ => [] end.
(** linux/adv/packet.go:256-285 ServiceData: iteration over the map in some order (modelled: insertion order), keys
    re-parsed with ble.Parse, unparsable keys skipped. *)
Fixpoint svc_list (m : list (bytes * list bytes)) : go (list (bytes * bytes)) :=
  match m with
  | [] => Ret []
  | (su, ds) :: r =>
      let! u := uuid_parse su in
      let! rest := svc_list r in
      match u with
      | Some u' => Ret (map (fun d => (u', d)) ds ++ rest)
      | None => Ret rest
      end
  end.
Definition pk_service_data (m : advmap) : go (list (bytes * bytes)) :=
  match mget m KServiceData with Some (VSvc x) => svc_list x | _ => Ret [] end.
(** linux/adv/packet.go:288-291 ManufacturerData *)
Definition pk_mfg (m : advmap) : bytes := match mget m KMfg with Some (VBytes b) => b | _ => [] end.

(** ---- packet builder (linux/adv/packet.go) ---- *)
Definition MaxEIR : nat := 31. (* const.go:7 *)
Inductive ferr := ENotFit | EInvalid.

(** A Field (packet.go:96) maps the packet bytes to new bytes and an error. *)
Definition field := bytes -> bytes * option ferr.

(** linux/adv/packet.go:106-114 append *)
Definition pk_append (typ : Z) (b : bytes) : field := fun p =>
  if Nat.ltb MaxEIR (length p + 1 + 1 + length b) then (p, Some ENotFit)
  else ((p ++ [u8 (Z.of_nat (length b) + 1)] ++ [typ] ++ b), None).
(** linux/adv/packet.go:118-126 Raw *)
Definition f_raw (b : bytes) : field := fun p =>
  if Nat.ltb MaxEIR (length p + length b) then (p, Some ENotFit) else (p ++ b, None).
(** linux/adv/packet.go:174-179 ManufacturerData *)
Definition f_mfg (id : Z) (b : bytes) : field := pk_append 255 ([u8 id; u8 (id / 256)] ++ b).
(** linux/adv/packet.go:129-133 IBeaconData *)
Definition f_ibeacon_data (md : bytes) : field := f_mfg 76 md.
(** linux/adv/packet.go:136-150 IBeacon; [pwr] is the int8 measured power. *)
Definition f_ibeacon (u : bytes) (major minor pwr : Z) : field := fun p =>
  if negb (Nat.eqb (length u) 16) then (p, Some EInvalid)
  else f_mfg 76 ([2; 21] ++ rev u ++ be16 major ++ be16 minor ++ [u8 pwr]) p.
(** linux/adv/packet.go:153-171 Flags, ShortName, CompleteName *)
Definition f_flags (f : Z) : field := pk_append 1 [f].
Definition f_short_name (n : bytes) : field := pk_append 8 n.
Definition f_complete_name (n : bytes) : field := pk_append 9 n.
(** linux/adv/packet.go:182-192 AllUUID, 195-205 SomeUUID *)
Definition f_all_uuid (u : bytes) : field :=
  if Nat.eqb (length u) 2 then pk_append 3 u
  else if Nat.eqb (length u) 4 then pk_append 5 u else pk_append 7 u.
Definition f_some_uuid (u : bytes) : field :=
  if Nat.eqb (length u) 2 then pk_append 2 u
  else if Nat.eqb (length u) 4 then pk_append 4 u else pk_append 6 u.
(** linux/adv/packet.go:208-216 ServiceData16 *)
Definition f_service_data16 (id : Z) (b : bytes) : field := fun p =>
  match pk_append 3 (uuid16 id) p with
  | (p1, Some e) => (p1, Some e)
  | (p1, None) => pk_append 22 (uuid16 id ++ b) p1
  end.
(** linux/adv/packet.go:52-60 NewPacket *)
Fixpoint new_packet_loop (fs : list field) (p : bytes) : option bytes :=
  match fs with
  | [] => Some p
  | f :: r => match f p with (p', None) => new_packet_loop r p' | (_, Some _) => None end
  end.
Definition new_packet (fs : list field) : option bytes := new_packet_loop fs [].

(** ---- gap.go ---- *)
(** linux/hci/gap.go:109-116 the UUID appending loop: stops at the first UUID that does not fit. *)
Fixpoint append_uuids (f : bytes -> field) (us : list bytes) (ad : bytes) : bytes :=
  match us with
  | [] => ad
  | u :: r => match f u ad with (ad', None) => append_uuids f r ad' | (ad', Some _) => ad' end
  end.
(** linux/hci/gap.go:117-122 the name placement switch *)
Definition place_name (name ad sr : bytes) : bytes * bytes :=
  match f_complete_name name ad with
  | (ad', None) => (ad', sr)
  | (ad1, Some _) =>
      match f_complete_name name sr with
      | (sr', None) => (ad1, sr')
      | (sr1, Some _) => (ad1, fst (f_short_name name sr1))
      end
  end.
Definition uuids_len (us : list bytes) : nat := fold_right (fun u n => (length u + n)%nat) 0%nat us.
(** linux/hci/gap.go:94-127 AdvertiseNameAndServices: the (advertising, scan response) payloads given to SetAdvertisement.
    (The flags packet of 3 bytes always fits, so the first error branch is dead.) *)
Definition advertise_payload (name : bytes) (us : list bytes) : bytes * bytes :=
  let ad0 := fst (f_flags 6 []) in
  let l := (length ad0 + 1 + 1 + uuids_len us)%nat in
  let f := if Nat.ltb MaxEIR l then f_some_uuid else f_all_uuid in
  place_name name (append_uuids f us ad0) [].
(** linux/hci/gap.go:47-89 AdvertiseAdv: additionally manufacturer data (company id 1337) in ad, else sr, else dropped. *)
Definition place_mfg (mfg : option bytes) (p : bytes * bytes) : bytes * bytes :=
  match mfg with
  | None => p
  | Some md =>
      match f_mfg 1337 md (fst p) with
      | (ad', None) => (ad', snd p)
      | (ad1, Some _) => (ad1, fst (f_mfg 1337 md (snd p)))
      end
  end.
Definition advertise_adv_payload (name : bytes) (us : list bytes) (mfg : option bytes) : bytes * bytes :=
  place_mfg mfg (advertise_payload name us).

(** linux/hci/gap.go:282-299 SetAdvertisement: the two HCI commands sent, given whether each Send succeeds
    ([ok1], [ok2]); result = (commands sent as (which, length byte, data), success). *)
Inductive advcmd := SetAdvData (len : Z) (d : bytes) | SetScanResp (len : Z) (d : bytes) | SetAdvParams | AdvEnable.
Definition set_advertisement (send : advcmd -> bool) (ad sr : bytes) : list advcmd * bool :=
  if Nat.ltb MaxEIR (length ad) || Nat.ltb MaxEIR (length sr) then ([], false)
  else
    let c1 := SetAdvData (u8 (Z.of_nat (length ad))) ad in
    if send c1 then
      let c2 := SetScanResp (u8 (Z.of_nat (length sr))) sr in
      ([c1; c2], send c2)
    else ([c1], false).
(** linux/hci/gap.go:271-279 Advertise *)
Definition advertise (send : advcmd -> bool) : list advcmd * bool :=
  if send SetAdvParams then ([SetAdvParams; AdvEnable], send AdvEnable) else ([SetAdvParams], false).
(** linux/hci/gap.go:123-126 (and 84-87, 135-138, 147-150, 159-162, 171-174): error of SetAdvertisement swallowed *)
Definition advertise_with (send : advcmd -> bool) (ad sr : bytes) : list advcmd * bool :=
  let (cs, ok) := set_advertisement send ad sr in
  if ok then let (cs2, ok2) := advertise send in (cs ++ cs2, ok2) else (cs, true).
Definition advertise_name_and_services (send : advcmd -> bool) (name : bytes) (us : list bytes) : list advcmd * bool :=
  let (ad, sr) := advertise_payload name us in advertise_with send ad sr.
(** linux/hci/gap.go:130-175 AdvertiseMfgData, AdvertiseServiceData16, AdvertiseIBeaconData, AdvertiseIBeacon:
    one field, no scan response. *)
Definition advertise_field (send : advcmd -> bool) (f : field) : list advcmd * bool :=
  match new_packet [f] with None => ([], false) | Some ad => advertise_with send ad [] end.
