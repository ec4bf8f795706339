(** Model of the host's set-up, advertising and scanning calls: linux/hci/gap.go, NewHCI / Init / init / Option of linux/hci/hci.go,
    params.go, the advertising calls of linux/device.go, and what the connection events do to advertising (hci.go:829-841, 866-879).
    The controller is a parameter: a state and a function from a command packet to its new state and its answer ([None]: the command
    failed without an answer, e.g. a time-out).  Commands are sent one at a time here (the command path itself is M_hcicmd).
    Not modelled: Device.Scan's waiting (M_scan), logging, sending when HCI is closed. *)
Require Import Verif.Base Verif.M_uuid Verif.M_adv Verif.M_cmd.

(** A struct of cmd_gen.go is a map from field names to values. *)
Notation sval := (string -> gval).
Definition field (n : string) (v : gval) (fv : sval) : sval := fun m => if String.eqb m n then v else fv m.
Definition none : sval := fun _ => GInt 0.
(** a command of the table by its Go type name *)
Definition find_cmd (n : string) : option cmddesc := find (fun d => String.eqb (cd_name d) n) cmd_table.
Definition find_rp (n : string) : option rpdesc := find (fun d => String.eqb (rd_name d) n) rp_table.
(** hci.go:379-406 the packet of the command of type [n] with fields [fv] *)
Definition packet (n : string) (fv : sval) : go bytes :=
  match find_cmd n with Some d => match cmd_bytes d fv with Some b => b | None => Panic end | None => Panic end.

Notation controller K := (K -> bytes -> K * option bytes).
(** hci.go:311-325 Send without return parameters: the error is None on success.  An empty answer counts as success. *)
Inductive serr := ErrStatus (st : Z) | ErrOther.
Definition send {K} (step : controller K) (k : K) (n : string) (fv : sval) : go (K * option serr) :=
  let! p := packet n fv in
  let (k', r) := step k p in
  Ret (k', match r with
           | None => Some ErrOther
           | Some b => match send_result b None with SErrCommand st => Some (ErrStatus st) | SErrDecode => Some ErrOther | SOk _ => None end
           end).
(** hci.go:311-325 Send with return parameters of type [rn]: the fields read ([z] keeps the zero values of the caller's variable on failure) *)
Definition ask {K} (step : controller K) (k : K) (n : string) (fv : sval) (rn : string) : go (K * option (list (string * gval))) :=
  let! p := packet n fv in
  let (k', r) := step k p in
  Ret (k', match r with
           | None => None
           | Some b => match send_result b (find_rp rn) with SOk l => Some l | _ => None end
           end).
Definition get_int (o : option (list (string * gval))) (f : string) : Z :=
  match o with
  | None => 0
  | Some l => match find (fun x => String.eqb (fst x) f) l with Some (_, GInt z) => z | _ => 0 end
  end.
Definition get_arr (o : option (list (string * gval))) (f : string) (n : nat) : bytes :=
  match o with
  | None => repeat 0 n
  | Some l => match find (fun x => String.eqb (fst x) f) l with Some (_, GBytes b) => b | _ => repeat 0 n end
  end.

(** params.go:35-47 and the fields addr, bufCnt, bufSize, txPwrLv of HCI (hci.go:93-101): [h_ad], [h_sr] are advData and scanResp as
    (length byte, 31-byte array), [h_pool] the (buffer size, count) given to NewPool *)
Record host := mkH { h_enable : Z; h_scan : Z; h_dup : Z; h_ad : Z * bytes; h_sr : Z * bytes; h_advp : sval; h_scanp : sval; h_connp : sval;
  h_addr : bytes; h_pool : option (Z * Z) }.
Definition with_enable (h : host) (e : Z) : host := mkH e (h_scan h) (h_dup h) (h_ad h) (h_sr h) (h_advp h) (h_scanp h) (h_connp h) (h_addr h) (h_pool h).
Definition with_scan (h : host) (e d : Z) : host := mkH (h_enable h) e d (h_ad h) (h_sr h) (h_advp h) (h_scanp h) (h_connp h) (h_addr h) (h_pool h).
Definition with_ad (h : host) (a : Z * bytes) : host := mkH (h_enable h) (h_scan h) (h_dup h) a (h_sr h) (h_advp h) (h_scanp h) (h_connp h) (h_addr h) (h_pool h).
Definition with_sr (h : host) (a : Z * bytes) : host := mkH (h_enable h) (h_scan h) (h_dup h) (h_ad h) a (h_advp h) (h_scanp h) (h_connp h) (h_addr h) (h_pool h).
Definition with_advp (h : host) (p : sval) : host := mkH (h_enable h) (h_scan h) (h_dup h) (h_ad h) (h_sr h) p (h_scanp h) (h_connp h) (h_addr h) (h_pool h).
Definition with_scanp (h : host) (p : sval) : host := mkH (h_enable h) (h_scan h) (h_dup h) (h_ad h) (h_sr h) (h_advp h) p (h_connp h) (h_addr h) (h_pool h).
Definition with_connp (h : host) (p : sval) : host := mkH (h_enable h) (h_scan h) (h_dup h) (h_ad h) (h_sr h) (h_advp h) (h_scanp h) p (h_addr h) (h_pool h).
Definition with_dev (h : host) (a : bytes) (p : option (Z * Z)) : host := mkH (h_enable h) (h_scan h) (h_dup h) (h_ad h) (h_sr h) (h_advp h) (h_scanp h) (h_connp h) a p.

(** params.go:49-84 init *)
Definition def_scanp : sval := field "LEScanType" (GInt 1) (field "LEScanInterval" (GInt 4) (field "LEScanWindow" (GInt 4) none)).
Definition def_advp : sval := field "AdvertisingIntervalMin" (GInt 32) (field "AdvertisingIntervalMax" (GInt 32)
  (field "DirectAddress" (GBytes (repeat 0 6)) (field "AdvertisingChannelMap" (GInt 7) none))).
Definition def_connp : sval := field "LEScanInterval" (GInt 64) (field "LEScanWindow" (GInt 64) (field "PeerAddress" (GBytes (repeat 0 6))
  (field "ConnIntervalMin" (GInt 6) (field "ConnIntervalMax" (GInt 6) (field "SupervisionTimeout" (GInt 1024) none))))).
(** hci.go:43-64 NewHCI before the options *)
Definition new_host : host := mkH 0 0 0 (0, repeat 0 31) (0, repeat 0 31) def_advp def_scanp def_connp [] None.
(** hci.go:243-250 Option, with the setters of option.go:14-77 that matter here: the error is that of the last option *)
Inductive opt := OAdvParams (p : sval) | OScanParams (p : sval) | OConnParams (p : sval) | OFails | OOther.
Definition apply_opt (h : host) (o : opt) : host * bool :=
  match o with OAdvParams p => (with_advp h p, true) | OScanParams p => (with_scanp h p, true) | OConnParams p => (with_connp h p, true)
             | OFails => (h, false) | OOther => (h, true) end.
Fixpoint options (h : host) (ok : bool) (l : list opt) : host * bool :=
  match l with [] => (h, ok) | o :: r => let (h', ok') := apply_opt h o in options h' ok' r end.

(** hci.go:261-308 init: every error of Send is dropped; the only error is that of a closed transport, not modelled.  Result: the address, the
    buffer count and size. *)
Definition init_cmds {K} (step : controller K) (k : K) : go (K * (bytes * Z * Z)) :=
  let! (k, _) := send step k "Reset" none in
  let! (k, bd) := ask step k "ReadBDADDR" none "ReadBDADDRRP" in
  let addr := rev (get_arr bd "BDADDR" 6) in
  let! (k, bs) := ask step k "ReadBufferSize" none "ReadBufferSizeRP" in
  let! (k, ls) := ask step k "LEReadBufferSize" none "LEReadBufferSizeRP" in
  let le := negb (get_int ls "HCTotalNumLEDataPackets" =? 0) in
  let cnt := if le then get_int ls "HCTotalNumLEDataPackets" else get_int bs "HCTotalNumACLDataPackets" in
  let sz := if le then get_int ls "HCLEDataPacketLength" else get_int bs "HCACLDataPacketLength" in
  let! (k, _) := ask step k "LEReadAdvertisingChannelTxPower" none "LEReadAdvertisingChannelTxPowerRP" in
  let! (k, _) := ask step k "LESetEventMask" (field "LEEventMask" (GInt 0x1F) none) "LESetEventMaskRP" in
  let! (k, _) := ask step k "SetEventMask" (field "EventMask" (GInt 0x3dbff807fffbffff) none) "SetEventMaskRP" in
  let! (k, _) := ask step k "WriteLEHostSupport" (field "LESupportedHost" (GInt 1) (field "SimultaneousLEHost" (GInt 0) none)) "WriteLEHostSupportRP" in
  let! (k, _) := ask step k "LEWriteSuggestedDefaultDataLength" (field "SuggestedMaxTxOctets" (GInt 251) (field "SuggestedMaxTxTime" (GInt 2120) none)) "LEWriteSuggestedDefaultDataLengthRP" in
  Ret (k, (addr, cnt, sz)).
(** hci.go:159-187 Init after the parameters were validated; buffer.go:19-22 NewPool refuses a count that is not positive *)
Definition init_host {K} (step : controller K) (h : host) (k : K) : go (host * K * bool) :=
  let! (k, (addr, cnt, sz)) := init_cmds step k in
  if cnt - 1 <=? 0 then Ret (with_dev h addr None, k, false)
  else
    let h := with_dev h addr (Some (5 + sz, cnt - 1)) in
    let! (k, _) := send step k "LESetAdvertisingParameters" (h_advp h) in
    let! (k, _) := send step k "LESetScanParameters" (h_scanp h) in
    Ret (h, k, true).

(** gap.go:282-299 SetAdvertisement *)
Definition ad_struct (a : Z * bytes) : sval := field "AdvertisingDataLength" (GInt (fst a)) (field "AdvertisingData" (GBytes (snd a)) none).
Definition sr_struct (a : Z * bytes) : sval := field "ScanResponseDataLength" (GInt (fst a)) (field "ScanResponseData" (GBytes (snd a)) none).
Definition set_advertisement {K} (step : controller K) (h : host) (k : K) (ad sr : bytes) : go (host * K * bool) :=
  if Nat.ltb MaxEIR (length ad) || Nat.ltb MaxEIR (length sr) then Ret (h, k, false)
  else
    let h := with_ad h (u8 (Z.of_nat (length ad)), gcopy (snd (h_ad h)) ad) in
    let! (k, e) := send step k "LESetAdvertisingData" (ad_struct (h_ad h)) in
    match e with
    | Some _ => Ret (h, k, false)
    | None =>
        let h := with_sr h (u8 (Z.of_nat (length sr)), gcopy (snd (h_sr h)) sr) in
        let! (k, e) := send step k "LESetScanResponseData" (sr_struct (h_sr h)) in
        Ret (h, k, match e with None => true | Some _ => false end)
    end.
(** gap.go:271-279 Advertise, 178-181 StopAdvertising *)
Definition enable_struct (e : Z) : sval := field "AdvertisingEnable" (GInt e) none.
Definition advertise {K} (step : controller K) (h : host) (k : K) : go (host * K * bool) :=
  let! (k, e) := send step k "LESetAdvertisingParameters" (h_advp h) in
  match e with
  | Some _ => Ret (h, k, false)
  | None => let h := with_enable h 1 in
            let! (k, e) := send step k "LESetAdvertiseEnable" (enable_struct (h_enable h)) in
            Ret (h, k, match e with None => true | Some _ => false end)
  end.
Definition stop_advertising {K} (step : controller K) (h : host) (k : K) : go (host * K * bool) :=
  let h := with_enable h 0 in
  let! (k, e) := send step k "LESetAdvertiseEnable" (enable_struct (h_enable h)) in
  Ret (h, k, match e with None => true | Some _ => false end).
(** gap.go:123-126 (and 84-87, 135-138, 147-150, 159-162, 171-174): an error of SetAdvertisement ends the call with success *)
Definition advertise_with {K} (step : controller K) (h : host) (k : K) (ad sr : bytes) : go (host * K * bool) :=
  let! (h, k, ok) := set_advertisement step h k ad sr in
  if ok then advertise step h k else Ret (h, k, true).
(** The calls.  gap.go:47-175; device.go:112-201 (before waiting for the context, and AdvertiseRaw) *)
Inductive acall := ANames (name : bytes) (us : list bytes) | AAdv (name : bytes) (us : list bytes) (mfg : option bytes)
| AMfg (id : Z) (md : bytes) | ASvc16 (id : Z) (b : bytes) | AIBeaconData (md : bytes) | AIBeacon (u : bytes) (major minor pwr : Z)
| ARaw (ad sr : bytes) (p : sval).
Definition field_call {K} (step : controller K) (h : host) (k : K) (f : M_adv.field) : go (host * K * bool) :=
  match new_packet [f] with None => Ret (h, k, false) | Some ad => advertise_with step h k ad [] end.
Definition run_acall {K} (step : controller K) (h : host) (k : K) (c : acall) : go (host * K * bool) :=
  match c with
  | ANames name us => let (ad, sr) := advertise_payload name us in advertise_with step h k ad sr
  | AAdv name us mfg => let (ad, sr) := advertise_adv_payload name us mfg in advertise_with step h k ad sr
  | AMfg id md => field_call step h k (f_mfg id md)
  | ASvc16 id b => field_call step h k (f_service_data16 id b)
  | AIBeaconData md => field_call step h k (f_ibeacon_data md)
  | AIBeacon u major minor pwr => field_call step h k (f_ibeacon u major minor pwr)
  | ARaw ad sr p =>
      let h := with_advp h p in
      let! (h, k, ok) := set_advertisement step h k ad sr in
      if ok then advertise step h k else Ret (h, k, false)
  end.

(** gap.go:29-38 Scan, 41-44 StopScanning *)
Definition scan_struct (h : host) : sval := field "LEScanEnable" (GInt (h_scan h)) (field "FilterDuplicates" (GInt (h_dup h)) none).
Definition scan {K} (step : controller K) (h : host) (k : K) (allow_dup : bool) : go (host * K * bool) :=
  let h := with_scan h 1 (if allow_dup then 0 else 1) in
  let! (k, e) := send step k "LESetScanEnable" (scan_struct h) in
  Ret (h, k, match e with None => true | Some _ => false end).
Definition stop_scanning {K} (step : controller K) (h : host) (k : K) : go (host * K * bool) :=
  let h := with_scan h 0 (h_dup h) in
  let! (k, e) := send step k "LESetScanEnable" (scan_struct h) in
  Ret (h, k, match e with None => true | Some _ => false end).
(** gap.go:201-221 Dial up to the Create Connection command: [a] the six bytes of the address as written, [rnd] whether it is a RandomAddress *)
Definition dial {K} (step : controller K) (h : host) (k : K) (a : bytes) (rnd : bool) : go (host * K * bool) :=
  if negb (Nat.eqb (length a) 6) then Ret (h, k, false)
  else
    let h := with_connp h (field "PeerAddressType" (GInt (if rnd then 1 else 0)) (field "PeerAddress" (GBytes (rev a)) (h_connp h))) in
    let! (k, e) := send step k "LECreateConnection" (h_connp h) in
    Ret (h, k, match e with None => true | Some _ => false end).
(** hci.go:829-841 after a connection was accepted as peripheral: advertising is enabled again if it was asked for *)
Definition peripheral_connected {K} (step : controller K) (h : host) (k : K) : go (host * K) :=
  if h_enable h =? 1 then let! (k, _) := send step k "LESetAdvertiseEnable" (enable_struct (h_enable h)) in Ret (h, k) else Ret (h, k).
(** hci.go:866-879 when a peripheral's connection ends ([isopen]: HCI was not closed): the condition is negated *)
Definition peripheral_disconnected {K} (step : controller K) (isopen : bool) (h : host) (k : K) : go (host * K) :=
  if negb isopen then
    (if h_enable h =? 1 then let! (k, _) := send step k "LESetAdvertiseEnable" (enable_struct (h_enable h)) in Ret (h, k) else Ret (h, k))
  else Ret (h, k).
