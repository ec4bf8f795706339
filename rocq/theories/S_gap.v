(** A controller as the Core Specification (Vol 4, Part E) describes it, as far as advertising, scanning and set-up are concerned, and what
    the advertising calls ask for (Core Specification Supplement, Part A).  Written on command packets; from M_gap only the
    types of the API are used (calls, parameter structs). *)
Require Import Verif.Base Verif.M_cmd Verif.S_adv Verif.M_gap.

(** what the controller is: device address (least significant byte first), ACL buffers (length, number), LE buffers (length, number), transmit power *)
Record ident := mkI { i_addr : bytes; i_acl_len : Z; i_acl_num : Z; i_le_len : Z; i_le_num : Z; i_power : Z }.
Definition ident_ok (i : ident) : Prop := length (i_addr i) = 6%nat /\ all_bytes (i_addr i) /\ 0 <= i_acl_len i < 65536 /\ 0 <= i_acl_num i < 65536 /\
  0 <= i_le_len i < 65536 /\ 0 <= i_le_num i < 256 /\ 0 <= i_power i < 256.
(** what it is set to: advertising parameters, data, scan response, whether it advertises; scan parameters, whether it scans, whether it filters
    duplicates; event masks; the last connection it was asked to create; connections as peripheral *)
Record ctl := mkC { c_id : ident; c_advp : bytes; c_ad : bytes; c_sr : bytes; c_adv : bool; c_scanp : bytes; c_scan : bool; c_dup : bool;
  c_mask : Z; c_lemask : Z; c_create : option bytes; c_conns : nat }.
(** after a reset *)
Definition fresh (i : ident) : ctl := mkC i [] [] [] false [] false true 0x00001FFFFFFFFFFF 0x1F None 0.
Definition op_of (p : bytes) : Z := nth 1 p 0 + 256 * nth 2 p 0.
Definition args_of (p : bytes) : bytes := skipn 4 p.
Definition counted (d : bytes) : bytes := match d with [] => [] | l :: r => firstn (Z.to_nat l) r end.
(** an accepted command *)
Definition effect (k : ctl) (p : bytes) : ctl :=
  let op := op_of p in let a := args_of p in
  if op =? 0x0C03 then fresh (c_id k)                                                                                                         (* Reset *)
  else if op =? 0x0C01 then mkC (c_id k) (c_advp k) (c_ad k) (c_sr k) (c_adv k) (c_scanp k) (c_scan k) (c_dup k) (le_val a) (c_lemask k) (c_create k) (c_conns k)  (* Set Event Mask *)
  else if op =? 0x2001 then mkC (c_id k) (c_advp k) (c_ad k) (c_sr k) (c_adv k) (c_scanp k) (c_scan k) (c_dup k) (c_mask k) (le_val a) (c_create k) (c_conns k)    (* LE Set Event Mask *)
  else if op =? 0x2006 then mkC (c_id k) a (c_ad k) (c_sr k) (c_adv k) (c_scanp k) (c_scan k) (c_dup k) (c_mask k) (c_lemask k) (c_create k) (c_conns k)           (* LE Set Advertising Parameters *)
  else if op =? 0x2008 then mkC (c_id k) (c_advp k) (counted a) (c_sr k) (c_adv k) (c_scanp k) (c_scan k) (c_dup k) (c_mask k) (c_lemask k) (c_create k) (c_conns k)  (* LE Set Advertising Data *)
  else if op =? 0x2009 then mkC (c_id k) (c_advp k) (c_ad k) (counted a) (c_adv k) (c_scanp k) (c_scan k) (c_dup k) (c_mask k) (c_lemask k) (c_create k) (c_conns k)  (* LE Set Scan Response Data *)
  else if op =? 0x200A then mkC (c_id k) (c_advp k) (c_ad k) (c_sr k) (nth 0 a 0 =? 1) (c_scanp k) (c_scan k) (c_dup k) (c_mask k) (c_lemask k) (c_create k) (c_conns k)  (* LE Set Advertising Enable *)
  else if op =? 0x200B then mkC (c_id k) (c_advp k) (c_ad k) (c_sr k) (c_adv k) a (c_scan k) (c_dup k) (c_mask k) (c_lemask k) (c_create k) (c_conns k)             (* LE Set Scan Parameters *)
  else if op =? 0x200C then mkC (c_id k) (c_advp k) (c_ad k) (c_sr k) (c_adv k) (c_scanp k) (nth 0 a 0 =? 1) (nth 1 a 0 =? 1) (c_mask k) (c_lemask k) (c_create k) (c_conns k) (* LE Set Scan Enable *)
  else if op =? 0x200D then mkC (c_id k) (c_advp k) (c_ad k) (c_sr k) (c_adv k) (c_scanp k) (c_scan k) (c_dup k) (c_mask k) (c_lemask k) (Some a) (c_conns k)        (* LE Create Connection *)
  else k.
(** commands that must be refused: parameters of what is going on *)
Definition disallowed (k : ctl) (p : bytes) : bool := ((op_of p =? 0x2006) && c_adv k) || ((op_of p =? 0x200B) && c_scan k).
Definition le2 (z : Z) : bytes := [z mod 256; z / 256].
(** what is returned after the status *)
Definition info (i : ident) (p : bytes) : bytes :=
  if op_of p =? 0x1009 then i_addr i                                                                    (* Read BD_ADDR *)
  else if op_of p =? 0x1005 then le2 (i_acl_len i) ++ [0] ++ le2 (i_acl_num i) ++ [0; 0]                (* Read Buffer Size *)
  else if op_of p =? 0x2002 then le2 (i_le_len i) ++ [i_le_num i]                                       (* LE Read Buffer Size *)
  else if op_of p =? 0x2007 then [i_power i]                                                            (* LE Read Advertising Physical Channel Tx Power *)
  else [].
(** A controller: it may refuse any command (any non-zero status, nothing changes) and an answer may be lost; what it accepts it carries out. *)
Definition conforming (step : ctl -> bytes -> ctl * option bytes) : Prop := forall k p k' r, step k p = (k', r) ->
  match r with
  | Some (st :: rest) => if st =? 0 then k' = effect k p /\ disallowed k p = false /\ rest = info (c_id k) p else k' = k
  | Some [] => False
  | None => k' = k \/ k' = effect k p
  end.
(** one that accepts whatever the specification does not forbid *)
Definition willing (step : ctl -> bytes -> ctl * option bytes) : Prop := forall k p, disallowed k p = false -> step k p = (effect k p, Some (0 :: info (c_id k) p)).

(** Records as long as they fit an advertising packet *)
Definition fits (rs : list rec) : Prop := (length (enc rs) <= 31)%nat.
(** AdvertiseNameAndServices: the flags, as many of the UUIDs (in order) as fit, and the name, in the scan response if there is no more room
    (dropped if it is longer than 29 bytes) *)
Definition total_len (us : list bytes) : nat := list_sum (map (@length Z) us).
Definition names_payload (name : bytes) (us : list bytes) (ad sr : bytes) : Prop :=
  exists us1 us2 base, us = us1 ++ us2 /\
    base = enc ((1, [6]) :: map (fun u => (uuid_type (Nat.leb (5 + total_len us) 31) u, u)) us1) /\ (length base <= 31)%nat /\
    (forall u r, us2 = u :: r -> (31 < length base + length u + 2)%nat) /\
    (if Nat.leb (length base + length name + 2) 31 then ad = base ++ enc [(9, name)] /\ sr = []
     else ad = base /\ sr = if Nat.leb (length name) 29 then enc [(9, name)] else []).
(** Advertise: additionally manufacturer data of company 1337, in the scan response if there is no room, dropped if there is none either *)
Definition with_mfg (md ad0 sr0 ad sr : bytes) : Prop :=
  let m := enc [(255, two 1337 ++ md)] in
  if Nat.leb (length ad0 + length m) 31 then ad = ad0 ++ m /\ sr = sr0
  else ad = ad0 /\ sr = if Nat.leb (length sr0 + length m) 31 then sr0 ++ m else sr0.

(** What a call asks to be advertised (advertising data, scan response), and the calls that are refused because that does not fit *)
Definition asked (c : acall) (ad sr : bytes) : Prop :=
  (length ad <= 31)%nat /\ (length sr <= 31)%nat /\
  match c with
  | ANames name us => names_payload name us ad sr
  | AAdv name us None => names_payload name us ad sr
  | AAdv name us (Some md) => exists ad0 sr0, names_payload name us ad0 sr0 /\ with_mfg md ad0 sr0 ad sr
  | AMfg id md => ad = enc [(255, two id ++ md)] /\ sr = []
  | ASvc16 id b => ad = enc [(3, two id); (22, two id ++ b)] /\ sr = []
  | AIBeaconData md => ad = enc [(255, [76; 0] ++ md)] /\ sr = []
  | AIBeacon u major minor pwr => length u = 16%nat /\ ad = enc [(255, [76; 0; 2; 21] ++ rev u ++ two_be major ++ two_be minor ++ [pwr mod 256])] /\ sr = []
  | ARaw a s _ => ad = a /\ sr = s
  end.
Definition refused (c : acall) : Prop :=
  match c with
  | ANames _ _ | AAdv _ _ _ => False
  | AMfg id md => ~ fits [(255, two id ++ md)]
  | ASvc16 id b => ~ fits [(3, two id); (22, two id ++ b)]
  | AIBeaconData md => ~ fits [(255, [76; 0] ++ md)]
  | AIBeacon u _ _ _ => length u <> 16%nat
  | ARaw a s _ => (31 < length a)%nat \/ (31 < length s)%nat
  end.
(** parameter structs as the specification orders their fields *)
Definition int_of (p : sval) (f : string) (n : nat) : bytes := match p f with GInt z => le_bytes n z | GBytes b => b end.
Definition adv_fields : list (string * ftype) := [("AdvertisingIntervalMin", FUint 2); ("AdvertisingIntervalMax", FUint 2); ("AdvertisingType", FUint 1);
  ("OwnAddressType", FUint 1); ("DirectAddressType", FUint 1); ("DirectAddress", FArr 6); ("AdvertisingChannelMap", FUint 1); ("AdvertisingFilterPolicy", FUint 1)]%string.
Definition scan_fields : list (string * ftype) := [("LEScanType", FUint 1); ("LEScanInterval", FUint 2); ("LEScanWindow", FUint 2); ("OwnAddressType", FUint 1); ("ScanningFilterPolicy", FUint 1)]%string.
Definition conn_fields : list (string * ftype) := [("LEScanInterval", FUint 2); ("LEScanWindow", FUint 2); ("InitiatorFilterPolicy", FUint 1); ("PeerAddressType", FUint 1);
  ("PeerAddress", FArr 6); ("OwnAddressType", FUint 1); ("ConnIntervalMin", FUint 2); ("ConnIntervalMax", FUint 2); ("ConnLatency", FUint 2); ("SupervisionTimeout", FUint 2);
  ("MinimumCELength", FUint 2); ("MaximumCELength", FUint 2)]%string.
Definition body (fs : list (string * ftype)) (p : sval) : bytes := flat_map (fun f => int_of p (fst f) (fsize (snd f))) fs.
(** the parameters with which a call advertises, when [p] is configured *)
Definition params_for (c : acall) (p : sval) : sval := match c with ARaw _ _ q => q | _ => p end.
Definition call_ok (c : acall) : Prop := match c with ARaw _ _ p => struct_value adv_fields p | _ => True end.

(** What a device does over its life, after it was set up: the calls, and connections accepted as peripheral (the controller then stops advertising)
    that begin and end.  [lived step h0 k0 l h k]: from (h0, k0), doing l led to (h, k). *)
Inductive hop := HAdv (c : acall) | HStop | HScan (dup : bool) | HStopScan | HDial (a : bytes) (rnd : bool) | HConnected | HDisconnected (isopen : bool).
Definition conns (k : ctl) (adv : bool) (n : nat) : ctl := mkC (c_id k) (c_advp k) (c_ad k) (c_sr k) adv (c_scanp k) (c_scan k) (c_dup k) (c_mask k) (c_lemask k) (c_create k) n.
Definition connected (k : ctl) : ctl := conns k false (S (c_conns k)).
Definition disconnected (k : ctl) : ctl := conns k (c_adv k) (c_conns k - 1).
Definition run_hop (step : ctl -> bytes -> ctl * option bytes) (h : host) (k : ctl) (o : hop) : go (host * ctl * bool) :=
  match o with
  | HAdv c => run_acall step h k c
  | HStop => stop_advertising step h k
  | HScan d => scan step h k d
  | HStopScan => stop_scanning step h k
  | HDial a rnd => dial step h k a rnd
  | HConnected => let! (h, k) := peripheral_connected step h (connected k) in Ret (h, k, true)
  | HDisconnected b => let! (h, k) := peripheral_disconnected step b h (disconnected k) in Ret (h, k, true)
  end.
Definition hop_ok (o : hop) : Prop := match o with HAdv c => call_ok c | HDial a _ => all_bytes a | _ => True end.
Inductive lived (step : ctl -> bytes -> ctl * option bytes) : host -> ctl -> list hop -> host -> ctl -> Prop :=
| lv_start : forall h k, lived step h k [] h k
| lv_step : forall h0 k0 l h k o h' k' ok, lived step h0 k0 l h k -> hop_ok o -> run_hop step h k o = Ret (h', k', ok) -> lived step h0 k0 (l ++ [o]) h' k'.
(** A device that was set up: any options, any controller *)
Definition opt_ok (o : opt) : Prop := match o with OAdvParams p => struct_value adv_fields p | OScanParams p => struct_value scan_fields p | OConnParams p => struct_value conn_fields p | _ => True end.
Definition set_up (step : ctl -> bytes -> ctl * option bytes) (i : ident) (opts : list opt) (h : host) (k : ctl) : Prop :=
  Forall opt_ok opts /\ exists h0 ok, options new_host true opts = (h0, ok) /\ init_host step h0 (fresh i) = Ret (h, k, true).
(** the advertising parameters in force: those given last, in an option or a raw advertising call, or the defaults *)
Definition adv_params (opts : list opt) (l : list hop) : sval :=
  fold_left (fun p o => match o with HAdv (ARaw _ _ q) => q | _ => p end) l
    (fold_left (fun p o => match o with OAdvParams q => q | _ => p end) opts (h_advp new_host)).
Definition scan_params (opts : list opt) : sval := fold_left (fun p o => match o with OScanParams q => q | _ => p end) opts (h_scanp new_host).
Definition conn_params (opts : list opt) : sval := fold_left (fun p o => match o with OConnParams q => q | _ => p end) opts (h_connp new_host).
(** a device that was set up with [opts] and then did [l] *)
Definition after (step : ctl -> bytes -> ctl * option bytes) (i : ident) (opts : list opt) (l : list hop) (h : host) (k : ctl) : Prop :=
  exists h0 k0, set_up step i opts h0 k0 /\ lived step h0 k0 l h k.
(** events: bit of the event mask (Vol 4, Part E, 7.3.1) and of the LE event mask (7.8.1) *)
Definition event_bits : list (Z * Z) := [(0x05, 4); (0x08, 7); (0x30, 47); (0x3E, 61)].   (* Disconnection Complete, Encryption Change, Encryption Key Refresh Complete, LE Meta *)
Definition le_event_bits : list (Z * Z) := [(1, 0); (2, 1); (3, 2); (5, 4)].               (* Connection Complete, Advertising Report, Connection Update Complete, Long Term Key Request *)
