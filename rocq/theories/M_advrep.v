(** Model of linux/hci/evt/evt_werr.go (LE advertising report, command complete, completed packets),
    linux/hci/adv.go, linux/hci/adv_werr.go and handleLEAdvertisingReport of linux/hci/hci.go. *)
Require Import Verif.Base Verif.M_uuid Verif.M_adv.

(** [Ret None] is a returned error throughout. *)
Definition gopt (A : Type) := go (option A).
Definition obind {A B} (x : gopt A) (f : A -> gopt B) : gopt B :=
  match x with Ret (Some a) => f a | Ret None => Ret None | Panic => Panic end.
Notation "'let?' x := e 'in' k" := (obind e (fun x => k))
  (at level 200, x pattern, e at level 100, k at level 200, right associativity).

(** evt_werr.go:154-170 getBytes, count >= 0; start is never negative in the callers.
    A nil slice is the empty list: both return the index error. *)
Definition get_bytes (b : bytes) (start count : nat) : gopt bytes :=
  if Nat.leb (length b) start then Ret None
  else if Nat.ltb (length b) (start + count) then Ret None
  else let! r := gslice b start (start + count) in Ret (Some r).
(** evt_werr.go:162-164: count = -1 *)
Definition get_bytes_from (b : bytes) (start : nat) : gopt bytes :=
  if Nat.leb (length b) start then Ret None else let! r := gfrom b start in Ret (Some r).
(** evt_werr.go:137-143 getByte *)
Definition get_byte (b : bytes) (i : nat) : gopt Z :=
  let? bb := get_bytes b i 1 in let! x := gidx bb 0 in Ret (Some x).
(** evt_werr.go:146-152 getUint16LE *)
Definition get_u16 (b : bytes) (i : nat) : gopt Z :=
  let? bb := get_bytes b i 2 in let! x := gle16 bb in Ret (Some x).

(** evt_werr.go:8-17 CommandComplete *)
Definition cc_num_pkts (e : bytes) : gopt Z := get_byte e 0.
Definition cc_opcode (e : bytes) : gopt Z := get_u16 e 1.
Definition cc_params (e : bytes) : gopt bytes := get_bytes_from e 3.
(** evt_werr.go:28-38 NumberOfCompletedPackets *)
Definition ncp_handles (e : bytes) : gopt Z := get_byte e 0.
Definition ncp_handle (e : bytes) (i : nat) : gopt Z := get_u16 e (1 + i * 4).
Definition ncp_count (e : bytes) (i : nat) : gopt Z := get_u16 e (1 + i * 4 + 2).

(** evt_werr.go:43-49 *)
Definition num_reports (e : bytes) : gopt Z := get_byte e 1.
Definition event_type (e : bytes) (i : nat) : gopt Z := get_byte e (2 + i).
(** evt_werr.go:50-58 AddressTypeWErr *)
Definition address_type (e : bytes) (i : nat) : gopt Z :=
  let? nr := num_reports e in get_byte e (2 + Z.to_nat nr + i).
(** evt_werr.go:59-74 AddressWErr *)
Definition address (e : bytes) (i : nat) : gopt bytes :=
  let? nr := num_reports e in get_bytes e (2 + Z.to_nat nr * 2 + 6 * i) 6.
(** evt_werr.go:76-84 LengthDataWErr *)
Definition length_data (e : bytes) (i : nat) : gopt Z :=
  let? nr := num_reports e in get_byte e (2 + Z.to_nat nr * 8 + i).
(** evt_werr.go:92-101 / 121-129: sum of the data lengths of reports j, j+1, .., j+n-1 *)
Fixpoint sum_lengths (e : bytes) (j n : nat) : gopt nat :=
  match n with
  | O => Ret (Some 0%nat)
  | S n' => let? ll := length_data e j in let? r := sum_lengths e (S j) n' in Ret (Some (Z.to_nat ll + r)%nat)
  end.
(** evt_werr.go:86-113 DataWErr *)
Definition rep_data (e : bytes) (i : nat) : gopt bytes :=
  let? nr := num_reports e in
  let? l := sum_lengths e 0 i in
  let? ll := length_data e i in
  get_bytes e (2 + Z.to_nat nr * 9 + l) (Z.to_nat ll).
(** evt_werr.go:115-134 RSSIWErr *)
Definition rep_rssi (e : bytes) (i : nat) : gopt Z :=
  let? nr := num_reports e in
  let? l := sum_lengths e 0 (Z.to_nat nr) in
  let? r := get_byte e (2 + Z.to_nat nr * 9 + l + i) in
  Ret (Some (int8 r)).

(** linux/hci/adv.go:52-60 Advertisement (timestamp omitted); sr refers to another report without its own sr. *)
Record advert := mkAd { ad_e : bytes; ad_i : nat; ad_sr : option (bytes * nat); ad_pb : bytes; ad_pm : advmap }.

(** adv.go:29-48 newAdvertisement *)
Definition new_advertisement (e : bytes) (i : nat) : gopt advert :=
  let? d := rep_data e i in
  let? p := NewRawPacket [d] in
  Ret (Some (mkAd e i None (fst p) (snd p))).
(** adv.go:63-85 setScanResponse *)
Definition set_scan_response (a : advert) (sr : advert) : gopt advert :=
  let? d := rep_data (ad_e a) (ad_i a) in
  let? srd := rep_data (ad_e sr) (ad_i sr) in
  let? p := NewRawPacket [d; srd] in
  Ret (Some (mkAd (ad_e a) (ad_i a) (Some (ad_e sr, ad_i sr)) (fst p) (snd p))).

(** net.HardwareAddr.String: two lower-case hex digits per byte, ':' between *)
Fixpoint hw_string (b : bytes) : bytes :=
  match b with
  | [] => []
  | [x] => hex_encode [x]
  | x :: r => hex_encode [x] ++ [ch_colon] ++ hw_string r
  end.
(** adv_werr.go:76-92 addrWErr: (text, is random). b[5],...,b[0] of the 6-byte array = reversal. *)
Definition ad_addr (a : advert) : gopt (bytes * bool) :=
  let? b := address (ad_e a) (ad_i a) in
  let addr := new_addr (hw_string (rev b)) in
  let? t := address_type (ad_e a) (ad_i a) in
  Ret (Some (addr, t =? 1)).
(** adv_werr.go:61-69 connectableWErr, constants adv.go:22-26 *)
Definition ad_connectable (a : advert) : gopt bool :=
  let? t := event_type (ad_e a) (ad_i a) in Ret (Some ((t =? 1) || (t =? 0))).
(** adv.go:129-132 and siblings: the exported accessor drops the error and returns the zero value *)
Definition Connectable (a : advert) : go bool :=
  let! r := ad_connectable a in Ret (match r with Some b => b | None => false end).
(** adv_werr.go:71-74 *)
Definition ad_rssi (a : advert) : gopt Z := rep_rssi (ad_e a) (ad_i a).
(** adv_werr.go:102-104 / adv.go:163-166 Data *)
Definition ad_data (a : advert) : gopt bytes := rep_data (ad_e a) (ad_i a).
(** adv_werr.go:106-112 srDataWErr: reads a.e (not a.sr.e) at a.sr.i; nil when there is no scan response *)
Definition ad_sr_data (a : advert) : gopt bytes :=
  match ad_sr a with None => Ret (Some []) | Some (_, i) => rep_data (ad_e a) i end.
(** adv_werr.go:114-119 scanResponseWErr *)
Definition ad_scan_response (a : advert) : gopt bytes :=
  match ad_sr a with None => Ret (Some []) | Some (e, i) => rep_data e i end.
(** adv_werr.go:45-52 TxPowerLevel *)
Definition ad_tx_power_level (a : advert) : go Z :=
  let! r := pk_tx_power (ad_pm a) in Ret (match r with Some p => p | None => 0 end).
(** adv.go:233-239: the txPower entry of ToMap is int(bytes[0]) *)
Definition tomap_tx_power (a : advert) : go (option Z) :=
  match mget (ad_pm a) KTxpwr with Some (VBytes b) => let! x := gidx b 0 in Ret (Some x) | _ => Ret None end.

(** ---- hci.go handleLEAdvertisingReport ---- *)
(** hci.go:110-111 adHist, adLast; allocated by Scan (gap.go:35-36) with 128 empty slots. *)
Record hist_st := mkHist { ring : list (option advert); adlast : nat }.
Definition scan_start (n : nat) : hist_st := mkHist (repeat None n) 0.

(** hci.go:663-699 the search loop. [idx] is the Go index (possibly -1).
    Result: Ret (Some (position, updated advertisement)) when a scan response was attached, Ret None otherwise. *)
Fixpoint sr_search (r : list (option advert)) (last : nat) (sr : advert) (idx : Z) (fuel : nat)
  : gopt (nat * advert) :=
  match fuel with
  | O => Panic (* unreachable: proved *)
  | S f =>
      if idx =? Z.of_nat last then Ret None
      else
        let idx' := if idx =? -1 then Z.of_nat (length r) - 1 else idx in
        if (idx =? -1) && (idx' =? Z.of_nat last) then Ret None
        else
          let! slot := gidx r (Z.to_nat idx') in
          match slot with
          | None => Ret None
          | Some a =>
              let? ah := ad_addr a in
              let? asr := ad_addr sr in
              if beq_bytes (fst ah) (fst asr) then
                let? a' := set_scan_response a sr in Ret (Some (Z.to_nat idx', a'))
              else sr_search r last sr (idx' - 1) f
          end
  end.

(** hci.go:609-737 with a handler installed. Output: new state, advertisement passed to the handler. *)
Definition handle_adv_report (st : hist_st) (e : bytes) : go (hist_st * option advert) :=
  let! nr := num_reports e in
  match nr with
  | None => Ret (st, None)
  | Some n =>
    if negb (n =? 1) then Ret (st, None)
    else
      let! et := event_type e 0 in
      match et with
      | None => Ret (st, None)
      | Some t =>
        if (t =? 0) || (t =? 2) then
          let! a := new_advertisement e 0 in
          match a with
          | None => Ret (st, None)
          | Some a =>
              let! r' := gset (ring st) (adlast st) (Some a) in
              let l' := if Nat.eqb (S (adlast st)) (length r') then 0%nat else S (adlast st) in
              Ret (mkHist r' l', Some a)
          end
        else if t =? 4 then
          let! sr := new_advertisement e 0 in
          match sr with
          | None => Ret (st, None)
          | Some sr =>
              let! m := sr_search (ring st) (adlast st) sr (Z.of_nat (adlast st) - 1) (S (length (ring st))) in
              match m with
              | None => Ret (st, None)
              | Some (k, a') =>
                  let! r' := gset (ring st) k (Some a') in
                  Ret (mkHist r' (adlast st), Some a')
              end
          end
        else if (t =? 1) || (t =? 3) then
          let! a := new_advertisement e 0 in
          match a with
          | None => Ret (st, None)
          | Some a => Ret (st, Some a)
          end
        else Ret (st, None)
      end
  end.

(** a whole scan: reports processed in order; outputs in order *)
Fixpoint run_reports (st : hist_st) (es : list bytes) : go (hist_st * list (option advert)) :=
  match es with
  | [] => Ret (st, [])
  | e :: r =>
      let! x := handle_adv_report st e in
      let! y := run_reports (fst x) r in
      Ret (fst y, snd x :: snd y)
  end.
