(** Model of linux/hci/coc.go, signal.go and signal_gen.go: L2CAP signaling and LE credit based channels of one connection.
    [w] says which PDU writes succeed (a function of what was written before).  The methods run atomically except where they wait:
    opening a channel is KOpen (request sent) and KFinish (answer or 2 s timeout), sending an SDU is KSend and then alternating KCredit
    (one attempt to get a credit) and KFrame.  A subscriber that empties its full channel within 5 s is a KTake before the KIncoming.
    Not modelled: logging, texts of errors, the fragmentation by writePDU (M_l2cap), times. *)
Require Import Verif.Base Verif.M_attsrv Verif.M_gattcli.

(** signal_gen.go: the signaling structures *)
Inductive sigm :=
| SReject (reason : Z) (data : bytes)                    (* 12-15 *)
| SConnReq (psm scid : Z)                                (* 36-39 *)
| SConnRsp (dcid scid mtu result status : Z)             (* 60-66 *)
| SDisReq (dcid scid : Z)                                (* 87-90 *)
| SDisRsp (dcid scid : Z)                                (* 111-114 *)
| SParReq (imin imax latency timeout : Z)                (* 135-140 *)
| SParRsp (result : Z)                                   (* 161-163 *)
| SCocReq (psm scid mtu mps credits : Z)                 (* 184-190 *)
| SCocRsp (dcid mtu mps credits result : Z)              (* 211-217 *)
| SCredit (cid credits : Z)                              (* 238-241 *)
| SEcReq (spsm mtu mps credits scid : Z)                 (* 262-268 *)
| SEcRsp (mtu mps credits result dcid : Z).              (* 289-295 *)
(** the Code() methods *)
Definition sig_code (m : sigm) : Z :=
  match m with SReject _ _ => 1 | SConnReq _ _ => 2 | SConnRsp _ _ _ _ _ => 3 | SDisReq _ _ => 6 | SDisRsp _ _ => 7 | SParReq _ _ _ _ => 18 | SParRsp _ => 19
  | SCocReq _ _ _ _ _ => 20 | SCocRsp _ _ _ _ _ => 21 | SCredit _ _ => 22 | SEcReq _ _ _ _ _ => 23 | SEcRsp _ _ _ _ _ => 24 end.
(** the uint16 fields in declaration order; None: encoding/binary refuses a struct with a slice field *)
Definition sig_fields (m : sigm) : option (list Z) :=
  match m with
  | SReject _ _ => None | SConnReq a b => Some [a; b] | SConnRsp a b c d e => Some [a; b; c; d; e] | SDisReq a b => Some [a; b] | SDisRsp a b => Some [a; b]
  | SParReq a b c d => Some [a; b; c; d] | SParRsp a => Some [a] | SCocReq a b c d e => Some [a; b; c; d; e] | SCocRsp a b c d e => Some [a; b; c; d; e]
  | SCredit a b => Some [a; b] | SEcReq a b c d e => Some [a; b; c; d; e] | SEcRsp a b c d e => Some [a; b; c; d; e]
  end.
(** the Marshal() methods, e.g. signal_gen.go:21-25; the error of binary.Write is dropped *)
Definition sig_marshal (m : sigm) : bytes := match sig_fields m with None => [] | Some l => flat_map le16 l end.
(** binary.Read of n uint16 fields: an error when the data is short, more data is ignored *)
Fixpoint get_fields (n : nat) (b : bytes) : option (list Z) :=
  match n with
  | O => Some []
  | S n' => match b with x :: y :: r => match get_fields n' r with Some l => Some (de16 x y :: l) | None => None end | _ => None end
  end.
(** the Unmarshal methods, e.g. signal_gen.go:28-30, by code *)
Definition sig_unmarshal (code : Z) (b : bytes) : option sigm :=
  match code with
  | 2 => match get_fields 2 b with Some [a; b] => Some (SConnReq a b) | _ => None end
  | 3 => match get_fields 5 b with Some [a; b; c; d; e] => Some (SConnRsp a b c d e) | _ => None end
  | 6 => match get_fields 2 b with Some [a; b] => Some (SDisReq a b) | _ => None end
  | 7 => match get_fields 2 b with Some [a; b] => Some (SDisRsp a b) | _ => None end
  | 18 => match get_fields 4 b with Some [a; b; c; d] => Some (SParReq a b c d) | _ => None end
  | 19 => match get_fields 1 b with Some [a] => Some (SParRsp a) | _ => None end
  | 20 => match get_fields 5 b with Some [a; b; c; d; e] => Some (SCocReq a b c d e) | _ => None end
  | 21 => match get_fields 5 b with Some [a; b; c; d; e] => Some (SCocRsp a b c d e) | _ => None end
  | 22 => match get_fields 2 b with Some [a; b] => Some (SCredit a b) | _ => None end
  | 23 => match get_fields 5 b with Some [a; b; c; d; e] => Some (SEcReq a b c d e) | _ => None end
  | 24 => match get_fields 5 b with Some [a; b; c; d; e] => Some (SEcRsp a b c d e) | _ => None end
  | _ => None
  end.
(** signal.go:37-58, 106-126: length, channel 5, code, identifier, length, payload *)
Definition sig_pdu (code id : Z) (data : bytes) : bytes :=
  le16 (u16 (Z.of_nat (4 + length data))) ++ le16 5 ++ [u8 code; id] ++ le16 (u16 (Z.of_nat (length data))) ++ data.
(** signal.go:21-26 *)
Definition sc_code (s : bytes) : go Z := gidx s 0.
Definition sc_id (s : bytes) : go Z := gidx s 1.
Definition sc_len (s : bytes) : go nat := let! t := gslice s 2 4 in let! n := gle16 t in Ret (Z.to_nat n).
Definition sc_data (s : bytes) : go bytes := let! n := sc_len s in gslice s 4 (4 + n).

(** coc.go:22-33 *)
Record coi := mkCI { ci_local : Z; ci_remote : Z; ci_credits : Z; ci_mtu : Z; ci_mps : Z; ci_chan : option nat; ci_rx : option (Z * bytes) }.
(** a call of Open that waits for its answer: the identifier of its request, its channel identifier, what was delivered to it *)
Record waiter := mkW { w_id : Z; w_local : Z; w_rsp : option bytes; w_done : bool }.
(** a call of Send: channel, MPS and SDU size read at the start, what is left, a frame that has its credit, failed attempts *)
Record sender := mkSd { sd_cid : Z; sd_mps : Z; sd_total : Z; sd_rest : bytes; sd_have : option bytes; sd_tries : nat; sd_done : bool }.
Record cst := mkC { c_next : Z; c_lut : list (Z * coi); c_sig : Z; c_pend : list (Z * nat); c_wait : list waiter; c_send : list sender;
  c_chans : list (list bytes * bool);   (* subscriber channels: contents, open *)
  c_log : list bytes;                   (* L2CAP PDUs written *)
  c_hci : list (list Z) }.              (* LE Connection Update commands *)
Definition set_next x s := mkC x (c_lut s) (c_sig s) (c_pend s) (c_wait s) (c_send s) (c_chans s) (c_log s) (c_hci s).
Definition set_lut x s := mkC (c_next s) x (c_sig s) (c_pend s) (c_wait s) (c_send s) (c_chans s) (c_log s) (c_hci s).
Definition set_sig x s := mkC (c_next s) (c_lut s) x (c_pend s) (c_wait s) (c_send s) (c_chans s) (c_log s) (c_hci s).
Definition set_pend x s := mkC (c_next s) (c_lut s) (c_sig s) x (c_wait s) (c_send s) (c_chans s) (c_log s) (c_hci s).
Definition set_wait x s := mkC (c_next s) (c_lut s) (c_sig s) (c_pend s) x (c_send s) (c_chans s) (c_log s) (c_hci s).
Definition set_send x s := mkC (c_next s) (c_lut s) (c_sig s) (c_pend s) (c_wait s) x (c_chans s) (c_log s) (c_hci s).
Definition set_chans x s := mkC (c_next s) (c_lut s) (c_sig s) (c_pend s) (c_wait s) (c_send s) x (c_log s) (c_hci s).
Definition set_log x s := mkC (c_next s) (c_lut s) (c_sig s) (c_pend s) (c_wait s) (c_send s) (c_chans s) x (c_hci s).
Definition set_hci x s := mkC (c_next s) (c_lut s) (c_sig s) (c_pend s) (c_wait s) (c_send s) (c_chans s) (c_log s) x.
(** coc.go:44-51 NewCoc, conn.go:110 *)
Definition coc_new : cst := mkC 64 [] 0 [] [] [] [] [] [].
Notation writes := (list bytes -> bool).
(** conn.go:328-391 writePDU as seen by its callers: the PDU goes out, or an error *)
Definition put_pdu (w : writes) (s : cst) (p : bytes) : cst * bool := if w (c_log s) then (set_log (c_log s ++ [p]) s, true) else (s, false).

(** coc.go:53-68 NextSourceCID; nextSrcCID++ of a uint16 *)
Definition next_cid (s : cst) : cst * option Z :=
  if (c_next s >? 65535) || (c_next s <? 64) then (s, None) else (set_next (u16 (c_next s + 1)) s, Some (c_next s)).
(** signal.go:31-34 *)
Definition next_sig (x : Z) : Z := let y := u8 (x + 1) in if y =? 0 then 1 else y.
(** signal.go:104-127 sendResponse; its callers ignore the result *)
Definition send_response (w : writes) (s : cst) (id : Z) (m : sigm) : cst := fst (put_pdu w s (sig_pdu (sig_code m) id (sig_marshal m))).
(** signal.go:29-79 Signal with no response expected *)
Definition signal_only (w : writes) (s : cst) (m : sigm) : cst :=
  let s := set_sig (next_sig (c_sig s)) s in fst (put_pdu w s (sig_pdu (sig_code m) (c_sig s) (sig_marshal m))).
(** coc.go:70-89 Open up to the wait in Signal (signal.go:29-79): Some k = waiting as number k *)
Definition open_start (w : writes) (s : cst) (psm : Z) : cst * option nat :=
  match next_cid s with
  | (s, None) => (s, None)
  | (s, Some cid) =>
      let s := set_sig (next_sig (c_sig s)) s in
      let k := length (c_wait s) in
      let s := set_pend (aset (c_pend s) (c_sig s) k) s in
      let m := SCocReq psm cid 64 64 2 in
      match put_pdu w s (sig_pdu (sig_code m) (c_sig s) (sig_marshal m)) with
      | (s, true) => (set_wait (c_wait s ++ [mkW (c_sig s) cid None false]) s, Some k)
      | (s, false) => (set_pend (adel (c_pend s) (c_sig s)) s, None)
      end
  end.
(** coc.go:103-122 addChannel: None = already open *)
Definition add_channel (s : cst) (local remote credits mtu mps : Z) : option cst :=
  match aget (c_lut s) remote with
  | Some _ => None
  | None => Some (set_lut (aset (c_lut s) remote (mkCI local remote credits mtu mps None None)) s)
  end.
(** signal.go:82-101 and coc.go:86-100: the waiting Open goes on, with the answer it was given or with the timeout; remote CID or error *)
Definition open_finish (s : cst) (k : nat) : go (cst * option Z) :=
  match nth_error (c_wait s) k with
  | None => Ret (s, None)
  | Some wt =>
      if w_done wt then Ret (s, None) else
      let s' := set_pend (adel (c_pend s) (w_id wt)) (set_wait (upd (c_wait s) k (mkW (w_id wt) (w_local wt) (w_rsp wt) true)) s) in
      match w_rsp wt with
      | None => Ret (s', None)
      | Some b =>
          let! code := sc_code b in
          if negb (code =? 21) then Ret (s', None) else
          let! id := sc_id b in
          if negb (id =? c_sig s) then Ret (s', None) else
          let! d := sc_data b in
          match sig_unmarshal 21 d with
          | Some (SCocRsp dcid mtu mps credits result) =>
              if negb (result =? 0) then Ret (s', None) else
              match add_channel s' (w_local wt) dcid credits mtu mps with None => Ret (s', None) | Some s'' => Ret (s'', Some dcid) end
          | _ => Ret (s', None)
          end
      end
  end.

(** coc.go:142-150 lookupLocalCID: a copy of the first match *)
Fixpoint find_local (m : list (Z * coi)) (l : Z) : option coi :=
  match m with [] => None | (_, i) :: r => if ci_local i =? l then Some i else find_local r l end.
Definition close_chan (s : cst) (ch : option nat) : cst :=
  match ch with None => s | Some n => match nth_error (c_chans s) n with None => s | Some (q, _) => set_chans (upd (c_chans s) n (q, false)) s end end.
(** coc.go:124-139 CloseChannel *)
Definition close_channel (s : cst) (cid : Z) : cst * bool :=
  match aget (c_lut s) cid with None => (s, false) | Some i => (set_lut (adel (c_lut s) cid) (close_chan s (ci_chan i)), true) end.
(** coc.go:152-169 Subscribe *)
Definition coc_subscribe (s : cst) (local : Z) : cst * option nat :=
  match find_local (c_lut s) local with
  | None => (s, None)
  | Some i => match ci_chan i with
              | Some _ => (s, None)
              | None => let n := length (c_chans s) in
                  (set_lut (aset (c_lut s) (ci_remote i) (mkCI (ci_local i) (ci_remote i) (ci_credits i) (ci_mtu i) (ci_mps i) (Some n) (ci_rx i))) (set_chans (c_chans s ++ [([], true)]) s), Some n)
              end
  end.
(** coc.go:171-187 Unsubscribe *)
Definition coc_unsubscribe (s : cst) (local : Z) : cst * bool :=
  match find_local (c_lut s) local with
  | None => (s, false)
  | Some i => (set_lut (aset (c_lut s) (ci_remote i) (mkCI (ci_local i) (ci_remote i) (ci_credits i) (ci_mtu i) (ci_mps i) None (ci_rx i))) (close_chan s (ci_chan i)), true)
  end.
(** coc.go:212-235 unsafeModifyCredits *)
Definition modify_credits (s : cst) (cid n : Z) (add : bool) : cst * bool :=
  match aget (c_lut s) cid with
  | None => (s, false)
  | Some v =>
      let store x := (set_lut (aset (c_lut s) cid (mkCI (ci_local v) (ci_remote v) x (ci_mtu v) (ci_mps v) (ci_chan v) (ci_rx v))) s, true) in
      if add then (if ci_credits v + n >? 65535 then (s, false) else store (u16 (ci_credits v + n)))
      else (if n >? ci_credits v then (s, false) else store (u16 (ci_credits v - n)))
  end.
(** the send to a subscriber: 8 places (coc.go:17); a full or nil channel times out; a closed one panics *)
Definition push_chan (s : cst) (ch : option nat) (b : bytes) : go (cst * bool) :=
  match ch with
  | None => Ret (s, false)
  | Some n => match nth_error (c_chans s) n with
              | None => Ret (s, false)
              | Some (q, true) => if Nat.ltb (length q) 8 then Ret (set_chans (upd (c_chans s) n (q ++ [b], true)) s, true) else Ret (s, false)
              | Some (_, false) => Panic
              end
  end.
(** coc.go:237-299 recieve; [i] is a copy, so the transaction started here is lost when the SDU is not complete *)
Definition coc_receive (w : writes) (s : cst) (cid : Z) (data : bytes) : go (cst * bool) :=
  match find_local (c_lut s) cid with
  | None => Ret (s, false)
  | Some i =>
      let! (size, buf) :=
        match ci_rx i with
        | Some (n, b) => Ret (n, b ++ data)
        | None => let! n := gle16 data in let! r := gfrom data 2 in Ret (n, r)
        end in
      let! (s1, ok) :=
        if Z.of_nat (length buf) >=? size then
          if Z.of_nat (length buf) >? size then push_chan s (ci_chan i) buf
          else match ci_chan i with Some _ => push_chan s (ci_chan i) buf | None => Ret (s, true) end
        else Ret (s, true) in
      Ret (signal_only w s1 (SCredit cid 1), ok)
  end.

(** signal.go:195-229 handleDisconnectRequest; both PutUint16 write to the same place *)
Definition handle_disconnect (w : writes) (s : cst) (b : bytes) : go cst :=
  let! d := sc_data b in
  match sig_unmarshal 6 d with
  | Some (SDisReq dcid scid) =>
      let! id := sc_id b in
      if negb (dcid =? 4) then Ret (send_response w s id (SReject 2 (le16 dcid ++ [0; 0])))
      else if negb (scid =? 4) then Ret s
      else Ret (send_response w s id (SDisRsp dcid scid))
  | _ => Ret s
  end.
(** signal.go:232-277; [master] is c.param.Role() == roleMaster *)
Definition handle_param_update (w : writes) (master : bool) (s : cst) (b : bytes) : go cst :=
  if negb master then let! id := sc_id b in Ret (send_response w s id (SReject 0 []))
  else
    let! d := sc_data b in
    match sig_unmarshal 18 d with
    | Some (SParReq a b' c t) => let! id := sc_id b in Ret (send_response w (set_hci (c_hci s ++ [[a; b'; c; t; 0; 0]]) s) id (SParRsp 0))
    | _ => Ret s
    end.
(** signal.go:286-300 *)
Definition handle_credit (s : cst) (b : bytes) : go cst :=
  let! d := sc_data b in
  match sig_unmarshal 22 d with Some (SCredit cid n) => Ret (fst (modify_credits s cid n true)) | _ => Ret s end.
(** signal.go:171-188 the default case: hand over to whoever waits for this identifier, or reject *)
Definition handle_other (w : writes) (s : cst) (b : bytes) : go cst :=
  let! id := sc_id b in
  match aget (c_pend s) id with
  | Some k => match nth_error (c_wait s) k with
              | None => Ret (set_pend (adel (c_pend s) id) s)
              | Some wt => Ret (set_pend (adel (c_pend s) id) (set_wait (upd (c_wait s) k (mkW (w_id wt) (w_local wt) (Some b) (w_done wt))) s))
              end
  | None => Ret (send_response w s id (SReject 0 []))
  end.
(** signal.go:156-190 one command *)
Definition handle_cmd (w : writes) (master : bool) (s : cst) (b : bytes) : go cst :=
  let! code := sc_code b in
  match code with
  | 6 => handle_disconnect w s b
  | 18 => handle_param_update w master s b
  | 20 => Ret s
  | 22 => handle_credit s b
  | _ => handle_other w s b
  end.
(** signal.go:156-193 the loop; every round takes at least 4 bytes *)
Fixpoint sig_loop (n : nat) (w : writes) (master : bool) (s : cst) (b : bytes) : go cst :=
  match n, b with
  | S n', _ :: _ =>
      let! s := handle_cmd w master s b in
      let! l := sc_len b in let! r := gfrom b (4 + l) in
      sig_loop n' w master s r
  | _, _ => Ret s
  end.
(** signal.go:133-193 handleSignal of a PDU with header; sigRxMTU is MaxMTU = 515 (conn.go:100, const.go) *)
Definition handle_signal (w : writes) (master : bool) (s : cst) (p : bytes) : go cst :=
  let! h := gslice p 0 2 in let! dlen := gle16 h in
  let! b := gfrom p 4 in
  if dlen >? 515 then let! id := sc_id b in Ret (send_response w s id (SReject 1 (le16 515)))
  else
    let! _ := sc_code b in let! _ := sc_id b in   (* the arguments of the Debugf at 155 *)
    sig_loop (length b) w master s b.

(** coc.go:311-329 send up to the loop *)
Definition send_start (s : cst) (cid : Z) (data : bytes) : cst * option nat :=
  match aget (c_lut s) cid with
  | None => (s, None)
  | Some i => if ci_mps i <=? 2 then (s, None)
              else (set_send (c_send s ++ [mkSd cid (ci_mps i) (Z.of_nat (length data)) data None 0 false]) s, Some (length (c_send s)))
  end.
Definition upd_sd (s : cst) (k : nat) (x : sender) : cst := set_send (upd (c_send s) k x) s.
(** coc.go:337-364 read a chunk, one attempt of the credit loop; outcome: None = go on, Some r = Send returned *)
Definition send_credit (s : cst) (k : nat) : cst * option bool :=
  match nth_error (c_send s) k with
  | None => (s, None)
  | Some d =>
      if sd_done d then (s, None) else
      match sd_have d, sd_rest d with
      | Some _, _ => (s, None)
      | None, [] => (upd_sd s k (mkSd (sd_cid d) (sd_mps d) (sd_total d) [] None 0 true), Some true)
      | None, _ =>
          match modify_credits s (sd_cid d) 1 false with
          | (s', true) => let n := Z.to_nat (sd_mps d - 2) in
              (upd_sd s' k (mkSd (sd_cid d) (sd_mps d) (sd_total d) (skipn n (sd_rest d)) (Some (firstn n (sd_rest d))) 0 false), None)
          | (_, false) => if Nat.ltb (sd_tries d) 9 then (upd_sd s k (mkSd (sd_cid d) (sd_mps d) (sd_total d) (sd_rest d) None (S (sd_tries d)) false), None)
              else (upd_sd s k (mkSd (sd_cid d) (sd_mps d) (sd_total d) (sd_rest d) None 10 true), Some false)
          end
      end
  end.
(** coc.go:366-387: PDU length, channel, SDU length, payload *)
Definition coc_frame (cid total : Z) (chunk : bytes) : bytes := le16 (u16 (2 + Z.of_nat (length chunk))) ++ le16 cid ++ le16 (u16 total) ++ chunk.
(** coc.go:389-398 write the frame *)
Definition send_frame (w : writes) (s : cst) (k : nat) : cst * option bool :=
  match nth_error (c_send s) k with
  | None => (s, None)
  | Some d =>
      match sd_have d with
      | None => (s, None)
      | Some chunk =>
          match put_pdu w s (coc_frame (sd_cid d) (sd_total d) chunk) with
          | (s', true) => (upd_sd s' k (mkSd (sd_cid d) (sd_mps d) (sd_total d) (sd_rest d) None 0 (sd_done d)), None)
          | (s', false) => (upd_sd s' k (mkSd (sd_cid d) (sd_mps d) (sd_total d) (sd_rest d) None 0 true), Some false)
          end
      end
  end.

(** everything that can happen on the connection *)
Inductive kop := KOpen (psm : Z) | KFinish (k : nat) | KIncoming (pdu : bytes) | KSubscribe (local : Z) | KUnsubscribe (local : Z) | KClose (remote : Z)
  | KTake (ch : nat) | KSend (remote : Z) (data : bytes) | KCredit (k : nat) | KFrame (k : nat).
Inductive kres := KOk | KErr | KWait (n : nat) | KOpened (remote : Z) | KChan (n : nat) | KData (b : bytes) | KClosed | KNone.
Definition ok_err (b : bool) : kres := if b then KOk else KErr.
Definition end_of (r : option bool) : kres := match r with None => KNone | Some b => ok_err b end.
(** conn.go:434-454 dispatches an incoming PDU by its channel *)
Definition kstep (w : writes) (master : bool) (s : cst) (o : kop) : go (cst * kres) :=
  match o with
  | KOpen psm => match open_start w s psm with (s', Some k) => Ret (s', KWait k) | (s', None) => Ret (s', KErr) end
  | KFinish k => let! (s', r) := open_finish s k in Ret (s', match r with Some c => KOpened c | None => KErr end)
  | KIncoming p =>
      let! h := gslice p 2 4 in let! cid := gle16 h in
      if cid =? 5 then let! s' := handle_signal w master s p in Ret (s', KNone)
      else if (64 <=? cid) && (cid <=? 65535) then let! b := gfrom p 4 in let! (s', ok) := coc_receive w s cid b in Ret (s', ok_err ok)
      else Ret (s, KNone)
  | KSubscribe l => match coc_subscribe s l with (s', Some n) => Ret (s', KChan n) | (s', None) => Ret (s', KErr) end
  | KUnsubscribe l => let (s', b) := coc_unsubscribe s l in Ret (s', ok_err b)
  | KClose r => let (s', b) := close_channel s r in Ret (s', ok_err b)
  | KTake n => match nth_error (c_chans s) n with
               | Some (b :: q, o) => Ret (set_chans (upd (c_chans s) n (q, o)) s, KData b)
               | Some ([], false) => Ret (s, KClosed)
               | _ => Ret (s, KNone)
               end
  | KSend r d => match send_start s r d with (s', Some k) => Ret (s', KWait k) | (s', None) => Ret (s', KErr) end
  | KCredit k => let (s', r) := send_credit s k in Ret (s', end_of r)
  | KFrame k => let (s', r) := send_frame w s k in Ret (s', end_of r)
  end.
