(** Model of linux/att/server.go (request handling), the closures of db.go newCCCD, and handler.go's ResponseWriter.
    User handlers: [env c] is what the handler does on call [c] — the Write and SetStatus calls it makes on its ResponseWriter, in
    order.  The environment is a parameter of every request, so handlers may depend on anything.  Not modelled: handlers that panic,
    block or keep the data slice; logging. *)
Require Import Verif.Base Verif.M_uuid Verif.M_attdb.

(** error.go:20-39 *)
Definition e_success : Z := 0.
Definition e_invalid_handle : Z := 1.
Definition e_read_not_perm : Z := 2.
Definition e_write_not_perm : Z := 3.
Definition e_invalid_pdu : Z := 4.
Definition e_req_not_supp : Z := 6.
Definition e_attr_not_found : Z := 10.
Definition e_unlikely : Z := 14.

(** One call of a user handler: ServeRead(handle, offset) or ServeWrite(handle, data), and what it does with the ResponseWriter. *)
Inductive call := CRead (h : Z) (off : Z) | CWrite (h : Z) (data : bytes).
Inductive wop := WData (b : bytes) | WStatus (s : Z).
Notation env := (call -> list wop).
(** handler.go:94-139 responseWriter over a buffer of capacity [cap] (None = the nil buffer): contents and status *)
Fixpoint run_wops (cap : option nat) (l : list wop) (buf : bytes) (st : Z) : bytes * Z :=
  match l with
  | [] => (buf, st)
  | WStatus s :: r => run_wops cap r buf (u8 s)
  | WData b :: r =>
      match cap with
      | None => run_wops cap r buf st
      | Some n => if Nat.ltb (n - length buf) (length b) then run_wops cap r buf st else run_wops cap r (buf ++ b) st
      end
  end.

(** Maps keyed by handle (Go maps in server.go:16-18). *)
Fixpoint aget {V} (m : list (Z * V)) (k : Z) : option V :=
  match m with [] => None | (k', v) :: r => if k =? k' then Some v else aget r k end.
Fixpoint aset {V} (m : list (Z * V)) (k : Z) (v : V) : list (Z * V) :=
  match m with [] => [(k, v)] | (k', w) :: r => if k =? k' then (k', v) :: r else (k', w) :: aset r k v end.
Definition ccc_of (m : list (Z * Z)) (k : Z) : Z := match aget m k with Some v => v | None => 0 end.

(** A running or stopped notifier (handler.go:143-183): kind (true = indication), characteristic and value handle, user handler, context open. *)
Record notif := mkN { nt_ind : bool; nt_char : Z; nt_vh : Z; nt_handler : nat; nt_open : bool }.
(** server.go:13-41.  [txlen] = len(txBuf); notification and indication buffers are replaced together with it, their sizes are [notlen], [indlen]. *)
Record srv := mkSrv { s_db : dbt; txlen : nat; notlen : nat; indlen : nat; rxmtu : Z; ctxmtu : Z; crxmtu : Z;
  prep : option attr; prepdata : bytes; cccs : list (Z * Z); nn : list (Z * nat); inn : list (Z * nat); notifs : list notif }.
Definition set_mtu (s : srv) (tx : nat) (rx : Z) : srv :=
  mkSrv (s_db s) tx tx tx rx (Z.of_nat tx) rx (prep s) (prepdata s) (cccs s) (nn s) (inn s) (notifs s).
Definition set_prep (s : srv) (a : option attr) (d : bytes) : srv :=
  mkSrv (s_db s) (txlen s) (notlen s) (indlen s) (rxmtu s) (ctxmtu s) (crxmtu s) a d (cccs s) (nn s) (inn s) (notifs s).
Definition set_cccs (s : srv) (m : list (Z * Z)) : srv :=
  mkSrv (s_db s) (txlen s) (notlen s) (indlen s) (rxmtu s) (ctxmtu s) (crxmtu s) (prep s) (prepdata s) m (nn s) (inn s) (notifs s).
Definition set_nn (s : srv) (m : list (Z * nat)) (l : list notif) : srv :=
  mkSrv (s_db s) (txlen s) (notlen s) (indlen s) (rxmtu s) (ctxmtu s) (crxmtu s) (prep s) (prepdata s) (cccs s) m (inn s) l.
Definition set_inn (s : srv) (m : list (Z * nat)) (l : list notif) : srv :=
  mkSrv (s_db s) (txlen s) (notlen s) (indlen s) (rxmtu s) (ctxmtu s) (crxmtu s) (prep s) (prepdata s) (cccs s) (nn s) m l.
(** server.go:44-74 NewServer (None = error); ble.DefaultMTU = 23, ble.MaxMTU = 515; [tx] the connection's transmit MTU *)
Definition new_server (d : dbt) (rx tx : Z) : option srv :=
  if (rx <? 23) || (rx >? 515) then None
  else Some (mkSrv d 23 23 23 rx tx rx None [] [] [] [] []).

(** server.go:622-629 newErrorResponse *)
Definition err_rsp (op h code : Z) : bytes := [1; op; u8 h; u8 (h / 256); u8 code].
(** att_gen.go: binary.LittleEndian.Uint16(r[i:]) *)
Definition r16 (r : bytes) (i : nat) : go Z := let! t := gfrom r i in gle16 t.
(** rsp[:n+buf.Len()] of a response laid out in txBuf; the bytes before the buffer are [hdr] (length n).  A buffer that outgrew its
    capacity no longer shares txBuf and makes this slice expression panic. *)
Definition rsp_of (s : srv) (hdr buf : bytes) : go bytes :=
  if Nat.leb (length hdr + length buf) (txlen s) then Ret (hdr ++ buf) else Panic.

(** db.go:168-172 the read closure of a client configuration descriptor: binary.Write of a uint16 *)
Definition cccd_read (s : srv) (ci : cinfo) : list wop := [WData (le16 (ccc_of (cccs s) (ci_handle ci)))].
(** server.go:637-649 handleATT for the read requests: (status, contents written, user calls) *)
Definition att_read (s : srv) (e : env) (a : attr) (off : Z) (cap : nat) : Z * bytes * list call :=
  match a_rh a with
  | None => (e_read_not_perm, [], [])
  | Some (AUser _) => let '(b, st) := run_wops (Some cap) (e (CRead (a_h a) off)) [] 0 in (st, b, [CRead (a_h a) off])
  | Some (ACccd ci) => let '(b, st) := run_wops (Some cap) (cccd_read s ci) [] 0 in (st, b, [])
  end.

Definition close_notif (l : list notif) (i : nat) : list notif :=
  match nth_error l i with Some x => upd l i (mkN (nt_ind x) (nt_char x) (nt_vh x) (nt_handler x) false) | None => l end.
(** db.go:174-210 the write closure: (state, status); the goroutines it starts are recorded in [notifs] *)
Definition cccd_start_n (s : srv) (ci : cinfo) (old ccc : Z) : go (srv * bool) :=
  if Z.testbit ccc 0 && negb (Z.testbit old 0) then
    if Z.testbit (ci_prop ci) 4 then
      match ci_nh ci with
      | None => Panic
      | Some h => Ret (set_nn s (aset (nn s) (ci_handle ci) (length (notifs s))) (notifs s ++ [mkN false (ci_handle ci) (ci_vhandle ci) h true]), true)
      end
    else Ret (s, false)
  else Ret (s, true).
Definition cccd_stop_n (s : srv) (ci : cinfo) (old ccc : Z) : go srv :=
  if negb (Z.testbit ccc 0) && Z.testbit old 0 then
    match aget (nn s) (ci_handle ci) with None => Panic | Some i => Ret (set_nn s (nn s) (close_notif (notifs s) i)) end
  else Ret s.
Definition cccd_start_i (s : srv) (ci : cinfo) (old ccc : Z) : go (srv * bool) :=
  if Z.testbit ccc 1 && negb (Z.testbit old 1) then
    if Z.testbit (ci_prop ci) 5 then
      match ci_ih ci with
      | None => Panic
      | Some h => Ret (set_inn s (aset (inn s) (ci_handle ci) (length (notifs s))) (notifs s ++ [mkN true (ci_handle ci) (ci_vhandle ci) h true]), true)
      end
    else Ret (s, false)
  else Ret (s, true).
Definition cccd_stop_i (s : srv) (ci : cinfo) (old ccc : Z) : go srv :=
  if negb (Z.testbit ccc 1) && Z.testbit old 1 then
    match aget (inn s) (ci_handle ci) with None => Panic | Some i => Ret (set_inn s (inn s) (close_notif (notifs s) i)) end
  else Ret s.
Definition cccd_write (s : srv) (ci : cinfo) (data : bytes) : go (srv * Z) :=
  let old := ccc_of (cccs s) (ci_handle ci) in
  let! ccc := gle16 data in
  let! (s1, ok1) := cccd_start_n s ci old ccc in
  if negb ok1 then Ret (s1, e_unlikely) else
  let! s2 := cccd_stop_n s1 ci old ccc in
  let! (s3, ok3) := cccd_start_i s2 ci old ccc in
  if negb ok3 then Ret (s3, e_unlikely) else
  let! s4 := cccd_stop_i s3 ci old ccc in
  Ret (set_cccs s4 (aset (cccs s4) (ci_handle ci) ccc), 0).
(** server.go:663-677: ServeWrite on attribute a with [data] (ResponseWriter over the nil buffer) *)
Definition att_write (s : srv) (e : env) (a : attr) (data : bytes) : go (srv * Z * list call) :=
  match a_wh a with
  | None => Ret (s, e_write_not_perm, [])
  | Some (AUser _) => Ret (s, snd (run_wops None (e (CWrite (a_h a) data)) [] 0), [CWrite (a_h a) data])
  | Some (ACccd ci) => let! (s', st) := cccd_write s ci data in Ret (s', st, [])
  end.

(** server.go:224-254.  SetServerRxMTU answers MaxMTU; the new sizes are in place when the handler returns. *)
Definition h_mtu (s : srv) (r : bytes) : go (srv * bytes) :=
  if negb (Nat.eqb (length r) 3) then Ret (s, err_rsp 2 0 e_invalid_pdu)
  else let! m := r16 r 1 in
    if m <? 23 then Ret (s, err_rsp 2 0 e_invalid_pdu)
    else if Nat.ltb (txlen s) 3 then Panic
    else Ret (set_mtu s (Z.to_nat m) 515, [3] ++ le16 515).

(** server.go:273-292 *)
Fixpoint fi_loop (cap : nat) (l : list attr) (fmt : Z) (buf : bytes) : Z * bytes :=
  match l with
  | [] => (fmt, buf)
  | a :: r =>
      let fmt := if fmt =? 0 then (if Nat.eqb (length (a_typ a)) 16 then 2 else 1) else fmt in
      if (fmt =? 1) && negb (Nat.eqb (length (a_typ a)) 2) then (fmt, buf)
      else if (fmt =? 2) && negb (Nat.eqb (length (a_typ a)) 16) then (fmt, buf)
      else if Nat.ltb cap (length buf + 2 + length (a_typ a)) then (fmt, buf)
      else fi_loop cap r fmt (buf ++ le16 (a_h a) ++ a_typ a)
  end.
(** server.go:257-299 *)
Definition h_find_info (s : srv) (r : bytes) : go bytes :=
  if negb (Nat.eqb (length r) 5) then Ret (err_rsp 4 0 e_invalid_pdu)
  else let! st := r16 r 1 in let! en := r16 r 3 in
    if (st =? 0) || (st >? en) then Ret (err_rsp 4 st e_invalid_handle)
    else if Nat.ltb (txlen s) 2 then Panic
    else let! l := db_subrange (s_db s) st en in
      let (fmt, buf) := fi_loop (txlen s - 2) l 0 [] in
      if fmt =? 0 then Ret (err_rsp 4 st e_attr_not_found) else rsp_of s [5; fmt] buf.

(** server.go:316-341: None = the early error return.  handleATT of this opcode always answers ErrReqNotSupp (681-682). *)
Fixpoint fbtv_loop (cap : nat) (l : list attr) (ty val : bytes) (buf : bytes) : option bytes :=
  match l with
  | [] => Some buf
  | a :: r =>
      if negb (uuid_equal (a_typ a) ty) then fbtv_loop cap r ty val buf
      else match a_v a with
           | None => None
           | Some v =>
               if negb (uuid_equal v val) then fbtv_loop cap r ty val buf
               else if Nat.ltb cap (length buf + 4) then Some buf
               else fbtv_loop cap r ty val (buf ++ le16 (a_h a) ++ le16 (a_endh a))
           end
  end.
(** server.go:302-347 *)
Definition h_find_by_type (s : srv) (r : bytes) : go bytes :=
  if Nat.ltb (length r) 7 then Ret (err_rsp 6 0 e_invalid_pdu)
  else let! st := r16 r 1 in let! en := r16 r 3 in
    if (st =? 0) || (st >? en) then Ret (err_rsp 6 st e_invalid_handle)
    else if Nat.ltb (txlen s) 6 then Panic
    else let! ty := r16 r 5 in let! val := gfrom r 7 in
      let! l := db_subrange (s_db s) st en in
      match fbtv_loop (txlen s - 1) l (uuid16 ty) val [] with
      | None => Ret (err_rsp 6 st e_invalid_handle)
      | Some [] => Ret (err_rsp 6 st e_attr_not_found)
      | Some buf => rsp_of s [7] buf
      end.

(** server.go:367-403: (inl error | inr (dlen, buf), calls).  [cap2] the buffer given to handlers, [cap] the response buffer. *)
Fixpoint rbt_loop (s : srv) (e : env) (cap2 cap : nat) (l : list attr) (ty : bytes) (dlen : nat) (buf : bytes) (cs : list call) : (Z + nat * bytes) * list call :=
  match l with
  | [] => (inr (dlen, buf), cs)
  | a :: r =>
      if negb (uuid_equal (a_typ a) ty) then rbt_loop s e cap2 cap r ty dlen buf cs
      else
        let '(st, v, c) := match a_v a with Some v => (0, v, []) | None => att_read s e a 0 cap2 end in
        let cs := cs ++ c in
        if negb (st =? 0) then (if Nat.eqb dlen 0 then (inl st, cs) else (inr (dlen, buf), cs))
        else
          let first := Nat.eqb dlen 0 in
          let d := if first then Nat.min (Nat.min (2 + length v) 255) cap else dlen in
          if negb first && negb (Nat.eqb (2 + length v) d) then (inr (d, buf), cs)
          else if Nat.ltb cap (length buf + d) then (inr (d, buf), cs)
          else rbt_loop s e cap2 cap r ty d (buf ++ le16 (a_h a) ++ firstn (d - 2) v) cs
  end.
(** server.go:350-408 *)
Definition h_read_by_type (s : srv) (e : env) (r : bytes) : go (bytes * list call) :=
  if negb (Nat.eqb (length r) 7) && negb (Nat.eqb (length r) 21) then Ret (err_rsp 8 0 e_invalid_pdu, [])
  else let! st := r16 r 1 in let! en := r16 r 3 in
    if (st =? 0) || (st >? en) then Ret (err_rsp 8 st e_invalid_handle, [])
    else if Nat.ltb (txlen s) 4 then Panic
    else let! ty := gfrom r 5 in let! l := db_subrange (s_db s) st en in
      match rbt_loop s e (txlen s - 2) (txlen s - 2) l ty 0 [] [] with
      | (inl code, cs) => Ret (err_rsp 8 st code, cs)
      | (inr (O, _), cs) => Ret (err_rsp 8 st e_attr_not_found, cs)
      | (inr (d, buf), cs) => let! p := rsp_of s [9; u8 (Z.of_nat d)] buf in Ret (p, cs)
      end.

(** server.go:411-440 *)
Definition h_read (s : srv) (e : env) (r : bytes) : go (bytes * list call) :=
  if negb (Nat.eqb (length r) 3) then Ret (err_rsp 10 0 e_invalid_pdu, [])
  else if Nat.ltb (txlen s) 1 then Panic
  else let! h := r16 r 1 in let! oa := db_at (s_db s) h in
    match oa with
    | None => Ret (err_rsp 10 h e_invalid_handle, [])
    | Some a =>
        match a_v a with
        | Some v => let! p := rsp_of s [11] v in Ret (p, [])
        | None =>
            let '(st, b, cs) := att_read s e a 0 (txlen s - 1) in
            if negb (st =? 0) then Ret (err_rsp 10 h st, cs) else let! p := rsp_of s [11] b in Ret (p, cs)
        end
    end.
(** server.go:443-472 *)
Definition h_read_blob (s : srv) (e : env) (r : bytes) : go (bytes * list call) :=
  if negb (Nat.eqb (length r) 5) then Ret (err_rsp 12 0 e_invalid_pdu, [])
  else let! h := r16 r 1 in let! oa := db_at (s_db s) h in
    match oa with
    | None => Ret (err_rsp 12 h e_invalid_handle, [])
    | Some a =>
        if Nat.ltb (txlen s) 1 then Panic else
        match a_v a with
        | Some v => let! p := rsp_of s [13] v in Ret (p, [])
        | None =>
            let! off := r16 r 3 in
            let '(st, b, cs) := att_read s e a off (txlen s - 1) in
            if negb (st =? 0) then Ret (err_rsp 12 h st, cs) else let! p := rsp_of s [13] b in Ret (p, cs)
        end
    end.

(** server.go:490-518: inl = error code.  For an attribute without static value the buffer make([]byte, cap-len-4) panics when
    negative, otherwise handleATT of this opcode answers ErrReqNotSupp (681-682). *)
Fixpoint rbg_loop (cap : nat) (l : list attr) (dlen : nat) (buf : bytes) : go (Z + nat * bytes) :=
  match l with
  | [] => Ret (inr (dlen, buf))
  | a :: r =>
      match a_v a with
      | None => if Nat.ltb cap (length buf + 4) then Panic else Ret (inl e_req_not_supp)
      | Some v =>
          let first := Nat.eqb dlen 0 in
          let d := if first then Nat.min (Nat.min (4 + length v) 255) cap else dlen in
          if negb first && negb (Nat.eqb (4 + length v) d) then Ret (inr (d, buf))
          else if Nat.ltb cap (length buf + d) then Ret (inr (d, buf))
          else rbg_loop cap r d (buf ++ le16 (a_h a) ++ le16 (a_endh a) ++ firstn (d - 4) v)
      end
  end.
(** server.go:475-523 *)
Definition h_read_by_group (s : srv) (r : bytes) : go bytes :=
  if negb (Nat.eqb (length r) 7) && negb (Nat.eqb (length r) 21) then Ret (err_rsp 16 0 e_invalid_pdu)
  else let! st := r16 r 1 in let! en := r16 r 3 in
    if (st =? 0) || (st >? en) then Ret (err_rsp 16 st e_invalid_handle)
    else if Nat.ltb (txlen s) 6 then Panic
    else let! l := db_subrange (s_db s) st en in
      let! x := rbg_loop (txlen s - 2) l 0 [] in
      match x with
      | inl code => Ret (err_rsp 16 st code)
      | inr (O, _) => Ret (err_rsp 16 st e_attr_not_found)
      | inr (d, buf) => rsp_of s [17; u8 (Z.of_nat d)] buf
      end.

(** server.go:526-546 *)
Definition h_write (s : srv) (e : env) (r : bytes) : go (srv * bytes * list call) :=
  if Nat.ltb (length r) 3 then Ret (s, err_rsp 18 0 e_invalid_pdu, [])
  else let! h := r16 r 1 in let! oa := db_at (s_db s) h in
    match oa with
    | None => Ret (s, err_rsp 18 h e_invalid_handle, [])
    | Some a => let! v := gfrom r 3 in let! (s', st, cs) := att_write s e a v in
        Ret (s', (if st =? 0 then [19] else err_rsp 18 h st), cs)
    end.
(** server.go:600-620 *)
Definition h_write_cmd (s : srv) (e : env) (r : bytes) : go (srv * list call) :=
  if Nat.leb (length r) 3 then Ret (s, [])
  else let! h := r16 r 1 in let! oa := db_at (s_db s) h in
    match oa with
    | None => Ret (s, [])
    | Some a => let! v := gfrom r 3 in let! (s', st, cs) := att_write s e a v in Ret (s', cs)
    end.
(** server.go:548-575 and 650-661; line 549 evaluates AttributeHandle before the length check; 655 evaluates ValueOffset *)
Definition h_prepare (s : srv) (r : bytes) : go (srv * bytes) :=
  let! h := r16 r 1 in
  if Nat.ltb (length r) 3 then Ret (s, err_rsp 22 0 e_invalid_pdu)
  else let! oa := db_at (s_db s) h in
    match oa with
    | None => Ret (s, err_rsp 22 h e_invalid_handle)
    | Some a =>
        match a_wh a with
        | None => Ret (s, err_rsp 22 h e_write_not_perm)
        | Some _ =>
            let! data := gfrom r 5 in let! _ := r16 r 3 in
            let s' := match prep s with None => set_prep s (Some a) data | Some b => set_prep s (Some b) (prepdata s ++ data) end in
            Ret (s', 23 :: tl r)
        end
    end.
(** server.go:577-597 and 663-669; without a prepared attribute a.wh dereferences nil *)
Definition h_execute (s : srv) (e : env) (r : bytes) : go (srv * bytes * list call) :=
  if Nat.ltb (length r) 2 then Ret (s, err_rsp 24 0 e_invalid_pdu, [])
  else let! f := gidx r 1 in
    if f =? 0 then Ret (set_prep s None (prepdata s), [25], [])
    else if f =? 1 then
      match prep s with
      | None => Panic
      | Some a =>
          match a_wh a with
          | None => Ret (s, err_rsp 24 0 e_write_not_perm, [])
          | Some _ => let! (s', st, cs) := att_write s e a (prepdata s) in
              let s'' := set_prep s' None (prepdata s') in
              Ret (s'', (if st =? 0 then [25] else err_rsp 24 0 st), cs)
          end
      end
    else Ret (s, [25], []).

(** server.go:183-221 handleRequest: (state, response or nil, user handler calls) *)
Definition handle (s : srv) (e : env) (r : bytes) : go (srv * option bytes * list call) :=
  match r with
  | [] => Ret (s, None, [])
  | op :: _ =>
      if op =? 2 then let! (s', p) := h_mtu s r in Ret (s', Some p, [])
      else if op =? 4 then let! p := h_find_info s r in Ret (s, Some p, [])
      else if op =? 6 then let! p := h_find_by_type s r in Ret (s, Some p, [])
      else if op =? 8 then let! (p, cs) := h_read_by_type s e r in Ret (s, Some p, cs)
      else if op =? 10 then let! (p, cs) := h_read s e r in Ret (s, Some p, cs)
      else if op =? 12 then let! (p, cs) := h_read_blob s e r in Ret (s, Some p, cs)
      else if op =? 16 then let! p := h_read_by_group s r in Ret (s, Some p, [])
      else if op =? 18 then let! (s', p, cs) := h_write s e r in Ret (s', Some p, cs)
      else if op =? 82 then let! (s', cs) := h_write_cmd s e r in Ret (s', None, cs)
      else if op =? 22 then let! (s', p) := h_prepare s r in Ret (s', Some p, [])
      else if op =? 24 then let! (s', p, cs) := h_execute s e r in Ret (s', Some p, cs)
      else Ret (s, Some (err_rsp op 0 e_req_not_supp), [])
  end.
(** server.go:137-165 one PDU arriving at the loop: confirmations go elsewhere, a non-empty response is written *)
Definition loop_pdu (s : srv) (e : env) (r : bytes) : go (srv * list bytes * list call) :=
  match r with
  | 30 :: _ => Ret (s, [], [])
  | _ => let! (s', p, cs) := handle s e r in
         Ret (s', match p with Some (x :: l) => [x :: l] | _ => [] end, cs)
  end.
Fixpoint loop_run (s : srv) (l : list (env * bytes)) : go (srv * list bytes * list call) :=
  match l with
  | [] => Ret (s, [], [])
  | (e, r) :: t => let! (s1, o1, c1) := loop_pdu s e r in let! (s2, o2, c2) := loop_run s1 t in Ret (s2, o1 ++ o2, c1 ++ c2)
  end.
(** server.go:166-176 when the connection ends: close the notifiers of every configured characteristic (map iteration order is
    arbitrary; closing is idempotent so any order gives the same result) *)
Fixpoint cleanup (s : srv) (m : list (Z * Z)) : go (list notif) :=
  match m with
  | [] => Ret (notifs s)
  | (h, c) :: r =>
      let! l1 := (if Z.testbit c 1 then match aget (inn s) h with None => Panic | Some i => Ret (close_notif (notifs s) i) end else Ret (notifs s)) in
      let! l2 := (if Z.testbit c 0 then match aget (nn s) h with None => Panic | Some i => Ret (close_notif l1 i) end else Ret l1) in
      cleanup (set_nn s (nn s) l2) r
  end.
(** server.go:77-92, 95-109 notify and indicate: the PDU written for [data] with a buffer of [n] bytes *)
Definition notify_pdu (op : Z) (n : nat) (h : Z) (data : bytes) : go bytes :=
  if Nat.ltb n 3 then Panic else Ret ([op] ++ le16 h ++ firstn (n - 3) data).
