(** Model of concurrent signaling calls on one connection, step by step: Conn.Signal (linux/hci/signal.go:29-101), coc.Open around it
    (coc.go:53-122) and the handing over of answers by the event loop (signal.go:171-188).
    The identifier c.sigID is read and written without a lock: every access is a step of its own (c.sigID++ is two).  What is done under
    sigRspChannelsMu or the lock of coc is one step: neither is held while waiting, except possibly at "rxc <- s" (176), which the model
    does not let happen while the channel is full: [exec] is None then.
    Not modelled here: what the answer of Open leaves in the channel beside its two identifiers and the handling of requests and credits (both M_coc),
    fragmentation and what other PDUs are written at the same time (M_aclw), the 2 s of the timeout ([ATimeout] at any time). *)
Require Import Verif.Base Verif.M_attsrv Verif.M_gattcli Verif.M_coc.

(** coc.go:70 Open; signal.go:29 Signal with no response expected: a credit returned (coc.go:299-306) *)
Inductive call := KOpen (psm : Z) | KSig (m : sigm).
(** a signaling command of the peer: code, identifier, payload *)
Record incoming := mkI { i_code : Z; i_id : Z; i_data : bytes }.
Inductive phase :=
| PStart               (* coc.go:71 NextSourceCID *)
| PInc                 (* signal.go:31 c.sigID++: read *)
| PIncW (r : Z)        (* ... and written *)
| PTest                (* 32 *)
| PFix                 (* 33 *)
| PBuild               (* 50 the identifier of the PDU *)
| PReg                 (* 64-67 the channel registered under c.sigID *)
| PDefer               (* 74 the argument of the deferred function *)
| PWrite               (* 77 writePDU *)
| PWait                (* 88-94 *)
| PCheck (c : incoming)  (* 96-101, the answer [c] *)
| PClean (r : option Z)  (* 70-74 the deferred function; coc.go:89-91: [r] the peer's channel identifier if all is well *)
| PAdd (r : Z)         (* coc.go:93 addChannel *)
| PDone (r : option Z).  (* None: an error *)
(** [t_cid]: the local channel identifier; [t_id]: the identifier in the PDU; [t_reg]: the one the channel is registered under;
    [t_def]: the one the deferred function deletes; [t_chan]: what is in the channel (capacity 1). *)
Record thr := mkT { t_call : call; t_ph : phase; t_cid : Z; t_id : Z; t_reg : option Z; t_def : Z; t_chan : option incoming }.
(** [s_lut]: remote to local channel identifiers; [s_log]: the PDUs written, [None] by the event loop; [s_in]: the commands received (nothing reads it) *)
Record sst := mkS { s_next : Z; s_sig : Z; s_pend : Z -> option nat; s_thr : list thr; s_lut : list (Z * Z); s_log : list (option nat * bytes); s_in : list incoming }.
Definition s0 : sst := mkS 64 0 (fun _ => None) [] [] [] [].
Definition with_thr (s : sst) (t : nat) (x : thr) : sst := mkS (s_next s) (s_sig s) (s_pend s) (upd (s_thr s) t x) (s_lut s) (s_log s) (s_in s).
Definition with_sig (s : sst) (z : Z) : sst := mkS (s_next s) z (s_pend s) (s_thr s) (s_lut s) (s_log s) (s_in s).
Definition with_pend (s : sst) (id : Z) (o : option nat) : sst := mkS (s_next s) (s_sig s) (fun x => if x =? id then o else s_pend s x) (s_thr s) (s_lut s) (s_log s) (s_in s).
Definition with_log (s : sst) (x : option nat * bytes) : sst := mkS (s_next s) (s_sig s) (s_pend s) (s_thr s) (s_lut s) (s_log s ++ [x]) (s_in s).
Definition with_lut (s : sst) (l : list (Z * Z)) : sst := mkS (s_next s) (s_sig s) (s_pend s) (s_thr s) l (s_log s) (s_in s).
Definition with_next (s : sst) (z : Z) : sst := mkS z (s_sig s) (s_pend s) (s_thr s) (s_lut s) (s_log s) (s_in s).
Definition with_in (s : sst) (c : incoming) : sst := mkS (s_next s) (s_sig s) (s_pend s) (s_thr s) (s_lut s) (s_log s) (s_in s ++ [c]).
Definition ph (th : thr) (p : phase) : thr := mkT (t_call th) p (t_cid th) (t_id th) (t_reg th) (t_def th) (t_chan th).

(** the request: coc.go:76-84, signal.go:36-60 *)
Definition request (th : thr) : bytes :=
  let m := match t_call th with KOpen psm => SCocReq psm (t_cid th) 64 64 2 | KSig m => m end in sig_pdu (sig_code m) (t_id th) (sig_marshal m).
(** signal.go:96-101, coc.go:89-91: the answer [c] judged when c.sigID is [z] *)
Definition judge (z : Z) (c : incoming) : option Z :=
  if negb (i_code c =? 21) then None else
  if negb (i_id c =? z) then None else
  match sig_unmarshal 21 (i_data c) with Some (SCocRsp dcid _ _ _ result) => if result =? 0 then Some dcid else None | _ => None end.

(** [ACall]: a call begins; [AStep t]: its next step; [AWrite t ok]: it writes its PDU; [ATimeout t]: no answer for 2 s (91);
    [AIncoming c ok]: the event loop handles a command of the peer, [ok]: a reject could be written; [AClose r]: CloseChannel (coc.go:124-140). *)
Inductive act := ACall (k : call) | AStep (t : nat) | AWrite (t : nat) (ok : bool) | ATimeout (t : nat) | AIncoming (c : incoming) (ok : bool) | AClose (r : Z).
Definition step (s : sst) (t : nat) (th : thr) : option sst :=
  match t_ph th with
  | PStart => (* coc.go:53-68 *)
      if (s_next s >? 65535) || (s_next s <? 64) then Some (with_thr s t (ph th (PDone None)))
      else Some (with_thr (with_next s (u16 (s_next s + 1))) t (mkT (t_call th) PInc (s_next s) (t_id th) (t_reg th) (t_def th) (t_chan th)))
  | PInc => Some (with_thr s t (ph th (PIncW (s_sig s))))
  | PIncW r => Some (with_thr (with_sig s (u8 (r + 1))) t (ph th PTest))
  | PTest => Some (with_thr s t (ph th (if s_sig s =? 0 then PFix else PBuild)))
  | PFix => Some (with_thr (with_sig s 1) t (ph th PBuild))
  | PBuild => Some (with_thr s t (mkT (t_call th) (match t_call th with KOpen _ => PReg | KSig _ => PWrite end) (t_cid th) (s_sig s) (t_reg th) (t_def th) (t_chan th)))
  | PReg => Some (with_thr (with_pend s (s_sig s) (Some t)) t (mkT (t_call th) PDefer (t_cid th) (t_id th) (Some (s_sig s)) (t_def th) (t_chan th)))
  | PDefer => Some (with_thr s t (mkT (t_call th) PWrite (t_cid th) (t_id th) (t_reg th) (s_sig s) (t_chan th)))
  | PWait => match t_chan th with Some c => Some (with_thr s t (mkT (t_call th) (PCheck c) (t_cid th) (t_id th) (t_reg th) (t_def th) None)) | None => None end
  | PCheck c => Some (with_thr s t (ph th (PClean (judge (s_sig s) c))))
  | PClean r => Some (with_thr (with_pend s (t_def th) None) t (ph th (match r with Some d => PAdd d | None => PDone None end)))
  | PAdd r => match aget (s_lut s) r with
              | Some _ => Some (with_thr s t (ph th (PDone None)))
              | None => Some (with_thr (with_lut s (aset (s_lut s) r (t_cid th))) t (ph th (PDone (Some r))))
              end
  | PWrite | PDone _ => None
  end.
Definition exec (s : sst) (a : act) : option sst :=
  match a with
  | ACall k => Some (mkS (s_next s) (s_sig s) (s_pend s) (s_thr s ++ [mkT k (match k with KOpen _ => PStart | KSig _ => PInc end) 0 0 None 0 None]) (s_lut s) (s_log s) (s_in s))
  | AStep t => match nth_error (s_thr s) t with Some th => step s t th | None => None end
  | AWrite t ok =>
      match nth_error (s_thr s) t with
      | Some th =>
          match t_ph th with
          | PWrite =>
              if ok then Some (with_thr (with_log s (Some t, request th)) t (ph th (match t_call th with KOpen _ => PWait | KSig _ => PDone (Some 0) end)))
              else Some (with_thr s t (ph th (match t_call th with KOpen _ => PClean None | KSig _ => PDone None end)))
          | _ => None
          end
      | None => None
      end
  | ATimeout t =>
      match nth_error (s_thr s) t with
      | Some th => match t_ph th with PWait => Some (with_thr s t (ph th (PClean None))) | _ => None end
      | None => None
      end
  | AIncoming c ok =>
      let s := with_in s c in
      if (i_code c =? 6) || (i_code c =? 18) || (i_code c =? 20) || (i_code c =? 22) then Some s else
      match s_pend s (i_id c) with
      | None => Some (if ok then with_log s (None, sig_pdu 1 (i_id c) (sig_marshal (SReject 0 []))) else s)
      | Some t =>
          match nth_error (s_thr s) t with
          | None => None
          | Some th =>
              match t_chan th with
              | Some _ => None
              | None => Some (with_thr (with_pend s (i_id c) None) t (mkT (t_call th) (t_ph th) (t_cid th) (t_id th) (t_reg th) (t_def th) (Some c)))
              end
          end
      end
  | AClose r => match aget (s_lut s) r with Some _ => Some (with_lut s (adel (s_lut s) r)) | None => None end
  end.
Fixpoint exec_all (s : sst) (l : list act) : option sst :=
  match l with [] => Some s | a :: r => match exec s a with Some s' => exec_all s' r | None => None end end.
