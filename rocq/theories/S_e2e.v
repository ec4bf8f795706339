(** Two ends of this library connected to each other: the attribute server of M_attsrv as the peer of the client of M_attcli / M_gattcli,
    and what a client should find out about the services that were published. *)
Require Import Verif.Base Verif.M_uuid Verif.M_attdb Verif.S_attdb Verif.M_attsrv Verif.S_attsrv Verif.M_attcli Verif.S_attcli Verif.M_gattcli Verif.S_gattcli.

Definition byte_b (x : Z) : bool := (0 <=? x) && (x <? 256).
(** The server after the PDUs [log], starting in state s; [E] gives the behaviour of the user's handlers while the last PDU of a log is
    handled (so handlers may behave differently every time).  A PDU on which the server crashes has no effect here: the peer below does not answer it. *)
Fixpoint serve (E : list bytes -> env) (s : srv) (done log : list bytes) : srv :=
  match log with
  | [] => s
  | r :: t => serve E (if forallb byte_b r then match handle s (E (done ++ [r])) r with Ret (s', _, _) => s' | Panic => s end else s) (done ++ [r]) t
  end.
(** the server as a peer: its answer to the last PDU of the log *)
Definition srv_peer (E : list bytes -> env) (s0 : srv) : peer := fun log =>
  match rev log with
  | [] => Some []
  | r :: prev => match handle (serve E s0 [] (rev prev)) (E log) r with
                 | Ret (_, Some rsp, _) => Some [rsp]
                 | Ret (_, None, _) => Some []
                 | Panic => None
                 end
  end.

(** The database that a list of services published from handle h on amounts to *)
Fixpoint lay_descs (ds : list desc) (h : Z) : list ddesc :=
  match ds with [] => [] | d :: r => mkDD h (d_uuid d) :: lay_descs r (h + 1) end.
Fixpoint lay_chars (cs : list char) (h : Z) : list dchar :=
  match cs with [] => [] | c :: r => mkDC h (c_prop c) (h + 1) (c_uuid c) (lay_descs (own_descs c) (h + 2)) :: lay_chars r (h + 2 + Z.of_nat (length (own_descs c))) end.
Fixpoint lay (ss : list service) (h : Z) : list dsvc :=
  match ss with
  | [] => []
  | s :: r => mkDS h (match r with [] => 65535 | _ => h + Z.of_nat (length (svc_types s)) - 1 end) (s_uuid s) (lay_chars (s_chars s) (h + 1))
              :: lay r (h + Z.of_nat (length (svc_types s)))
  end.
(** services configured through the API, with UUIDs of 2 or 16 bytes, none of them that of a characteristic declaration *)
Definition plain_uuid (u : bytes) : Prop := uuid_size u /\ u <> uuid16 0x2803.
Definition plain_char (c : char) : Prop := plain_uuid (c_uuid c) /\ api_char c /\ Forall (fun d => plain_uuid (d_uuid d)) (c_descs c).
Definition plain_svc (s : service) : Prop := uuid_size (s_uuid s) /\ Forall plain_char (s_chars s).

(** the handler calls the server makes for the last PDU of a log *)
Definition srv_calls (E : list bytes -> env) (s0 : srv) (log : list bytes) : list call :=
  match rev log with
  | [] => []
  | r :: prev => match handle (serve E s0 [] (rev prev)) (E log) r with Ret (_, _, cs) => cs | Panic => [] end
  end.
(** [fc] is what the profile [prof] says about characteristic [c] of the published services: same service, same position *)
Definition reported (ss : list service) (prof : list gsvc) (c : char) (fc : gchar) : Prop :=
  exists i j sv fs, nth_error ss i = Some sv /\ nth_error (s_chars sv) j = Some c /\ nth_error prof i = Some fs /\ nth_error (gv_chars fs) j = Some fc.
(** what there is to know about a service without the handles *)
Definition outline (sv : service) : bytes * list (bytes * Z * list bytes) :=
  (s_uuid sv, map (fun c => (c_uuid c, c_prop c, map d_uuid (own_descs c))) (s_chars sv)).
Definition outline_found (fs : gsvc) : bytes * list (bytes * Z * list bytes) :=
  (gv_uuid fs, map (fun c => (gc_uuid c, gc_prop c, map gd_uuid (gc_descs c))) (gv_chars fs)).
(** what the caller of a read (write) sees of what the handler did *)
Definition read_result (room : nat) (l : list wop) : cres bytes := if final_status l =? 0 then COk (accepted room l) else CAtt (final_status l).
Definition write_result (l : list wop) : cres unit := if final_status l =? 0 then COk tt else CAtt (final_status l).
(** [s0] is the server, after any history of this connection, of a device that published the services [ss] (at handle 1, as every device does) *)
Definition server_of (ss : list service) (s0 : srv) : Prop :=
  ss <> [] /\ Forall plain_svc ss /\ 1 + table_size ss <= 65535 /\ reach (snd (new_db ss 1)) s0.
(** a client in any state with at least the default MTU *)
Definition ready (c : cli) : Prop := usable c /\ Z.of_nat (length (ctx c)) = cmtu c.

(** Subscriptions between the two ends.  [s0] the server of a new connection; the client may do anything through the API that uses what was
    found by discovery: exchange the MTU, discover, read anything, write to characteristic values, subscribe to what a characteristic offers,
    unsubscribe, clear; notifications (any PDU) may arrive at any time; calls may fail. *)
Definition fresh_server (ss : list service) (s0 : srv) : Prop :=
  ss <> [] /\ Forall plain_svc ss /\ 1 + table_size ss <= 65535 /\ exists rx tx, new_server (snd (new_db ss 1)) rx tx = Some s0.
Definition profile_of (ss : list service) : list gsvc := map full_svc (lay ss 1).
Definition offers (c : char) (ind : bool) : Prop := (if ind then c_ih c else c_nh c) <> None.
Definition value_handle (ss : list service) (h : Z) : Prop := exists c fc, reported ss (profile_of ss) c fc /\ gc_vh fc = h.
Definition plain_op (ss : list service) (o : cop) : Prop :=
  typed o /\ match o with OPrepare _ _ _ | OExecute _ | OSigned _ _ _ => False | OWrite h _ | OWriteCmd h _ => value_handle ss h | _ => True end.
Definition plain_sop (ss : list service) (o : sop) : Prop :=
  match o with
  | SSubscribe fc ind _ => exists c, reported ss (profile_of ss) c fc /\ offers c ind
  | SUnsubscribe fc _ => exists c, reported ss (profile_of ss) c fc /\ notifying c = true
  | _ => True
  end.
Inductive together (ss : list service) (P : peer) : gcl -> Prop :=
| tg_new : forall mtu, 23 <= mtu -> together ss P (new_gcl mtu)
| tg_op : forall g o c' r, together ss P g -> plain_op ss o -> run_op P (g_cli g) o = Ret (c', r) -> together ss P (with_cli g c')
| tg_discover : forall g fuel force g' r, together ss P g -> discover_profile fuel P force g = Ret (Some (g', r)) -> together ss P g'
| tg_sub : forall g o g' r, together ss P g -> plain_sop ss o -> run_sop P g o = Ret (g', r) -> together ss P g'.
(** the server's state when the client has done what led to g *)
Definition server_now (E : list bytes -> env) (s0 : srv) (g : gcl) : srv := serve E s0 [] (clog (g_cli g)).
