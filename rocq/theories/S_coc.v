(** Specification vocabulary for L2CAP signaling and credit based channels. *)
Require Import Verif.Base Verif.M_attsrv Verif.M_gattcli Verif.M_coc.

(** Vol 3 Part A 4: a signaling packet is a sequence of commands: code, identifier, length, data *)
Record scmd := mkSC { x_code : Z; x_id : Z; x_data : bytes }.
Definition cmd_bytes (c : scmd) : bytes := [x_code c; x_id c] ++ le16 (Z.of_nat (length (x_data c))) ++ x_data c.
Definition cmd_ok (c : scmd) : Prop := is_byte (x_code c) /\ is_byte (x_id c) /\ all_bytes (x_data c) /\ Z.of_nat (length (x_data c)) < 65536.
Definition complete (b : bytes) : Prop := exists cs, cs <> [] /\ Forall cmd_ok cs /\ b = flat_map cmd_bytes cs.
(** an L2CAP PDU: length, channel, payload *)
Definition l2cap (cid : Z) (payload : bytes) : bytes := le16 (Z.of_nat (length payload)) ++ le16 cid ++ payload.
(** the commands of a packet, as far as they are complete *)
Fixpoint split_cmds (n : nat) (b : bytes) : list scmd :=
  match n, b with
  | S n', c :: i :: l1 :: l2 :: r =>
      let k := Z.to_nat (de16 l1 l2) in
      if Nat.leb k (length r) then mkSC c i (firstn k r) :: split_cmds n' (skipn k r) else []
  | _, _ => []
  end.
(** Credits a command grants for the channel with (peer's) identifier cid: LE Flow Control Credit, and the initial credits of a successful
    connection response. *)
Definition grant (cid : Z) (c : scmd) : Z :=
  match x_code c, x_data c with
  | 22, a :: b :: n1 :: n2 :: _ => if de16 a b =? cid then de16 n1 n2 else 0
  | 21, a :: b :: _ :: _ :: _ :: _ :: n1 :: n2 :: r1 :: r2 :: _ => if (de16 a b =? cid) && (de16 r1 r2 =? 0) then de16 n1 n2 else 0
  | _, _ => 0
  end.
Definition sumZ {A} (f : A -> Z) (l : list A) : Z := fold_right (fun x a => f x + a) 0 l.
(** of an incoming PDU on the signaling channel that does not exceed the signaling MTU *)
Definition grants_in (cid : Z) (p : bytes) : Z :=
  match p with
  | l1 :: l2 :: 5 :: 0 :: b => if de16 l1 l2 <=? 515 then sumZ (grant cid) (split_cmds (length b) b) else 0
  | _ => 0
  end.
Definition on_channel (cid : Z) (p : bytes) : bool := match p with _ :: _ :: a :: b :: _ => de16 a b =? cid | _ => false end.
Definition frames_on (cid : Z) (log : list bytes) : Z := Z.of_nat (length (filter (on_channel cid) log)).
(** the MPS values the peer announced for its channel cid, in successful connection responses *)
Definition mps_of (cid : Z) (c : scmd) : option Z :=
  match x_code c, x_data c with
  | 21, a :: b :: _ :: _ :: m1 :: m2 :: _ :: _ :: r1 :: r2 :: _ => if (de16 a b =? cid) && (de16 r1 r2 =? 0) then Some (de16 m1 m2) else None
  | _, _ => None
  end.
(** a command the peer sent on the signaling channel *)
Definition commanded (ps : list bytes) (c : scmd) : Prop := exists l1 l2 b, In (l1 :: l2 :: 5 :: 0 :: b) ps /\ In c (split_cmds (length b) b).
Definition announced (ps : list bytes) (cid m : Z) : Prop := exists c, commanded ps c /\ mps_of cid c = Some m.

(** Histories of one connection: the steps with their results; writes may fail at any time. *)
Definition typed_op (o : kop) : Prop := match o with KIncoming p => all_bytes p | KSend _ d => all_bytes d | _ => True end.
Inductive khist (master : bool) : list (kop * kres) -> cst -> Prop :=
| kh_new : khist master [] coc_new
| kh_step : forall es s w o s' r, khist master es s -> typed_op o -> kstep w master s o = Ret (s', r) -> khist master (es ++ [(o, r)]) s'.
Definition incoming (es : list (kop * kres)) : list bytes := flat_map (fun e => match fst e with KIncoming p => [p] | _ => [] end) es.
Definition opens (es : list (kop * kres)) : nat := length (filter (fun e => match fst e with KOpen _ => true | _ => false end) es).

(** An SDU cut into K-frames for a given MPS, as Vol 3 Part A 3.4.3 wants it: SDU length in the first frame only. *)
Fixpoint pieces (fuel n : nat) (d : bytes) : list bytes :=
  match fuel, d with S f, _ :: _ => firstn n d :: pieces f n (skipn n d) | _, _ => [] end.
(** what a conforming receiver makes of the payloads of consecutive frames: the first says how long the SDU is *)
Definition reassemble (frames : list bytes) : option bytes :=
  match frames with
  | (a :: b :: x) :: r => let d := x ++ concat r in if Z.of_nat (length d) =? de16 a b then Some d else None
  | _ => None
  end.
Definition payload_of (p : bytes) : bytes := skipn 4 p.

(** Requests of this side: the identifiers of the Connection Requests (20) and Flow Control Credit indications (22) among the PDUs written. *)
Definition own_id (p : bytes) : list Z := match p with _ :: _ :: 5 :: 0 :: c :: i :: _ => if (c =? 20) || (c =? 22) then [i] else [] | _ => [] end.
(** histories in which every write succeeds *)
Inductive kgood (master : bool) : list (kop * kres) -> cst -> Prop :=
| kg_new : kgood master [] coc_new
| kg_step : forall es s o s' r, kgood master es s -> typed_op o -> kstep (fun _ => true) master s o = Ret (s', r) -> kgood master (es ++ [(o, r)]) s'.
(** histories with the source channel identifiers put into connection requests so far *)
Definition source_cid (p : bytes) : Z := match skipn 10 p with a :: b :: _ => de16 a b | _ => 0 end.
Definition requested (o : kop) (r : kres) (log : list bytes) : list Z := match o, r with KOpen _, KWait _ => [source_cid (last log [])] | _, _ => [] end.
Inductive kcids (master : bool) : list (kop * kres) -> list Z -> cst -> Prop :=
| kc_new : kcids master [] [] coc_new
| kc_step : forall es l s w o s' r, kcids master es l s -> typed_op o -> kstep w master s o = Ret (s', r) -> kcids master (es ++ [(o, r)]) (l ++ requested o r (c_log s')) s'.
(** a run of steps with their results *)
Inductive kruns (w : writes) (master : bool) : cst -> list (kop * kres) -> cst -> Prop :=
| kr_nil : forall s, kruns w master s [] s
| kr_cons : forall s o r s' es s'', kstep w master s o = Ret (s', r) -> kruns w master s' es s'' -> kruns w master s ((o, r) :: es) s''.
