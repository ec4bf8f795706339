(** Specification of the Security Manager properties, after the Core Specification Vol 3 Part H.  Values are written most
    significant octet first, as there; on the wire they travel least significant octet first ([rev]). *)
Require Import Verif.Base Verif.M_smp.

(** ** Association models (2.3.5.1) *)
Inductive iocap := DisplayOnly | DisplayYesNo | KeyboardOnly | NoInputNoOutput | KeyboardDisplay.
(** The encoding of the IO Capability field (Table 3.4). *)
Definition io_code (c : iocap) : Z :=
  match c with DisplayOnly => 0 | DisplayYesNo => 1 | KeyboardOnly => 2 | NoInputNoOutput => 3 | KeyboardDisplay => 4 end.
Definition has_keyboard (c : iocap) : bool := match c with KeyboardOnly | KeyboardDisplay => true | _ => false end.
Definition has_yes_no_and_display (c : iocap) : bool := match c with DisplayYesNo | KeyboardDisplay => true | _ => false end.
Definition no_io (c : iocap) : bool := match c with NoInputNoOutput => true | _ => false end.
(** Table 2.8, in words: a side without input and output forces Just Works; with Secure Connections two sides that can
    display and answer yes or no compare numbers; otherwise one keyboard is enough for a passkey. *)
Definition by_io (sc : bool) (a b : iocap) : ptype :=
  if no_io a || no_io b then JustWorks
  else if sc && has_yes_no_and_display a && has_yes_no_and_display b then NumericComp
  else if has_keyboard a || has_keyboard b then Passkey
  else JustWorks.
(** Table 2.6 and 2.7: OOB is used when both sides have OOB data (legacy) or at least one has (Secure Connections). *)
Definition oob_used (sc oa ob : bool) : bool := if sc then oa || ob else oa && ob.
Definition method (sc : bool) (oa ob mitm_a mitm_b : bool) (a b : iocap) : ptype :=
  if oob_used sc oa ob then Oob
  else if mitm_a || mitm_b then by_io sc a b
  else JustWorks.
(** Secure Connections is used when both sides set the SC bit (bit 3 of AuthReq); MITM is bit 2. *)
Definition sc_bit (c : smpcfg) : bool := Z.testbit (auth_req c) 3.
Definition mitm_bit (c : smpcfg) : bool := Z.testbit (auth_req c) 2.
Definition oob_present (c : smpcfg) : bool := oob_flag c =? 1.

(** ** The cryptographic toolbox (2.2), most significant octet first *)
Section Toolbox.
Variable C : prims.
Definition f4 (U V X : bytes) (Z : Z) : bytes := cmac C X (U ++ V ++ [Z]).
Definition SALT : bytes := [0x6C; 0x88; 0x83; 0x91; 0xAA; 0xF5; 0xA5; 0x38; 0x60; 0x37; 0x0B; 0xDB; 0x5A; 0x60; 0x83; 0xBE].
Definition keyID : bytes := [0x62; 0x74; 0x6c; 0x65].
Definition f5 (W N1 N2 A1 A2 : bytes) (counter : Z) : bytes :=
  cmac C (cmac C SALT W) ([counter] ++ keyID ++ N1 ++ N2 ++ A1 ++ A2 ++ [0x01; 0x00]).
Definition f5_mackey W N1 N2 A1 A2 : bytes := f5 W N1 N2 A1 A2 0.
Definition f5_ltk W N1 N2 A1 A2 : bytes := f5 W N1 N2 A1 A2 1.
Definition f6 (W N1 N2 R IOcap A1 A2 : bytes) : bytes := cmac C W (N1 ++ N2 ++ R ++ IOcap ++ A1 ++ A2).
Fixpoint be_val (acc : Z) (l : bytes) : Z := match l with [] => acc | b :: r => be_val (256 * acc + b) r end.
Definition g2 (U V X Y : bytes) : Z := be_val 0 (cmac C X (U ++ V ++ Y)) mod 2 ^ 32.
Definition xor_bytes (a b : bytes) : bytes := map (fun p => Z.lxor (fst p) (snd p)) (combine a b).
Definition c1 (k r pres preq : bytes) (rat iat : Z) (ia ra : bytes) : bytes :=
  let p1 := pres ++ preq ++ [rat; iat] in
  let p2 := [0; 0; 0; 0] ++ ia ++ ra in
  aes C k (xor_bytes (aes C k (xor_bytes r p1)) p2).
(** s1: the least significant 64 bits of r1, then those of r2. *)
Definition s1 (k r1 r2 : bytes) : bytes := aes C k (skipn 8 r1 ++ skipn 8 r2).

(** The primitives produce 16-octet blocks; public keys are 64 octets. *)
Definition prims_ok : Prop :=
  (forall k m, length (cmac C k m) = 16%nat) /\
  (forall k m, length (aes C k m) = 16%nat) /\
  (forall k, length (pub_of C k) = 64%nat).
(** A device address as an operand: its type, then its six octets. *)
Definition addr_op (ty : Z) (a : bytes) : bytes := ty :: a.
Definition io_op (c : smpcfg) : bytes := [auth_req c; oob_flag c; io_cap c].
(** A passkey as a 128-bit operand. *)
Definition passkey_op (k : Z) : bytes := repeat 0 12 ++ rev (le_bytes 4 k).
Definition passkey_bit_op (k : Z) (i : nat) : Z := if Z.testbit k (Z.of_nat i) then 0x81 else 0x80.

(** ** Messages *)
(** A received or sent PDU: 4 octets of L2CAP header, the code, the parameters. *)
Definition msg_of (pdu : bytes) : option (Z * bytes) :=
  match pdu with _ :: _ :: _ :: _ :: c :: d => Some (c, d) | _ => None end.
(** A public key on the wire: X then Y, each least significant octet first. *)
Definition key_wire (k : bytes) : bytes := rev (firstn 32 k) ++ rev (skipn 32 k).
Definition key_x (wire : bytes) : bytes := rev (firstn 32 wire).
Definition key_of_wire (w : bytes) : bytes := rev (firstn 32 w) ++ rev (skipn 32 w).

(** What an observer of a connection who sees every call, PDU and the primitives knows:
    the last Confirm value received, our public key as last sent, the last valid public key received, the passkey given to
    Pair, and how many passkey rounds (bit 0 first) have been passed since the last Pairing Response or Public Key. *)
Record view := mkV { v_conf : bytes; v_own : option bytes; v_peer : option bytes; v_passkey : Z; v_rounds : nat }.
Definition view0 : view := mkV [] None None 0 0.
Definition sent_own (evs : list ev) (own : option bytes) : option bytes :=
  fold_left (fun acc e => match e with
                          | EOut (OSend pdu) => match msg_of pdu with Some (12, k) => Some k | _ => acc end
                          | _ => acc
                          end) evs own.
(** The confirm value [c] of the peer is the one of nonce [r] (as received) and of the octet [z]. *)
Definition confirm_matches (v : view) (r : bytes) (z : Z) : bool :=
  match v_own v, v_peer v with
  | Some a, Some b => beq_bytes (v_conf v) (rev (f4 (key_x b) (key_x a) (rev r) z))
  | _, _ => false
  end.
Definition view_msg (v : view) (pdu : bytes) : view :=
  match msg_of pdu with
  | Some (c, d) =>
      if (c =? 2) && Nat.leb 6 (length d) then mkV (v_conf v) (v_own v) (v_peer v) (v_passkey v) 0
      else if (c =? 3) && Nat.eqb (length d) 16 then mkV d (v_own v) (v_peer v) (v_passkey v) (v_rounds v)
      else if (c =? 4) && Nat.eqb (length d) 16 then
        mkV (v_conf v) (v_own v) (v_peer v) (v_passkey v)
            (if confirm_matches v d (passkey_bit_op (v_passkey v) (v_rounds v)) then S (v_rounds v) else v_rounds v)
      else if (c =? 12) && Nat.eqb (length d) 64 then
        match v_own v with
        | Some a => if negb (beq_bytes a d) && on_curve C (key_of_wire d)
                    then mkV (v_conf v) (v_own v) (Some d) (v_passkey v) 0 else v
        | None => v
        end
      else v
  | None => v
  end.
Definition view_step (v : view) (x : sact * list ev) : view :=
  let v' := match fst x with
            | AMsg _ pdu => view_msg v pdu
            | APair _ k _ => if existsb (fun e => match e with EOut _ => true | _ => false end) (snd x)
                             then mkV (v_conf v) (v_own v) (v_peer v) k (v_rounds v) else v
            | _ => v
            end in
  mkV (v_conf v') (sent_own (snd x) (v_own v')) (v_peer v') (v_passkey v') (v_rounds v').
Definition view_of (l : list (sact * list ev)) : view := fold_left view_step l view0.
End Toolbox.

(** The environment of every action provides 16 octets of randomness. *)
Definition act_env (a : sact) : option env :=
  match a with AMsg e _ => Some e | APair e _ _ => Some e | AStartEncryption e => Some e | APairTimeout => None end.
Definition env_ok (e : env) : Prop := length (e_rand e) = 16%nat.
Definition trace_ok (l : list (sact * list ev)) : Prop :=
  Forall (fun x => match act_env (fst x) with Some e => env_ok e | None => True end) l.

(** ** Peers *)
(** The PDUs sent by the device in a trace, and a peer that chooses its messages from them alone. *)
Definition sends (l : list (sact * list ev)) : list bytes :=
  flat_map (fun x => flat_map (fun e => match e with EOut (OSend pdu) => [pdu] | _ => [] end) (snd x)) l.
Definition follows (peer : list bytes -> bytes) (l : list (sact * list ev)) : Prop :=
  forall l1 e pdu evs l2, l = l1 ++ (AMsg e pdu, evs) :: l2 -> pdu = peer (sends l1).
(** The environments of the successive steps. *)
Definition under (E : nat -> env) (l : list (sact * list ev)) : Prop :=
  forall n x, nth_error l n = Some x -> act_env (fst x) = Some (E n).
(** Nothing fails on the device and its key pair is [ka]. *)
Definition calm (ka : Z) (e : env) : Prop :=
  e_write e = true /\ length (e_rand e) = 16%nat /\ e_rand_ok e = true /\ e_key e = Some ka /\ e_save e = true /\ e_cmd e = true.

Section Runs.
Variable C : prims.
Variables (la ra : bytes) (lat rat : Z).
(** A key agreement of the run: a Pairing Random message of the peer was accepted. *)
Definition key_agreed (l : list (sact * list ev)) (k : Z) (b na nb : bytes) : Prop :=
  exists l1 e pdu evs l2 s1, l = l1 ++ (AMsg e pdu, evs) :: l2 /\ srun C (smp_new la ra lat rat) l1 s1 /\ msg_of pdu = Some (4, nb) /\
    v_own (view_of C l1) = Some (key_wire (pub_of C k)) /\ v_peer (view_of C l1) = Some b /\ p_lrand (ctx s1) = Some na /\
    match p_type (ctx s1) with
    | Passkey => (20 <= v_rounds (view_of C (l1 ++ [(AMsg e pdu, evs)])))%nat
    | _ => confirm_matches C (view_of C l1) nb 0 = true
    end.
Definition op_a := addr_op lat la.
Definition op_b := addr_op rat ra.
Definition mackey_of k b na nb := rev (f5_mackey C (dh C k (key_of_wire b)) (rev na) (rev nb) op_a op_b).
Definition ltk_of k b na nb := rev (f5_ltk C (dh C k (key_of_wire b)) (rev na) (rev nb) op_a op_b).
(** No Encryption Information, Master Identification or Security Request message. *)
Definition plain (x : sact * list ev) : Prop :=
  match fst x with
  | AMsg _ pdu => match msg_of pdu with Some (c, _) => c <> 6 /\ c <> 7 /\ c <> 11 | None => True end
  | _ => True
  end.
(** What the count of passkey rounds means: each of the first bits was proved, under the present keys and passkey. *)
Definition round_in (l : list (sact * list ev)) (i : nat) (own peer : option bytes) (key : Z) : Prop :=
  exists l1 e pdu evs l2 r, l = l1 ++ (AMsg e pdu, evs) :: l2 /\ msg_of pdu = Some (4, r) /\ length r = 16%nat /\
    v_own (view_of C l1) = own /\ v_peer (view_of C l1) = peer /\ v_passkey (view_of C l1) = key /\ v_rounds (view_of C l1) = i /\
    confirm_matches C (view_of C l1) r (passkey_bit_op key i) = true.

End Runs.
(** The 128-bit value r of the DHKey checks. *)
Definition r_op (t : ptype) (passkey : Z) (oob : bytes) : bytes :=
  match t with Passkey => passkey_op passkey | Oob => rev oob | _ => repeat 0 16 end.
(** The temporary key of legacy pairing. *)
Definition tk_op (p : pctx) : bytes := match p_type p with Passkey => passkey_op (p_passkey p) | _ => repeat 0 16 end.

(** ** Panics *)
(** Stored bonds have keys of at most 16 bytes. *)
Definition find_ok (e : env) : Prop := match e_find e with Some b => (length (ltk b) <= 16)%nat | None => True end.
(** The environment delivers bytes, 16-byte random values and stored bonds with keys of at most 16 bytes. *)
Definition act_ok (a : sact) : Prop :=
  match act_env a with Some e => env_ok e /\ find_ok e | None => True end /\
  match a with AMsg _ pdu => all_bytes pdu | _ => True end.

Section Panics.
Variable C : prims.
(** The causes of a panic. *)
Definition panic_cause (v : view) (s : smp) (e : env) (pdu : bytes) : Prop :=
  match msg_of pdu with
  | None => True
  | Some (c, d) =>
      (c = 7 /\ ((length d < 10)%nat \/ p_bond (ctx s) = None)) \/
      (c = 12 /\ length d = 64%nat /\ v_own v = None) \/
      (c = 4 /\ length d = 16%nat /\ p_legacy (ctx s) = false /\ (v_own v = None \/ v_peer v = None)) \/
      (c = 2 /\ v_own v = None /\ e_key e = None) \/
      (rclosed s = true /\ exists h p o, dispatch C e c d = Some h /\ h (ctx s) = Ret (p, o, None))
  end.

End Panics.

(** ** Peers of a passkey pairing *)
(** The first action, all the others being messages of the peer. *)
Definition starts (a0 : sact) (l : list (sact * list ev)) : Prop :=
  hd_error (map fst l) = Some a0 /\ Forall (fun x => exists e pdu, fst x = AMsg e pdu) (tl l).
(** The parameters of the i-th PDU the device sent. *)
Definition arg (sent : list bytes) (i : nat) : bytes :=
  match nth_error sent i with
  | Some pdu => match msg_of pdu with Some (_, d) => d | None => [] end
  | None => []
  end.

Section Peers.
Variable C : prims.
(** A confirm value on the wire. *)
Definition conf (x1 x2 n : bytes) (z : Z) : bytes := rev (f4 C x1 x2 (rev n) z).
Variables (la ra : bytes) (lat rat kb : Z).
Notation opA := (addr_op lat la).
Notation opB := (addr_op rat ra).
Notation PB := (pub_of C kb).
Notation XB := (firstn 32 PB).

(** The Pairing Response of the peer: keyboard only, bonding, MITM protection, Secure Connections. *)
Definition peer_rsp : smpcfg := mkCfg 2 0 13 16 0 1.

(** The peer.  [know] is the passkey if the peer knows it.  A peer that knows it plays a round with two messages: Confirm,
    Random.  One that does not first sends a meaningless Confirm, which makes the device reveal its nonce, from which it
    learns the passkey bit committed to by the device's Confirm; then it sends the right Confirm and Random. *)
Section Peer.
Variable know : option Z.
Variable nb : nat -> bytes.
Definition per_round : nat := match know with Some _ => 2 | None => 3 end.
Definition guess_bit (sent : list bytes) (i : nat) : bool :=
  match know with
  | Some k => Z.testbit k (Z.of_nat i)
  | None => negb (beq_bytes (arg sent (2 + 3 * i)) (conf (key_x (arg sent 1)) XB (arg sent (3 + 3 * i)) 0x80))
  end.
Fixpoint guess (sent : list bytes) (n : nat) : Z :=
  match n with O => 0 | S n => guess sent n + 2 ^ Z.of_nat n * Z.b2z (guess_bit sent n) end.
Definition peer_check (sent : list bytes) : bytes :=
  let na := arg sent (3 + per_round * 19) in
  let w := dh C kb (key_of_wire (arg sent 1)) in
  rev (f6 C (f5_mackey C w (rev na) (rev (nb 19%nat)) opA opB) (rev (nb 19%nat)) (rev na)
          (passkey_op (guess sent 20)) (io_op peer_rsp) opB opA).
Definition peer (sent : list bytes) : bytes :=
  let n := length sent in
  if Nat.eqb n 0 then frame [11; 13]
  else if Nat.eqb n 1 then frame (2 :: cfg_bytes peer_rsp)
  else if Nat.eqb n 2 then frame (12 :: key_wire PB)
  else if Nat.ltb n (3 + per_round * 20) then
    let i := Nat.div (n - 3) per_round in
    let j := Nat.modulo (n - 3) per_round in
    if Nat.eqb (j + 1) per_round then frame (4 :: nb i)
    else if Nat.eqb (j + 2) per_round then
      frame (3 :: conf XB (key_x (arg sent 1)) (nb i) (if guess_bit sent i then 0x81 else 0x80))
    else frame (3 :: repeat 0 16)
  else frame (13 :: peer_check sent).
End Peer.

End Peers.
