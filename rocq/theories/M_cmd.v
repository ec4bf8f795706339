(** Model of HCI command marshalling: linux/hci/cmd/cmd.go, the command table cmd_gen.go (M_cmdtab.v), vendor commands
    (linux/hci/vendor.go), and the parts of linux/hci/hci.go that build the packet and use the return parameters. *)
Require Import Verif.Base.
Require Export Verif.M_cmdtab.

(** A struct value gives every field an integer or a byte array (a slice field: its bytes, never encodable). *)
Inductive gval := GInt (z : Z) | GBytes (l : bytes).
Definition has_type (t : ftype) (v : gval) : Prop :=
  match t, v with
  | FUint w, GInt z => 0 <= z < 256 ^ Z.of_nat w
  | FInt w, GInt z => - 256 ^ Z.of_nat w <= 2 * z < 256 ^ Z.of_nat w
  | FArr n, GBytes l => length l = n /\ all_bytes l
  | FSlice, GBytes _ => True
  | _, _ => False
  end.
Definition struct_value (fs : list (string * ftype)) (fv : string -> gval) : Prop :=
  Forall (fun f => has_type (snd f) (fv (fst f))) fs.

(** encoding/binary.Write with LittleEndian of one field, of a struct: fields in order, no padding; a slice in a struct is
    refused. *)
Definition enc_field (t : ftype) (v : gval) : option bytes :=
  match t, v with
  | FUint w, GInt z => Some (le_bytes w z)
  | FInt w, GInt z => Some (le_bytes w z)
  | FArr n, GBytes l => Some l
  | _, _ => None
  end.
Fixpoint enc_struct (fs : list (string * ftype)) (fv : string -> gval) : option bytes :=
  match fs with
  | [] => Some []
  | (n, t) :: r =>
      match enc_field t (fv n), enc_struct r fv with Some a, Some b => Some (a ++ b) | _, _ => None end
  end.

(** cmd.go:18-25 marshal (and vendor.go:24-33 CustomCommand.Marshal): [m] is the buffer, its capacity its length.  A
    bytes.Buffer on m[:0]: one Write of the whole encoding lands in m if it fits its capacity; otherwise the Buffer moves to
    fresh memory and m keeps its zeros.  None is a returned error. *)
Definition marshal (len : Z) (enc : option bytes) (m : bytes) : option bytes :=
  if Z.of_nat (length m) <? len then None
  else match enc with
       | None => None
       | Some e => Some (if Nat.leb (length e) (length m) then e ++ skipn (length e) m else m)
       end.

(** const.go:38 chCmdBufElementSize *)
Definition cmd_buf_size : nat := 64.
(** [copy(dst, src)] *)
Definition gcopy (dst src : bytes) : bytes := firstn (length dst) src ++ skipn (length src) dst.

(** hci.go:379-406 (in send): the bytes handed to the socket for a command with the given OpCode(), Len() and encoding.
    [make] with a negative length panics; a marshal error runs [h.muSent.Unlock()] on a mutex that is not locked, which is a
    fatal error (modelled as Panic); the command buffer is a fresh 64-byte slice. *)
Definition send_bytes (op len : Z) (enc : option bytes) : go bytes :=
  if len <? 0 then Panic else
  match marshal len enc (repeat 0 (Z.to_nat len)) with
  | None => Panic
  | Some m =>
      let b := [1; u8 op; u8 (op / 256); u8 len] ++ gcopy (repeat 0 (cmd_buf_size - 4)) m in
      gslice b 0 (4 + Z.to_nat len)
  end.

(** Sending a command of the table; Send accepts only a type with a Marshal method (hci.go Command interface). *)
Definition cmd_bytes (d : cmddesc) (fv : string -> gval) : option (go bytes) :=
  if cd_marshals d then Some (send_bytes (cd_op d) (cd_len d) (enc_struct (cd_fields d) fv)) else None.

(** vendor.go:42-61 SendVendorSpecificCommand(op uint16, length uint8, v): [enc] is what binary.Write makes of v (None: not
    encodable).  None is the returned error for length > 252. *)
Definition vendor_bytes (op length : Z) (enc : option bytes) : option (go bytes) :=
  if 252 <? length then None else Some (send_bytes (Z.lor (63 * 1024) op) length enc).

(** cmd.go:27-30 unmarshal: binary.Read of a struct of fixed-size fields; None when the data are too short; longer data
    are accepted. *)
Definition fsize (t : ftype) : nat := match t with FUint w => w | FInt w => w | FArr n => n | FSlice => 0 end.
Definition dec_field (t : ftype) (b : bytes) : gval :=
  match t with
  | FUint _ => GInt (le_val b)
  | FInt w => GInt (if 256 ^ Z.of_nat w <=? 2 * le_val b then le_val b - 256 ^ Z.of_nat w else le_val b)
  | FArr _ => GBytes b
  | FSlice => GBytes []
  end.
Fixpoint unmarshal (fs : list (string * ftype)) (b : bytes) : option (list (string * gval)) :=
  match fs with
  | [] => Some []
  | (n, t) :: r =>
      if Nat.leb (fsize t) (length b) then
        match unmarshal r (skipn (fsize t) b) with
        | Some l => Some ((n, dec_field t (firstn (fsize t) b)) :: l)
        | None => None
        end
      else None
  end.

(** hci.go:311-325 Send, after send returned the return parameters [b]: the status octet, then the caller's return
    parameter struct if one was given. *)
Inductive sres := SErrCommand (status : Z) | SErrDecode | SOk (fields : list (string * gval)).
Definition send_result (b : bytes) (r : option rpdesc) : sres :=
  let fin := match r with
             | None => SOk []
             | Some d => match unmarshal (rd_fields d) b with Some l => SOk l | None => SErrDecode end
             end in
  match b with
  | s :: _ => if s =? 0 then fin else SErrCommand s
  | [] => fin
  end.
