(** What a connection should say of itself, C180. *)
Require Import Verif.Base.

(** a byte as two lower-case hexadecimal digits (characters are their codes); [':'] is 58 *)
Definition hexdigit (d : Z) : Z := nth (Z.to_nat d) [48; 49; 50; 51; 52; 53; 54; 55; 56; 57; 97; 98; 99; 100; 101; 102] 0.
Definition two (x : Z) : bytes := [hexdigit (x / 16); hexdigit (x mod 16)].
(** the usual text of a six-byte address, given least significant byte first (as it is on the wire) *)
Definition mac_text_of (a : bytes) : bytes :=
  match a with
  | [a0; a1; a2; a3; a4; a5] => two a5 ++ 58 :: two a4 ++ 58 :: two a3 ++ 58 :: two a2 ++ 58 :: two a1 ++ 58 :: two a0
  | _ => []
  end.
(** the signed value of a byte *)
Definition signed_byte (r : Z) : Z := if r <? 128 then r else r - 256.
(** the Read RSSI command for a connection handle: packet type 1, opcode 0x1405, two parameter octets *)
Definition read_rssi_packet (h : Z) : bytes := [1; 5; 20; 2; h mod 256; h / 256].
