(** Model of the texts of error codes: ATTError.Error (error.go) and ErrCommand.Error (linux/hci/error.go). *)
Require Import Verif.Base.
Require Import Coq.Strings.Ascii Coq.Strings.String.
Local Open Scope string_scope. Local Open Scope Z_scope. Local Open Scope list_scope.

(** fmt's %02X of a byte *)
Definition upper_hex (n : Z) : string :=
  String (nth (Z.to_nat n) ["0"; "1"; "2"; "3"; "4"; "5"; "6"; "7"; "8"; "9"; "A"; "B"; "C"; "D"; "E"; "F"]%char "0"%char) EmptyString.
Definition x02 (i : Z) : string := upper_hex (i / 16) ++ upper_hex (i mod 16).
(** indexing a Go map[..]string: the empty string when the key is missing *)
Fixpoint lookup_text (m : list (Z * string)) (k : Z) : option string :=
  match m with [] => None | (c, s) :: r => if k =? c then Some s else lookup_text r k end.
Definition text_at (m : list (Z * string)) (k : Z) : string := match lookup_text m k with Some s => s | None => "" end.

(** error.go:59-78 errName *)
Definition errName : list (Z * string) := [
    (0x00, "success");
    (0x01, "invalid handle");
    (0x02, "read not permitted");
    (0x03, "write not permitted");
    (0x04, "invalid PDU");
    (0x05, "insufficient authentication");
    (0x06, "request not supported");
    (0x07, "invalid offset");
    (0x08, "insufficient authorization");
    (0x09, "prepare queue full");
    (0x0a, "attribute not found");
    (0x0b, "attribute not long");
    (0x0c, "insufficient encryption key size");
    (0x0d, "invalid attribute value length");
    (0x0e, "unlikely error");
    (0x0f, "insufficient encryption");
    (0x10, "unsupported group type");
    (0x11, "insufficient resources")].
(** error.go:43-57 ATTError.Error *)
Definition att_error_text (i : Z) : string :=
  if i <? 0x11 then text_at errName i
  else if (0x12 <=? i) && (i <=? 0x7F) then "reserved error code (0x" ++ x02 i ++ ")"
  else if (0x80 <=? i) && (i <=? 0x9F) then "application error code (0x" ++ x02 i ++ ")"
  else if (0xA0 <=? i) && (i <=? 0xDF) then "reserved error code (0x" ++ x02 i ++ ")"
  else if (0xE0 <=? i) && (i <=? 0xFF) then "profile or service error"
  else "unknown error".

(** linux/hci/error.go:95-161 errCmd *)
Definition errCmd : list (Z * string) := [
    (0x00, "Success");
    (0x01, "Unknown HCI Command");
    (0x02, "Unknown Connection Identifier");
    (0x03, "Hardware Failure");
    (0x04, "Page Timeout");
    (0x05, "Authentication Failure");
    (0x06, "PIN or Key Missing");
    (0x07, "Memory Capacity Exceeded");
    (0x08, "Connection Timeout");
    (0x09, "Connection Limit Exceeded");
    (0x0A, "Synchronous Connection Limit To A Device Exceeded");
    (0x0B, "ACL Connection Already Exists");
    (0x0C, "Command Disallowed");
    (0x0D, "Connection Rejected due to Limited Resources");
    (0x0E, "Connection Rejected Due To Security Reasons");
    (0x0F, "Connection Rejected due to Unacceptable BD_ADDR");
    (0x10, "Connection Accept Timeout Exceeded");
    (0x11, "Unsupported Feature or Parameter Value");
    (0x12, "Invalid HCI Command Parameters");
    (0x13, "Remote User Terminated Connection");
    (0x14, "Remote Device Terminated Connection due to Low Resources");
    (0x15, "Remote Device Terminated Connection due to Power Off");
    (0x16, "Connection Terminated By Local Host");
    (0x17, "Repeated Attempts");
    (0x18, "Pairing Not Allowed");
    (0x19, "Unknown LMP PDU");
    (0x1A, "Unsupported Remote Feature / Unsupported LMP Feature");
    (0x1B, "SCO Offset Rejected");
    (0x1C, "SCO Interval Rejected");
    (0x1D, "SCO Air Mode Rejected");
    (0x1E, "Invalid LMP Parameters / Invalid LL Parameters");
    (0x1F, "Unspecified Error");
    (0x20, "Unsupported LMP Parameter Value / Unsupported LL Parameter Value");
    (0x21, "Role Change Not Allowed");
    (0x22, "LMP Response Timeout / LL Response Timeout");
    (0x23, "LMP Error Transaction Collision");
    (0x24, "LMP PDU Not Allowed");
    (0x25, "Encryption Mode Not Acceptable");
    (0x26, "Link Key cannot be Changed");
    (0x27, "Requested QoS Not Supported");
    (0x28, "Instant Passed");
    (0x29, "Pairing With Unit Key Not Supported");
    (0x2A, "Different Transaction Collision");
    (0x2B, "Reserved");
    (0x2C, "QoS Unacceptable Parameter");
    (0x2D, "QoS Rejected");
    (0x2E, "Channel Classification Not Supported");
    (0x2F, "Insufficient Security");
    (0x30, "Parameter Out Of Mandatory Range");
    (0x31, "Reserved");
    (0x32, "Role Switch Pending");
    (0x33, "Reserved");
    (0x34, "Reserved Slot Violation");
    (0x35, "Role Switch Failed");
    (0x36, "Extended Inquiry Response Too Large");
    (0x37, "Secure Simple Pairing Not Supported By Host");
    (0x38, "Host Busy - Pairing");
    (0x39, "Connection Rejected due to No Suitable Channel Found");
    (0x3A, "Controller Busy");
    (0x3B, "Unacceptable Connection Parameters");
    (0x3C, "Directed Advertising Timeout");
    (0x3D, "Connection Terminated due to MIC Failure");
    (0x3E, "Connection Failed to be Established");
    (0x3F, "MAC Connection Failed");
    (0x40, "Coarse Clock Adjustment Rejected but Will Try to Adjust Using Clock Dragging")].
(** linux/hci/error.go:86-93 ErrCommand.Error *)
Definition cmd_error_text (e : Z) : string := match lookup_text errCmd e with Some s => s | None => text_at errCmd 0x1F end.
