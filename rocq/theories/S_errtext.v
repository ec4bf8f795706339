(** Specification vocabulary for the texts of error codes. *)
Require Import Verif.Base.
Require Import Coq.Strings.Ascii Coq.Strings.String.
Local Open Scope string_scope. Local Open Scope Z_scope.

(** the names of the error codes of the Attribute Protocol (Core 5.2, Vol 3, Part F, 3.4.1.1), from code 0 on *)
Definition att_names : list string := [
  "success"; "invalid handle"; "read not permitted"; "write not permitted"; "invalid PDU"; "insufficient authentication"; "request not supported"; "invalid offset"; 
  "insufficient authorization"; "prepare queue full"; "attribute not found"; "attribute not long"; "insufficient encryption key size"; "invalid attribute value length"; 
  "unlikely error"; "insufficient encryption"; "unsupported group type"; "insufficient resources"]%list.
(** the names of the controller's error codes (Core, Vol 2, Part D, 1.3), from code 0 on *)
Definition hci_names : list string := [
  "Success"; "Unknown HCI Command"; "Unknown Connection Identifier"; "Hardware Failure"; "Page Timeout"; "Authentication Failure"; "PIN or Key Missing"; "Memory Capacity Exceeded"; 
  "Connection Timeout"; "Connection Limit Exceeded"; "Synchronous Connection Limit To A Device Exceeded"; "ACL Connection Already Exists"; "Command Disallowed"; 
  "Connection Rejected due to Limited Resources"; "Connection Rejected Due To Security Reasons"; "Connection Rejected due to Unacceptable BD_ADDR"; 
  "Connection Accept Timeout Exceeded"; "Unsupported Feature or Parameter Value"; "Invalid HCI Command Parameters"; "Remote User Terminated Connection"; 
  "Remote Device Terminated Connection due to Low Resources"; "Remote Device Terminated Connection due to Power Off"; "Connection Terminated By Local Host"; "Repeated Attempts"; 
  "Pairing Not Allowed"; "Unknown LMP PDU"; "Unsupported Remote Feature / Unsupported LMP Feature"; "SCO Offset Rejected"; "SCO Interval Rejected"; "SCO Air Mode Rejected"; 
  "Invalid LMP Parameters / Invalid LL Parameters"; "Unspecified Error"; "Unsupported LMP Parameter Value / Unsupported LL Parameter Value"; "Role Change Not Allowed"; 
  "LMP Response Timeout / LL Response Timeout"; "LMP Error Transaction Collision"; "LMP PDU Not Allowed"; "Encryption Mode Not Acceptable"; "Link Key cannot be Changed"; 
  "Requested QoS Not Supported"; "Instant Passed"; "Pairing With Unit Key Not Supported"; "Different Transaction Collision"; "Reserved"; "QoS Unacceptable Parameter"; "QoS Rejected"; 
  "Channel Classification Not Supported"; "Insufficient Security"; "Parameter Out Of Mandatory Range"; "Reserved"; "Role Switch Pending"; "Reserved"; "Reserved Slot Violation"; 
  "Role Switch Failed"; "Extended Inquiry Response Too Large"; "Secure Simple Pairing Not Supported By Host"; "Host Busy - Pairing"; 
  "Connection Rejected due to No Suitable Channel Found"; "Controller Busy"; "Unacceptable Connection Parameters"; "Directed Advertising Timeout"; 
  "Connection Terminated due to MIC Failure"; "Connection Failed to be Established"; "MAC Connection Failed"; 
  "Coarse Clock Adjustment Rejected but Will Try to Adjust Using Clock Dragging"]%list.
(** the hexadecimal digits of a byte, capital letters *)
Definition hex_byte (i : Z) (d1 d2 : ascii) : Prop :=
  exists a b, 0 <= a < 16 /\ 0 <= b < 16 /\ i = 16 * a + b /\
    nth_error (list_ascii_of_string "0123456789ABCDEF") (Z.to_nat a) = Some d1 /\ nth_error (list_ascii_of_string "0123456789ABCDEF") (Z.to_nat b) = Some d2.
(** codes the specification calls reserved *)
Definition hci_reserved (i : Z) : Prop := i = 0x2B \/ i = 0x31 \/ i = 0x33.
