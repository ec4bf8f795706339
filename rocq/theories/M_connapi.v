(** Model of what a connection says of itself: LocalAddr, ReadRSSI and ConnectionHandle of linux/hci/conn.go (RemoteAddr is in M_hci).
    The controller is the parameter of M_gap: commands are sent one at a time (the command path itself is M_hcicmd). *)
Require Import Verif.Base Verif.M_uuid Verif.M_advrep Verif.M_cmd Verif.M_gap Verif.M_hci.

(** conn.go:532 LocalAddr; gap.go:17 Addr.  [h_addr] holds HCI.addr, most significant byte first (M_gap, hci.go:268-269). *)
Definition local_addr (h : M_gap.host) : bytes := new_addr (hw_string (M_gap.h_addr h)).
(** conn.go:540-554 ReadRSSI (and linux/att/client.go:120-122, linux/gatt/client.go:328-333, which pass the call on; their locking is M_gattlock):
    the value and whether there was no error.  The texts of the errors are not modelled. *)
Definition read_rssi {K} (step : controller K) (c : conn) (k : K) : go (K * (Z * bool)) :=
  let! (k, r) := ask step k "ReadRSSI" (field "Handle" (GInt (k_handle c)) none) "ReadRSSIRP" in
  Ret (k, match r with
          | None => (127, false)
          | Some l => if get_int (Some l) "Status" =? 0 then (get_int (Some l) "RSSI", true) else (127, false)
          end).
(** conn.go:568-570 and linux/gatt/client.go:481-483 ConnectionHandle: uint8(c.handle & 0xff); c.handle is the event's (hci.go:800) *)
Definition connection_handle (c : conn) : Z := Z.land (k_handle c) 255.
