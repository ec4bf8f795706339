(** Model of the time a request of the attribute client takes (linux/att/client.go:514-542 sendReq): the select of each round of the
    loop makes a new timer of two seconds (538).  The input is what sendReq is handed after it wrote its request, each with the time since
    the round began, in milliseconds: a PDU from Loop (521), with whether the answer "request not supported" to a PDU of another kind could
    be written (531-535), or an error from Loop (536).  Result: how the wait ends and how long it took.
    Simplifications: work between two rounds takes no time; what comes exactly when the timer fires is late. *)
Require Import Verif.Base Verif.M_attcli.

Inductive winp := WPdu (b : bytes) (wok : bool) | WErr.
Inductive wres := RGot (b : bytes) | RFail | RTimeout.
Fixpoint rwait (op : Z) (l : list (Z * winp)) : wres * Z :=
  match l with
  | [] => (RTimeout, 2000)
  | (d, x) :: r =>
      if d <? 2000 then
        match x with
        | WErr => (RFail, d)
        | WPdu b wok =>
            if (hd 0 b =? 1) || (hd 0 b =? rsp_of_req op) then (RGot b, d)
            else if wok then let (res, t) := rwait op r in (res, d + t) else (RFail, d)
        end
      else (RTimeout, 2000)
  end.
