(** Model of Advertisement.ToMap (linux/hci/adv.go:186-247) with Packet.Map (linux/adv/packet.go:47-49). *)
Require Import Verif.Base Verif.M_uuid Verif.M_adv Verif.M_advrep.

(** adv.go (root) 31-63: the keys ToMap uses; they are distinct strings, those of the packet are M_adv's *)
Inductive tkey := TMac | TAddrType | TEventType | TConnectable | TRssi | TAdv (k : advkey).
(** the dynamic values: string, uint8 or int, bool, or what the packet's map holds *)
Inductive tval := UText (b : bytes) | UNum (x : Z) | UBool (b : bool) | UAdv (v : advval).
Definition tkey_eqb (a b : tkey) : bool :=
  match a, b with
  | TMac, TMac | TAddrType, TAddrType | TEventType, TEventType | TConnectable, TConnectable | TRssi, TRssi => true
  | TAdv j, TAdv k => advkey_eqb j k
  | _, _ => false
  end.
Notation tmap := (tkey -> option tval).
Definition tset (m : tmap) (k : tkey) (v : tval) : tmap := fun j => if tkey_eqb k j then Some v else m j.

(** adv.go:226-242: one entry of the packet's map *)
Definition tomap_entry (k : advkey) (v : advval) : go tval :=
  match k, v with
  | KName, VBytes b => Ret (UText b)
  | KTxpwr, VBytes b => let! x := gidx b 0 in Ret (UNum x)
  | _, _ => Ret (UAdv v)
  end.
(** adv.go:223-243: for k, v := range a.p.Map(). Go's order is not determined; the keys are distinct, so it does not matter
    (modelled: one fixed order). a.p is never nil in an Advertisement of newAdvertisement. *)
Fixpoint tomap_loop (ks : list advkey) (pm : advmap) (m : tmap) : go tmap :=
  match ks with
  | [] => Ret m
  | k :: r => match mget pm k with
              | None => tomap_loop r pm m
              | Some v => let! x := tomap_entry k v in tomap_loop r pm (tset m (TAdv k) x)
              end
  end.
Definition all_keys : list advkey := [KFlags; KServices; KSolicited; KServiceData; KName; KTxpwr; KMfg; KErr].
(** adv.go:186-247 ToMap *)
Definition to_map (a : advert) : gopt tmap :=
  let? ad := ad_addr a in
  let m := tset (fun _ => None) TMac (UText (remove_ch ch_colon (addr_string (fst ad)))) in
  let? at_ := address_type (ad_e a) (ad_i a) in
  let m := tset m TAddrType (UNum at_) in
  let? et := event_type (ad_e a) (ad_i a) in
  let m := tset m TEventType (UNum et) in
  let? c := ad_connectable a in
  let m := tset m TConnectable (UBool c) in
  let? r := ad_rssi a in
  let m := tset m TRssi (UNum (if negb (r =? 0) then r else -128)) in
  let! m' := tomap_loop all_keys (ad_pm a) m in
  Ret (Some m').
