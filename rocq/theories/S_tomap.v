(** What ToMap should give for a report (and the scan response attached to it), C173. *)
Require Import Verif.Base Verif.M_adv Verif.S_adv Verif.S_advrep Verif.M_tomap.

(** lower-case hexadecimal, two digits per byte *)
Definition dig (d : Z) : Z := if d <? 10 then 48 + d else 87 + d.
Definition low_hex (b : bytes) : bytes := flat_map (fun x => [dig (x / 16); dig (x mod 16)]) b.

(** the data listed for a service data UUID *)
Fixpoint listed (k : bytes) (m : list (bytes * list bytes)) : option (list bytes) :=
  match m with [] => None | (k', l) :: r => if beq_bytes k' k then Some l else listed k r end.

(** the entry of each key, for the report r whose data (with the scan response's) begins with the records rs *)
Definition if_any {A B} (l : list A) (f : list A -> B) : option B := match l with [] => None | _ => Some (f l) end.
Definition right_entry (r : report) (rs : list rec) (m : tkey -> option tval) (k : tkey) : Prop :=
  match k with
  | TMac => m k = Some (UText (low_hex (rev (r_addr r))))
  | TAddrType => m k = Some (UNum (r_addrtype r))
  | TEventType => m k = Some (UNum (r_type r))
  | TConnectable => m k = Some (UBool ((r_type r =? 0) || (r_type r =? 1)))
  | TRssi => m k = Some (UNum (if r_rssi r =? 0 then -128 else signed8 (r_rssi r)))
  | TAdv KFlags => m k = if_any (exp_bytes is_flags rs) (fun b => UAdv (VBytes b))
  | TAdv KServices => m k = if_any (exp_services rs) (fun l => UAdv (VUuids l))
  | TAdv KSolicited => m k = if_any (exp_solicited rs) (fun l => UAdv (VUuids l))
  | TAdv KName => m k = if_any (exp_bytes is_name rs) UText
  | TAdv KTxpwr => m k = option_map UNum (hd_error (exp_bytes is_txpwr rs))
  | TAdv KMfg => m k = if_any (exp_mfg rs) (fun b => UAdv (VBytes b))
  | TAdv KServiceData =>
      (exp_svc rs = [] -> m k = None) /\
      (exp_svc rs <> [] -> exists l, m k = Some (UAdv (VSvc l)) /\ NoDup (map fst l) /\
         (forall t, In t (map fst l) -> exists p, In p (exp_svc rs) /\ t = low_hex (rev (fst p))) /\
         (forall p, In p (exp_svc rs) -> listed (low_hex (rev (fst p))) l = Some (data_of (fst p) (exp_svc rs))))
  | TAdv KErr => True (* see the theorem *)
  end.
