(** Model of linux/gatt/client.go over the attribute client of M_attcli.
    Services, characteristics and descriptors are values; the in-place updates of the Go objects become part of the results.  The two
    unbounded discovery loops and the long read carry fuel: [None] means that many rounds were not enough.
    Not modelled: the lock (every method holds it throughout), logging, texts of errors. *)
Require Import Verif.Base Verif.M_uuid Verif.M_attdb Verif.M_attsrv Verif.M_attcli.

(** profile.go:200-209, 117-134, 90-96: what discovery fills in *)
Record gdesc := mkGD { gd_uuid : bytes; gd_h : Z }.
Record gchar := mkGC { gc_uuid : bytes; gc_prop : Z; gc_h : Z; gc_vh : Z; gc_endh : Z; gc_descs : list gdesc; gc_cccd : option gdesc }.
Record gsvc := mkGV { gv_uuid : bytes; gv_h : Z; gv_endh : Z; gv_chars : list gchar }.
(** gatt/client.go:35-41; handlers are numbers *)
Record sub := mkSub { sb_cccdh : Z; sb_ccc : Z; sb_n : option nat; sb_i : option nat; sb_id : Z }.
(** gatt/client.go:20-33 *)
Record gcl := mkG { g_cli : cli; g_profile : option (list gsvc); g_subs : list (Z * sub) }.
Definition with_cli (g : gcl) (c : cli) : gcl := mkG c (g_profile g) (g_subs g).
Definition with_profile (g : gcl) (x : option (list gsvc)) : gcl := mkG (g_cli g) x (g_subs g).
Definition with_subs (g : gcl) (m : list (Z * sub)) : gcl := mkG (g_cli g) (g_profile g) m.
(** gatt/client.go:44-57 *)
Definition new_gcl (mtu : Z) : gcl := mkG (new_client mtu) None [].

(** binary.LittleEndian.Uint16(b[i:j]) *)
Definition s16 (b : bytes) (i : nat) : go Z := let! t := gslice b i (i + 2) in gle16 t.
(** [filter == nil || ble.Contains(filter, u)]; None = nil *)
Definition keep (flt : option (list bytes)) (u : bytes) : bool := match flt with None => true | Some _ => contains flt u end.
Definition flt_len (flt : option (list bytes)) : nat := match flt with None => 0 | Some l => length l end.
Definition err_of {A B} (r : cres A) : cres B := match r with COk _ => CFail | CAtt e => CAtt e | CArg => CArg | CInvalid => CInvalid | CFail => CFail end.

(** gatt/client.go:152-173 the loop over the entries of a response; result: services, next start, return now.  The remaining data
    shrinks by at least 4 bytes per round, its length is enough fuel. *)
Fixpoint svc_entries (n : nat) (flt : option (list bytes)) (l : nat) (b : bytes) (start : Z) (acc : list gsvc) : go (list gsvc * Z * bool) :=
  match n, b with
  | S n', _ :: _ =>
      let! h := s16 b 0 in let! endh := s16 b 2 in let! u := gslice b 4 l in
      let acc := if keep flt u then acc ++ [mkGV u h endh []] else acc in
      if endh =? 65535 then Ret (acc, start, true)
      else if Nat.eqb (length acc) (flt_len flt) then Ret (acc, start, true)
      else let! b' := gfrom b l in svc_entries n' flt l b' (u16 (endh + 1)) acc
  | _, _ => Ret (acc, start, false)
  end.
(** gatt/client.go:143-174 *)
Fixpoint svc_loop (fuel : nat) (p : peer) (flt : option (list bytes)) (c : cli) (start : Z) (acc : list gsvc) : go (option (cli * list gsvc * cres unit)) :=
  match fuel with
  | O => Ret None
  | S f =>
      let! (c', r) := read_by_group_type p c start 65535 u_primary in
      match r with
      | COk (l, b) => let! (acc', start', stop) := svc_entries (length b) flt (Z.to_nat l) b start acc in
                      if stop then Ret (Some (c', acc', COk tt)) else svc_loop f p flt c' start' acc'
      | CAtt 10 => Ret (Some (c', acc, COk tt))
      | _ => Ret (Some (c', acc, err_of r))
      end
  end.
(** gatt/client.go:137-175 DiscoverServices *)
Definition discover_services (fuel : nat) (p : peer) (flt : option (list bytes)) (g : gcl) : go (option (gcl * cres (list gsvc))) :=
  let acc := match g_profile g with None => [] | Some l => l end in
  let! x := svc_loop fuel p flt (g_cli g) 1 acc in
  match x with
  | None => Ret None
  | Some (c', acc', r) => Ret (Some (with_profile (with_cli g c') (Some acc'), match r with COk _ => COk acc' | e => err_of e end))
  end.

(** lastChar.EndHandle = e, for a lastChar at index i of the list (None: there is none, or the filter dropped it) *)
Definition set_end (cs : list gchar) (i : option nat) (e : Z) : list gchar :=
  match i with
  | None => cs
  | Some k => match nth_error cs k with
              | None => cs
              | Some c => upd cs k (mkGC (gc_uuid c) (gc_prop c) (gc_h c) (gc_vh c) e (gc_descs c) (gc_cccd c))
              end
  end.
(** gatt/client.go:199-220 *)
Fixpoint chr_entries (n : nat) (flt : option (list bytes)) (l : nat) (b : bytes) (endh start : Z) (cs : list gchar) (last : option nat) : go (list gchar * Z * option nat) :=
  match n, b with
  | S n', _ :: _ =>
      let! h := s16 b 0 in let! pr := gidx b 2 in let! vh := s16 b 3 in let! u := gslice b 5 l in
      let cs' := if keep flt u then cs ++ [mkGC u pr h vh endh [] None] else cs in
      let cs' := set_end cs' last (u16 (h - 1)) in
      let last := if keep flt u then Some (length cs) else None in
      let! b' := gfrom b l in chr_entries n' flt l b' endh (u16 (vh + 1)) cs' last
  | _, _ => Ret (cs, start, last)
  end.
(** gatt/client.go:190-221 *)
Fixpoint chr_loop (fuel : nat) (p : peer) (flt : option (list bytes)) (c : cli) (endh start : Z) (cs : list gchar) (last : option nat) : go (option (cli * list gchar * cres unit)) :=
  match fuel with
  | O => Ret None
  | S f =>
      if start <=? endh then
        let! (c', r) := read_by_type p c start endh u_char in
        match r with
        | COk (l, b) => let! (cs', start', last') := chr_entries (length b) flt (Z.to_nat l) b endh start cs last in
                        chr_loop f p flt c' endh start' cs' last'
        | CAtt 10 => Ret (Some (c', cs, COk tt))
        | _ => Ret (Some (c', cs, err_of r))
        end
      else Ret (Some (c, cs, COk tt))
  end.
(** gatt/client.go:187-223 DiscoverCharacteristics: client, service as left, result *)
Definition discover_chars (fuel : nat) (p : peer) (flt : option (list bytes)) (c : cli) (s : gsvc) : go (option (cli * gsvc * cres (list gchar))) :=
  let! x := chr_loop fuel p flt c (gv_endh s) (gv_h s) (gv_chars s) None in
  match x with
  | None => Ret None
  | Some (c', cs, r) => Ret (Some (c', mkGV (gv_uuid s) (gv_h s) (gv_endh s) cs, match r with COk _ => COk cs | e => err_of e end))
  end.

(** gatt/client.go:242-254 *)
Fixpoint dsc_entries (n : nat) (flt : option (list bytes)) (l : nat) (b : bytes) (start : Z) (ds : list gdesc) (cccd : option gdesc) : go (list gdesc * Z * option gdesc) :=
  match n, b with
  | S n', _ :: _ =>
      let! h := s16 b 0 in let! u := gslice b 2 l in
      let ds := if keep flt u then ds ++ [mkGD u h] else ds in
      let cccd := if uuid_equal u u_cccd then Some (mkGD u h) else cccd in
      let! b' := gfrom b l in dsc_entries n' flt l b' (u16 (h + 1)) ds cccd
  | _, _ => Ret (ds, start, cccd)
  end.
(** gatt/client.go:230-255 *)
Fixpoint dsc_loop (fuel : nat) (p : peer) (flt : option (list bytes)) (c : cli) (endh start : Z) (ds : list gdesc) (cccd : option gdesc) : go (option (cli * list gdesc * option gdesc * cres unit)) :=
  match fuel with
  | O => Ret None
  | S f =>
      if start <=? endh then
        let! (c', r) := find_information p c start endh in
        match r with
        | COk (fm, b) => let! (ds', start', cccd') := dsc_entries (length b) flt (if fm =? 2 then 18 else 4) b start ds cccd in
                         dsc_loop f p flt c' endh start' ds' cccd'
        | CAtt 10 => Ret (Some (c', ds, cccd, COk tt))
        | _ => Ret (Some (c', ds, cccd, err_of r))
        end
      else Ret (Some (c, ds, cccd, COk tt))
  end.
(** gatt/client.go:227-257 DiscoverDescriptors *)
Definition discover_descs (fuel : nat) (p : peer) (flt : option (list bytes)) (c : cli) (ch : gchar) : go (option (cli * gchar * cres (list gdesc))) :=
  let! x := dsc_loop fuel p flt c (gc_endh ch) (u16 (gc_vh ch + 1)) (gc_descs ch) (gc_cccd ch) in
  match x with
  | None => Ret None
  | Some (c', ds, cccd, r) => Ret (Some (c', mkGC (gc_uuid ch) (gc_prop ch) (gc_h ch) (gc_vh ch) (gc_endh ch) ds cccd, match r with COk _ => COk ds | e => err_of e end))
  end.

(** gatt/client.go:99-104 the inner loop of DiscoverProfile: characteristics as left, error *)
Fixpoint profile_chars (fuel : nat) (p : peer) (c : cli) (cs : list gchar) : go (option (cli * list gchar * cres unit)) :=
  match cs with
  | [] => Ret (Some (c, [], COk tt))
  | ch :: r =>
      let! x := discover_descs fuel p None c ch in
      match x with
      | None => Ret None
      | Some (c', ch', COk _) => let! y := profile_chars fuel p c' r in
          match y with None => Ret None | Some (c'', r', e) => Ret (Some (c'', ch' :: r', e)) end
      | Some (c', ch', e) => Ret (Some (c', ch' :: r, err_of e))
      end
  end.
(** gatt/client.go:94-105 the outer loop *)
Fixpoint profile_svcs (fuel : nat) (p : peer) (c : cli) (ss : list gsvc) : go (option (cli * list gsvc * cres unit)) :=
  match ss with
  | [] => Ret (Some (c, [], COk tt))
  | s :: r =>
      let! x := discover_chars fuel p None c s in
      match x with
      | None => Ret None
      | Some (c', s', COk cs) =>
          let! y := profile_chars fuel p c' cs in
          match y with
          | None => Ret None
          | Some (c'', cs', COk _) => let! z := profile_svcs fuel p c'' r in
              match z with None => Ret None | Some (c3, r', e) => Ret (Some (c3, mkGV (gv_uuid s') (gv_h s') (gv_endh s') cs' :: r', e)) end
          | Some (c'', cs', e) => Ret (Some (c'', mkGV (gv_uuid s') (gv_h s') (gv_endh s') cs' :: r, err_of e))
          end
      | Some (c', s', e) => Ret (Some (c', s' :: r, err_of e))
      end
  end.
(** gatt/client.go:86-108 DiscoverProfile *)
Definition discover_profile (fuel : nat) (p : peer) (force : bool) (g : gcl) : go (option (gcl * cres (list gsvc))) :=
  match g_profile g, force with
  | Some l, false => Ret (Some (g, COk l))
  | _, _ =>
      let! x := discover_services fuel p None g in
      match x with
      | None => Ret None
      | Some (g1, COk ss) =>
          let! y := profile_svcs fuel p (g_cli g1) ss in
          match y with
          | None => Ret None
          | Some (c', ss', COk _) => Ret (Some (with_profile (with_cli g1 c') (Some ss'), COk ss'))
          | Some (c', ss', e) => Ret (Some (with_profile (with_cli g1 c') (Some ss'), err_of e))
          end
      | Some (g1, e) => Ret (Some (g1, err_of e))
      end
  end.

(** gatt/client.go:286-291 *)
Fixpoint long_loop (fuel : nat) (p : peer) (c : cli) (h : Z) (buf rd : bytes) : go (option (cli * cres bytes)) :=
  match fuel with
  | O => Ret None
  | S f =>
      if Z.of_nat (length rd) >=? cmtu c - 1 then
        let! (c', r) := read_blob p c h (u16 (Z.of_nat (length buf))) in
        match r with COk rd' => long_loop f p c' h (buf ++ rd') rd' | e => Ret (Some (c', e)) end
      else Ret (Some (c, COk buf))
  end.
(** gatt/client.go:273-295 ReadLongCharacteristic *)
Definition read_long (fuel : nat) (p : peer) (c : cli) (h : Z) : go (option (cli * cres bytes)) :=
  let! (c', r) := read p c h in
  match r with COk rd => long_loop fuel p c' h rd rd | e => Ret (Some (c', e)) end.

(** the subscription map *)
Fixpoint adel {V} (m : list (Z * V)) (k : Z) : list (Z * V) :=
  match m with [] => [] | (k', v) :: r => if k =? k' then adel r k else (k', v) :: adel r k end.
(** gatt/client.go:373-403 setHandlers; flag 1 = notifications, 2 = indications *)
Definition set_handlers (p : peer) (g : gcl) (cccdh vh flag : Z) (h : option nat) : go (gcl * cres unit) :=
  let s := match aget (g_subs g) vh with Some s => s | None => mkSub cccdh 0 None None 0 end in
  let g := with_subs g (aset (g_subs g) vh s) in
  let on := negb (Z.land (sb_ccc s) flag =? 0) in
  match h, on with
  | None, false => Ret (g, COk tt)
  | Some _, true => Ret (g, COk tt)
  | _, _ =>
      let ccc := match h with None => Z.land (sb_ccc s) (65535 - flag) | Some _ => Z.lor (sb_ccc s) flag end in
      let s' := mkSub (sb_cccdh s) ccc (if flag =? 1 then h else sb_n s) (if flag =? 1 then sb_i s else h) (sb_id s) in
      let g := with_subs g (aset (g_subs g) vh s') in
      let! (c', r) := write p (g_cli g) (sb_cccdh s') (le16 ccc) in
      let g := with_cli g c' in
      Ret (match r with COk _ => g | _ => with_subs g (adel (g_subs g) vh) end, r)
  end.
Definition flag_of (ind : bool) : Z := if ind then 2 else 1.
(** gatt/client.go:345-357 Subscribe, 361-371 Unsubscribe (h = None); "CCCD not found" is CFail with nothing done *)
Definition subscribe (p : peer) (g : gcl) (ch : gchar) (ind : bool) (h : option nat) : go (gcl * cres unit) :=
  match gc_cccd ch with None => Ret (g, CFail) | Some d => set_handlers p g (gd_h d) (gc_vh ch) (flag_of ind) h end.
(** gatt/client.go:406-417 ClearSubscriptions; Go iterates over the map in any order: [ord] *)
Fixpoint clear_subs (p : peer) (g : gcl) (ord : list Z) : go (gcl * cres unit) :=
  match ord with
  | [] => Ret (g, COk tt)
  | vh :: r =>
      match aget (g_subs g) vh with
      | None => clear_subs p g r
      | Some s =>
          let! (c', x) := write p (g_cli g) (sb_cccdh s) [0; 0] in
          match x with
          | COk _ => clear_subs p (with_subs (with_cli g c') (adel (g_subs g) vh)) r
          | e => Ret (with_cli g c', e)
          end
      end
  end.
(** gatt/client.go:439-467 HandleNotification: the handler called, with the id and the data *)
Definition handle_notification (g : gcl) (req : bytes) : go (gcl * option (nat * Z * bytes)) :=
  let! vh := r16 req 1 in
  match aget (g_subs g) vh with
  | None => Ret (g, None)
  | Some s =>
      let! op := gidx req 0 in let! nd := gfrom req 3 in
      let call := match (if op =? 29 then sb_i s else None), sb_n s with
                  | Some h, _ => Some (h, sb_id s, nd)
                  | None, Some h => Some (h, sb_id s, nd)
                  | None, None => None
                  end in
      Ret (with_subs g (aset (g_subs g) vh (mkSub (sb_cccdh s) (sb_ccc s) (sb_n s) (sb_i s) (sb_id s + 1))), call)
  end.
