(** Specification side for the bond store and the GATT profile cache: finite maps, and what a sequence of calls on one
    may return. *)
Require Export Verif.M_store Verif.M_bond Verif.M_cache.

(** A partial map from keys to values. *)
Notation pmap V := (bytes -> option V).
Definition none {V} : pmap V := fun _ => None.
Definition same {V} (s s' : pmap V) : Prop := forall k, s' k = s k.
Definition puts {V} (k : bytes) (v : V) (s s' : pmap V) : Prop := s' k = Some v /\ forall k', k' <> k -> s' k' = s k'.
Definition drops {V} (k : bytes) (s s' : pmap V) : Prop := s' k = None /\ forall k', k' <> k -> s' k' = s k'.

(** A sequence of calls with their results is allowed by [spec], which relates the map before, call, result, map after. *)
Inductive legal {St O R : Type} (spec : St -> O -> R -> St -> Prop) : St -> list (O * R) -> St -> Prop :=
| lg_nil : forall s, legal spec s [] s
| lg_cons : forall s o r s1 l s2, spec s o r s1 -> legal spec s1 l s2 -> legal spec s ((o, r) :: l) s2.

(** Calls made one after the other on a file. *)
Inductive calls {O R : Type} (F : fault -> Prop) (call : O -> prog R) : file -> list (O * R) -> file -> Prop :=
| sq_nil : forall f, calls F call f [] f
| sq_cons : forall f o r f1 l f2, exec F (call o) f (Ret r) f1 -> calls F call f1 l f2 -> calls F call f ((o, r) :: l) f2.

(** ** Bonds *)

(** The value has the Go types: octets, uint16, uint64. *)
Definition bond_ok (b : binfo) : Prop := all_bytes (bi_ltk b) /\ 0 <= bi_ediv b < 65536 /\ 0 <= bi_rand b < 18446744073709551616.

(** The operation has arguments of these types, and its key is ASCII text. *)
Definition ascii (k : bytes) : Prop := Forall (fun c => 0 <= c < 128) k.
Definition bop_ok (o : bop) : Prop :=
  match o with BSave a (Some b) => ascii a /\ bond_ok b | _ => True end.
(** ... and does not store an empty key. *)
Definition bop_key (o : bop) : Prop := match o with BSave _ (Some b) => bi_ltk b <> [] | _ => True end.

(** What encoding/json is trusted to do on ASCII text: what it writes it reads back, it writes something, and it
    does not accept a proper non-empty prefix of what it writes (it writes one JSON object). *)
Definition ascii_bd (d : bdata) : Prop := ascii (bd_ltk d) /\ ascii (bd_ediv d) /\ ascii (bd_rand d).
Definition json_ok (J : jcodec) : Prop :=
  (forall m, (forall k v, mget k m = Some v -> ascii k /\ ascii_bd v) ->
     exists m', jdec J (jenc J m) = Some m' /\ forall k, mget k m' = mget k m) /\
  (forall m, jenc J m <> []) /\
  (forall m p q, (forall k v, mget k m = Some v -> ascii k /\ ascii_bd v) -> jenc J m = p ++ q -> p <> [] -> q <> [] -> jdec J p = None).

(** A 12 character address. *)
Definition addr12 (a : bytes) : Prop := length a = 12%nat.
(** What a failing call returns. *)
Definition failed (o : bop) : bres := match o with BExists _ => RBool false | _ => RErr end.

(** What each call does to the set of bonds and returns; [flt]: system calls may fail, other than a write. *)
Definition bspec (flt : Prop) (s : pmap binfo) (o : bop) (r : bres) (s' : pmap binfo) : Prop :=
  match o with
  | BExists a => same s s' /\
      (addr12 a -> r = RBool true /\ s a <> None \/ r = RBool false /\ (s a = None \/ flt)) /\ (~ addr12 a -> r = RBool false)
  | BFind a =>
      ~ addr12 a /\ r = RErr /\ same s s' \/
      addr12 a /\ s a = None /\ r = RErr /\ same s s' \/
      addr12 a /\ (exists b, s a = Some b /\ bi_ltk b <> [] /\ r = RBond b) /\ same s s' \/
      addr12 a /\ (exists b, s a = Some b /\ bi_ltk b = []) /\ r = RErr /\ drops a s s' \/
      flt /\ r = RErr /\ same s s'
  | BSave a ob =>
      (~ addr12 a \/ ob = None) /\ r = RErr /\ same s s' \/
      (exists b, addr12 a /\ ob = Some b /\ r = RDone /\ puts a b s s') \/
      flt /\ r = RErr /\ same s s'
  | BDelete a =>
      s a <> None /\ r = RDone /\ drops a s s' \/
      s a = None /\ r = RErr /\ same s s' \/
      flt /\ r = RErr /\ same s s'
  end.

(** No system call fails; system calls may fail, but a write, once begun, succeeds; anything may fail. *)
Definition no_faults : fault -> Prop := fun _ => False.
Definition write_ok (F : fault -> Prop) : Prop := ~ F FWrite.
Definition any_fault (F : fault -> Prop) : Prop := exists x, F x.

(** A file that holds the given set of bonds. *)
Definition holds (J : jcodec) (f : file) (s : pmap binfo) : Prop :=
  (forall k b, s k = Some b -> ascii k /\ bond_ok b) /\
  match f with
  | None | Some [] => same none s
  | Some d => exists m, jdec J d = Some m /\ forall k, mget k m = option_map createBondData (s k)
  end.

(** Every call on such a file fails and leaves it as it is. *)
Definition unusable (J : jcodec) (f : file) : Prop :=
  forall F o x f', exec F (bcall J o) f x f' -> x = Ret (failed o) /\ f' = f.

(** ** Profiles *)

(** jsoniter is trusted to read back what it writes, for the profiles in [okv] (those without handler functions), and
    not to accept the empty file or a proper prefix of what it writes. *)
Definition cjson_ok {V} (J : ccodec V) (okv : V -> Prop) : Prop :=
  (forall m, (forall k v, mget k m = Some v -> ascii k /\ okv v) ->
     exists d m', cenc J m = Some d /\ cdec J d = Some (Some m') /\ forall k, mget k m' = mget k m) /\
  (forall m d p q, (forall k v, mget k m = Some v -> ascii k /\ okv v) -> cenc J m = Some d -> d = p ++ q -> q <> [] -> cdec J p = None).

Definition cop_ok {V} (okv : V -> Prop) (o : cop V) : Prop :=
  match o with CStore k p _ => ascii k /\ okv p | _ => True end.

(** The state: [None] before the first Store and after a Clear. *)
Definition look {V} (s : option (pmap V)) (k : bytes) : option V := match s with None => None | Some m => m k end.
Definition cspec {V} (flt : Prop) (s : option (pmap V)) (o : cop V) (r : cres V) (s' : option (pmap V)) : Prop :=
  match o with
  | CLoad k => s' = s /\ ((exists p, look s k = Some p /\ r = CProfile p) \/ look s k = None /\ r = CErr \/ flt /\ r = CErr)
  | CStore k p replace =>
      (look s k = None \/ replace = true) /\ r = CDone /\ (exists m', s' = Some m' /\ puts k p (look s) m') \/
      look s k <> None /\ replace = false /\ r = CErr /\ s' = s \/
      flt /\ r = CErr /\ s' = s
  | CClear => s <> None /\ r = CDone /\ s' = None \/ s = None /\ r = CErr /\ s' = s \/ flt /\ r = CErr /\ s' = s
  end.

Definition cholds {V} (J : ccodec V) (okv : V -> Prop) (f : file) (s : option (pmap V)) : Prop :=
  (forall k v, look s k = Some v -> ascii k /\ okv v) /\
  match f, s with
  | None, None => True
  | Some d, Some s' => exists m, cdec J d = Some (Some m) /\ forall k, mget k m = s' k
  | _, _ => False
  end.
