(** Model of Profile.Find (profile.go:38-51), the search by a target of any type. *)
Require Import Verif.Base Verif.M_uuid Verif.M_attdb.

(** A Go value of type interface{}, as far as Find distinguishes: nil; a pointer (possibly nil) of type *Service, *Characteristic or
    *Descriptor; a value of any other type.  A pointer is modelled by what it points to. *)
Inductive iface := INil | ISvc (p : option service) | IChr (p : option char) | IDsc (p : option desc) | IOther.
(** profile.go:40-51.  The pointer a search returns, nil included, is converted to an interface with the pointer's type.  The searches
    (profile.go:54-87, M_attdb) look at the target's UUID once there is an element to compare it with: a nil target pointer panics then. *)
Definition profile_find (ss : list service) (target : iface) : go iface :=
  match target with
  | ISvc (Some t) => Ret (ISvc (find_service ss (s_uuid t)))
  | ISvc None => match ss with [] => Ret (ISvc None) | _ => Panic end
  | IChr (Some t) => Ret (IChr (find_char ss (c_uuid t)))
  | IChr None => match flat_map s_chars ss with [] => Ret (IChr None) | _ => Panic end
  | IDsc (Some t) => Ret (IDsc (find_desc ss (d_uuid t)))
  | IDsc None => match flat_map c_descs (flat_map s_chars ss) with [] => Ret (IDsc None) | _ => Panic end
  | INil | IOther => Ret INil
  end.
