(** Specification vocabulary for Profile.Find. *)
Require Import Verif.Base Verif.M_attdb Verif.M_pfind.

(** the UUID of what a pointer points to *)
Definition pointee_uuid (x : iface) : option bytes :=
  match x with ISvc (Some s) => Some (s_uuid s) | IChr (Some c) => Some (c_uuid c) | IDsc (Some d) => Some (d_uuid d) | _ => None end.
(** a nil pointer of the same type as [x] *)
Definition nil_pointer_like (x y : iface) : Prop :=
  match x, y with ISvc _, ISvc None | IChr _, IChr None | IDsc _, IDsc None => True | _, _ => False end.
(** the elements of the profile of the type [x] points to, in declaration order *)
Definition members_like (x : iface) (ss : list service) : list iface :=
  match x with
  | ISvc _ => map (fun s => ISvc (Some s)) ss
  | IChr _ => map (fun c => IChr (Some c)) (flat_map s_chars ss)
  | IDsc _ => map (fun d => IDsc (Some d)) (flat_map c_descs (flat_map s_chars ss))
  | _ => []
  end.
(** x is a pointer to a service, characteristic or descriptor *)
Definition is_pointer (x : iface) : Prop := match x with ISvc _ | IChr _ | IDsc _ => True | _ => False end.
(** what the test [x == nil] of a Go program says *)
Definition equals_nil (x : iface) : bool := match x with INil => true | _ => false end.
