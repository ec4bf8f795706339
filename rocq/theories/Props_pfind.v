(** * C178, C179: the search in a profile by a target of any type *)
Require Import Verif.Base Verif.M_uuid Verif.M_attdb Verif.M_pfind Verif.S_pfind Verif.Props_attdb.

(** For a target that points to something, Find returns the first element of the profile of the target's type and UUID; if there is none,
    a nil pointer of the target's type.  It never panics. *)
Theorem C178_find : forall ss target u, pointee_uuid target = Some u -> exists r, profile_find ss target = Ret r /\
  ((pointee_uuid r = Some u /\ exists a b, members_like target ss = a ++ r :: b /\ Forall (fun x => pointee_uuid x <> Some u) a) \/
   (nil_pointer_like target r /\ Forall (fun x => pointee_uuid x <> Some u) (members_like target ss))).
Proof.
  intros ss target u H.
  assert (F : forall {A} (f : A -> iface) (g : A -> bytes), (forall x, pointee_uuid (f x) = Some (g x)) -> forall l, Forall (fun x => g x <> u) l -> Forall (fun x => pointee_uuid x <> Some u) (map f l)).
  { intros A f g E l. induction l as [|x l IH]; intro K; [constructor|]. apply Forall_cons_iff in K. destruct K as [K1 K2]. cbn [map]. apply Forall_cons; [rewrite E; congruence|auto]. }
  destruct target as [|[t|]|[t|]|[t|]|]; try discriminate H; cbn [pointee_uuid] in H; injection H as <-; eexists; (split; [reflexivity|]).
  - pose proof (C51_find_service ss (s_uuid t)) as Q. destruct (find_service ss (s_uuid t)) as [s|].
    + left. destruct Q as (E & a & b & -> & Q). split; [cbn; now rewrite E|]. exists (map (fun s => ISvc (Some s)) a), (map (fun s => ISvc (Some s)) b).
      split; [apply map_app|]. apply (F _ (fun s => ISvc (Some s)) s_uuid); auto.
    + right. split; [exact I|]. apply (F _ (fun s => ISvc (Some s)) s_uuid); auto.
  - pose proof (C51_find_characteristic ss (c_uuid t)) as Q. destruct (find_char ss (c_uuid t)) as [s|].
    + left. destruct Q as (E & a & b & W & Q). split; [cbn; now rewrite E|]. exists (map (fun s => IChr (Some s)) a), (map (fun s => IChr (Some s)) b).
      cbn [members_like]. rewrite W. split; [apply map_app|]. apply (F _ (fun s => IChr (Some s)) c_uuid); auto.
    + right. split; [exact I|]. apply (F _ (fun s => IChr (Some s)) c_uuid); auto.
  - pose proof (C51_find_descriptor ss (d_uuid t)) as Q. destruct (find_desc ss (d_uuid t)) as [s|].
    + left. destruct Q as (E & a & b & W & Q). split; [cbn; now rewrite E|]. exists (map (fun s => IDsc (Some s)) a), (map (fun s => IDsc (Some s)) b).
      cbn [members_like]. rewrite W. split; [apply map_app|]. apply (F _ (fun s => IDsc (Some s)) d_uuid); auto.
    + right. split; [exact I|]. apply (F _ (fun s => IDsc (Some s)) d_uuid); auto.
Qed.
Print Assumptions C178_find.
(** For nil and for targets of other types it returns nil. *)
Theorem C178_other_targets : forall ss target, ~ is_pointer target -> profile_find ss target = Ret INil.
Proof. intros ss [| | | |] H; try reflexivity; now destruct H. Qed.
Print Assumptions C178_other_targets.
Example C178_example : pointee_uuid (IChr (Some (new_char (uuid16 0x2A05)))) = Some (uuid16 0x2A05) /\
  exists c, profile_find (default_services [71] 0) (IChr (Some (new_char (uuid16 0x2A05)))) = Ret (IChr (Some c)) /\ c_uuid c = uuid16 0x2A05.
Proof. split; [reflexivity|]. eexists. split; reflexivity. Qed.

(** * C179: refuted *)

(** What Find returns for a pointer is never equal to nil, whatever the profile: the test examples/blesh/main.go:326-392 makes before using
    the result cannot fail. *)
Theorem C179_never_nil_refuted : forall ss target r, is_pointer target -> profile_find ss target = Ret r -> equals_nil r = false.
Proof.
  intros ss [|[t|]|[t|]|[t|]|] r H E; try now destruct H.
  all: cbn in E; try congruence.
  - injection E as <-. reflexivity.
  - destruct ss; [injection E as <-; reflexivity|discriminate].
  - injection E as <-. reflexivity.
  - destruct (flat_map s_chars ss); [injection E as <-; reflexivity|discriminate].
  - injection E as <-. reflexivity.
  - destruct (flat_map c_descs _); [injection E as <-; reflexivity|discriminate].
Qed.
Print Assumptions C179_never_nil_refuted.
(** So it is for every UUID that is not in the profile. *)
Theorem C179_not_found_refuted : forall ss target u, pointee_uuid target = Some u -> Forall (fun x => pointee_uuid x <> Some u) (members_like target ss) ->
  exists r, profile_find ss target = Ret r /\ equals_nil r = false /\ nil_pointer_like target r.
Proof.
  intros ss target u H N. destruct (C178_find ss target u H) as (r & E & [(U & a & b & M & _)|(NP & _)]).
  - exfalso. rewrite M in N. apply Forall_app in N. destruct N as [_ N]. apply Forall_cons_iff in N. now destruct N.
  - exists r. split; [exact E|]. split; [|exact NP]. apply (C179_never_nil_refuted ss target r); [now destruct target|exact E].
Qed.
Print Assumptions C179_not_found_refuted.
(** A nil pointer as the target crashes the process as soon as the profile has an element of its type. *)
Theorem C179_nil_target_refuted : forall ss target, is_pointer target -> pointee_uuid target = None ->
  (members_like target ss <> [] <-> profile_find ss target = Panic).
Proof.
  intros ss [|[t|]|[t|]|[t|]|] H U; try now destruct H.
  all: try discriminate U; cbn [members_like profile_find].
  - destruct ss; cbn [map]; split; intro X; (reflexivity || discriminate || now destruct X).
  - destruct (flat_map s_chars ss); cbn [map]; split; intro X; (reflexivity || discriminate || now destruct X).
  - destruct (flat_map c_descs _); cbn [map]; split; intro X; (reflexivity || discriminate || now destruct X).
Qed.
Print Assumptions C179_nil_target_refuted.
Example C179_example : pointee_uuid (IChr (Some (new_char (uuid16 0x2A37)))) = Some (uuid16 0x2A37) /\
  Forall (fun x => pointee_uuid x <> Some (uuid16 0x2A37)) (members_like (IChr (Some (new_char (uuid16 0x2A37)))) (default_services [71] 0)).
Proof. split; [reflexivity|]. cbn. repeat (apply Forall_cons; [discriminate|]). apply Forall_nil. Qed.
