(** What the properties C148-C153 speak of: the trace of a GATT client's calls and handlers. *)
Require Import Verif.Base Verif.M_attsrv Verif.M_attcli Verif.M_gattcli Verif.M_gattlock.

(** events of the work done with the lock: requests, handler calls, returns of methods that need it *)
Definition busy (e : lev) : Prop := match e with LReq _ _ | LNote _ _ _ _ | LIgnored _ | LCrash _ | LDie _ => True | LRet _ m _ | LHRet m => m <> MFree | _ => False end.
Definition of_call (k : nat) (e : lev) : Prop := match e with LReq j _ => j = k | _ => False end.

(** the notifications that came, those thrown away, those handed on (or found without a handler) *)
Definition arrived (t : list lev) : list bytes := flat_map (fun e => match e with LRx b => [b] | _ => [] end) t.
Definition lost (t : list lev) : list bytes := flat_map (fun e => match e with LDrop b => [b] | _ => [] end) t.
Definition dealt (t : list lev) : list bytes := flat_map (fun e => match e with LNote b _ _ _ | LIgnored b | LCrash b => [b] | _ => [] end) t.

(** one after the other: the subscription state of a client whose calls and notifications happen in the order given *)
Inductive one_by_one : gcl -> list lev -> gcl -> Prop :=
| ob_nil : forall g, one_by_one g [] g
| ob_sub : forall g t g1 k ch ind h r p g2, one_by_one g t g1 -> subscribe p g1 ch ind h = Ret (g2, r) -> one_by_one g (t ++ [LRet k (MSub ch ind h) r]) g2
| ob_clear : forall g t g1 k r p ord g2, one_by_one g t g1 -> (forall x, In x (g_subs g1) -> In (fst x) ord) -> clear_subs p g1 ord = Ret (g2, r) -> one_by_one g (t ++ [LRet k MClear r]) g2
| ob_ask : forall g t g1 k r c pr, one_by_one g t g1 -> one_by_one g (t ++ [LRet k MAsk r]) (mkG c pr (g_subs g1))
| ob_note : forall g t g1 b h id d g2, one_by_one g t g1 -> handle_notification g1 b = Ret (g2, Some (h, id, d)) -> one_by_one g (t ++ [LNote b h id d]) g2
| ob_ignored : forall g t g1 b g2, one_by_one g t g1 -> handle_notification g1 b = Ret (g2, None) -> one_by_one g (t ++ [LIgnored b]) g2
| ob_other : forall g t g1 e, one_by_one g t g1 -> match e with LNote _ _ _ _ | LIgnored _ | LRet _ (MSub _ _ _) _ | LRet _ MClear _ | LRet _ MAsk _ => False | _ => True end -> one_by_one g (t ++ [e]) g1.

(** the value handle a notification names *)
Definition note_vh (b : bytes) : Z := de16 (nth 1 b 0) (nth 2 b 0).
Definition about_vh (vh : Z) (e : lev) : bool := match e with LNote b _ _ _ | LIgnored b => note_vh b =? vh | _ => false end.
(** a Subscribe for vh has returned *)
Definition subscribes (vh : Z) (ind : bool) (e : lev) : Prop := match e with LRet _ (MSub ch i (Some _)) _ => gc_vh ch = vh /\ i = ind | _ => False end.
(** a call that may make the client forget the subscription of vh has returned: a failed (un)subscription of it, a clearing *)
Definition forgets (vh : Z) (e : lev) : Prop := match e with LRet _ (MSub ch _ _) r => gc_vh ch = vh /\ r <> COk tt | LRet _ MClear _ => True | _ => False end.

(** steps with which no new work comes in *)
Definition internal (x : lab) : Prop := match x with BCall _ _ | BRx _ | BEnd | BHCall _ => False | _ => True end.
Definition istep (s s' : kst) : Prop := exists x e, internal x /\ kdo s x = Some (e, s').
(** nothing is left to do *)
Definition at_rest (s : kst) : Prop := Forall (fun a => a = PIdle) (apps s) /\ nq s = [] /\ nt s = NIdle.
