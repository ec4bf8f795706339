(** Model of the indication path of linux/att/server.go: concurrent callers of indicate (95-125), the confirmation hand-off of the
    reading goroutine (142-149) and the buffer replacement of the MTU exchange (238-246).  The unbuffered channel chConfirm hands a
    confirmation to a caller already in its select, otherwise it is dropped; chIndBuf (capacity 1) holds the one indication buffer.
    Time is not modelled: the 30 s timer may fire whenever a caller is in its select. *)
Require Import Verif.Base.

Inductive phase := Idle | Got | Sent | Waiting.
Record ist := mkI { bufs : nat; callers : list phase }.
Inductive iev := ESend (k : nat) | EConfirmed (k : nat) | ETimeout (k : nat) | EClosed (k : nat) | EDropped.
Definition iinit (n : nat) : ist := mkI 1 (repeat Idle n).
Inductive istep : ist -> option iev -> ist -> Prop :=
| i_acquire : forall b cs k, nth_error cs k = Some Idle -> istep (mkI (S b) cs) None (mkI b (upd cs k Got))
| i_send : forall b cs k, nth_error cs k = Some Got -> istep (mkI b cs) (Some (ESend k)) (mkI b (upd cs k Sent))
| i_send_fail : forall b cs k, nth_error cs k = Some Got -> istep (mkI b cs) None (mkI (S b) (upd cs k Idle))
| i_select : forall b cs k, nth_error cs k = Some Sent -> istep (mkI b cs) None (mkI b (upd cs k Waiting))
| i_confirm : forall b cs k, nth_error cs k = Some Waiting -> istep (mkI b cs) (Some (EConfirmed k)) (mkI (S b) (upd cs k Idle))
| i_spurious : forall b cs, ~ In Waiting cs -> istep (mkI b cs) (Some EDropped) (mkI b cs)
| i_timeout : forall b cs k, nth_error cs k = Some Waiting -> istep (mkI b cs) (Some (ETimeout k)) (mkI (S b) (upd cs k Idle))
| i_closed : forall b cs k, nth_error cs k = Some Waiting -> istep (mkI b cs) (Some (EClosed k)) (mkI (S b) (upd cs k Idle))
| i_mtu : forall b cs, istep (mkI (S b) cs) None (mkI (S b) cs).
Inductive iruns : ist -> list iev -> ist -> Prop :=
| ir_nil : forall s, iruns s [] s
| ir_step : forall s t s1 o s2, iruns s t s1 -> istep s1 o s2 -> iruns s (t ++ match o with Some e => [e] | None => [] end) s2.
(** indications sent whose caller has not returned yet, along a trace *)
Definition weight (e : iev) : Z := match e with ESend _ => 1 | EConfirmed _ | ETimeout _ | EClosed _ => -1 | EDropped => 0 end.
Definition outstanding (t : list iev) : Z := fold_right Z.add 0 (map weight t).
