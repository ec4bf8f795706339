(** C154, C155: how long a request of the attribute client takes. *)
Require Import Verif.Base Verif.M_attcli Verif.M_reqwait.

(** a PDU that answers the request: an error response or the response of its kind *)
Definition answer_to (op : Z) (b : bytes) : bool := (hd 0 b =? 1) || (hd 0 b =? rsp_of_req op).
Definition stray (op : Z) (x : Z * winp) : Prop := 0 <= fst x < 2000 /\ exists b, snd x = WPdu b true /\ answer_to op b = false.
Definition total (l : list (Z * winp)) : Z := fold_right (fun x t => fst x + t) 0 l.

(** strays before the answer do not matter, as long as no two seconds pass without a PDU: the call returns the answer when it comes *)
Theorem C154_answer_returned : forall op pre d b w rest, Forall (stray op) pre -> 0 <= d < 2000 -> answer_to op b = true -> rwait op (pre ++ (d, WPdu b w) :: rest) = (RGot b, total pre + d).
Proof.
  intros op pre d b w rest F D A. induction F as [|[dx x] pre (DX & c & E & NA) F IH]; cbn [app rwait].
  - assert (X : (d <? 2000) = true) by (apply Z.ltb_lt; lia). rewrite X. unfold answer_to in A. rewrite A. f_equal.
  - cbn [fst snd] in DX, E. subst x. assert (X : (dx <? 2000) = true) by (apply Z.ltb_lt; lia). rewrite X. unfold answer_to in NA. rewrite NA, IH. cbn [total fold_right fst]. f_equal. unfold total. lia.
Qed.
Print Assumptions C154_answer_returned.
(** whatever comes: the call returns, within two seconds for each PDU of another kind and two more; a result that is not an answer is an error *)
Theorem C154_returns : forall op l, Forall (fun x => 0 <= fst x) l -> exists n r t, (n <= length l)%nat /\ Forall (stray op) (firstn n l) /\ rwait op l = (r, t) /\ 0 <= t <= 2000 * (Z.of_nat n + 1) /\
  (n = 0%nat -> t <= 2000) /\ match r with RGot b => answer_to op b = true /\ exists d w, nth_error l n = Some (d, WPdu b w) | _ => True end.
Proof.
  intros op l. induction l as [|[d x] l IH]; intro F.
  - exists 0%nat, RTimeout, 2000. cbn. repeat split; try lia. constructor.
  - apply Forall_cons_iff in F. destruct F as [D F]. cbn [fst] in D. cbn [rwait]. destruct (d <? 2000) eqn:X; [apply Z.ltb_lt in X|exists 0%nat, RTimeout, 2000; cbn; repeat split; try lia; constructor].
    destruct x as [b w|]; [|exists 0%nat, RFail, d; cbn; repeat split; try lia; constructor]. destruct ((hd 0 b =? 1) || (hd 0 b =? rsp_of_req op)) eqn:A.
    + exists 0%nat, (RGot b), d. cbn [firstn nth_error]. split; [lia|]. split; [constructor|]. split; [reflexivity|]. split; [lia|]. split; [lia|]. split; [exact A|]. exists d, w. reflexivity.
    + destruct w; [|exists 0%nat, RFail, d; cbn; repeat split; try lia; constructor]. destruct (IH F) as (n & r & t & LE & ST & R & T & _ & C). exists (S n), r, (d + t). rewrite R. cbn [length firstn nth_error].
      split; [lia|]. split; [constructor; [split; [cbn; lia|exists b; auto]|exact ST]|]. split; [reflexivity|]. split; [lia|]. split; [discriminate|exact C].
Qed.
Print Assumptions C154_returns.
(** a peer that is silent for two seconds ends the wait *)
Theorem C154_silence_ends : forall op pre d x rest, Forall (stray op) pre -> 2000 <= d -> rwait op (pre ++ (d, x) :: rest) = (RTimeout, total pre + 2000) /\ rwait op pre = (RTimeout, total pre + 2000).
Proof.
  intros op pre d x rest F D. induction F as [|[dx y] pre (DX & c & E & NA) F [IH1 IH2]]; cbn [app rwait].
  - assert (X : (d <? 2000) = false) by (apply Z.ltb_ge; lia). rewrite X. split; reflexivity.
  - cbn [fst snd] in DX, E. subst y. assert (X : (dx <? 2000) = true) by (apply Z.ltb_lt; lia). rewrite X. unfold answer_to in NA. rewrite NA, IH1, IH2. cbn [total fold_right fst]. unfold total. split; f_equal; lia.
Qed.
Print Assumptions C154_silence_ends.
Example C154_example : rwait 10 [(1500, WPdu [19] true); (1900, WPdu [11; 7] true)] = (RGot [11; 7], 3400) /\ Forall (stray 10) [(1500, WPdu [19] true)].
Proof. split; [reflexivity|]. apply Forall_cons; [|constructor]. split; [cbn; lia|]. exists [19]. split; reflexivity. Qed.

(** ** C155 (ideal): refuted: a peer that sends a PDU of another kind now and then keeps the call, and with it the client, waiting as long as it likes *)
Theorem C155_bounded_refuted : forall n, exists l, Forall (stray 10) l /\ snd (rwait 10 l) > n /\ fst (rwait 10 l) = RTimeout.
Proof.
  intro n. exists (repeat (1900, WPdu [19] true) (Z.to_nat n)). assert (F : forall k, Forall (stray 10) (repeat (1900, WPdu [19] true) k)).
  { intro k. induction k as [|k IH]; cbn [repeat]; constructor; [|exact IH]. split; [cbn; lia|]. exists [19]. split; reflexivity. }
  split; [apply F|]. destruct (C154_silence_ends 10 _ 2000 WErr [] (F (Z.to_nat n)) ltac:(lia)) as [_ ->]. cbn [fst snd]. split; [|reflexivity].
  assert (T : forall k, total (repeat (1900, WPdu [19] true) k) = 1900 * Z.of_nat k). { induction k as [|k IH]; [reflexivity|]. cbn [repeat total fold_right fst]. unfold total in IH. rewrite IH. lia. }
  rewrite T. lia.
Qed.
Print Assumptions C155_bounded_refuted.
