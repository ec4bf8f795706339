(** Specification vocabulary for the attribute client: the request each operation must put on the wire, which PDU answers it, and what a
    response means for the caller. *)
Require Import Verif.Base Verif.M_attcli.

Definition op_code (o : cop) : Z :=
  match o with OMtu _ => 2 | OFindInfo _ _ => 4 | OReadByType _ _ _ => 8 | ORead _ => 10 | OReadBlob _ _ => 12 | OReadMultiple _ => 14
  | OReadByGroup _ _ _ => 16 | OWrite _ _ => 18 | OPrepare _ _ _ => 22 | OExecute _ => 24 | OWriteCmd _ _ => 82 | OSigned _ _ _ => 210 end.
(** Vol 3 Part F 3.4: the PDU of each operation *)
Definition wire (o : cop) : bytes :=
  op_code o :: match o with
  | OMtu m => le16 m
  | OFindInfo st en => le16 st ++ le16 en
  | OReadByType st en u | OReadByGroup st en u => le16 st ++ le16 en ++ u
  | ORead h => le16 h
  | OReadBlob h off => le16 h ++ le16 off
  | OReadMultiple hs => flat_map le16 hs
  | OWrite h v | OWriteCmd h v => le16 h ++ v
  | OSigned h v sig => le16 h ++ v ++ sig
  | OPrepare h off v => le16 h ++ le16 off ++ v
  | OExecute f => [f]
  end.
Definition is_command (o : cop) : bool := match o with OWriteCmd _ _ | OSigned _ _ _ => true | _ => false end.
(** arguments the client accepts *)
Definition args_ok (c : cli) (o : cop) : Prop :=
  match o with
  | OMtu m => 23 <= m <= 515
  | OFindInfo st en => 1 <= st <= en
  | OReadByType st en u | OReadByGroup st en u => st <= en /\ (length u = 2%nat \/ length u = 16%nat)
  | OReadMultiple hs => (2 <= length hs)%nat /\ 2 * Z.of_nat (length hs) <= cmtu c - 1
  | OWrite _ v | OWriteCmd _ v => Z.of_nat (length v) <= cmtu c - 3
  | OSigned _ v _ => Z.of_nat (length v) <= cmtu c - 15
  | OPrepare _ _ v => Z.of_nat (length v) <= cmtu c - 5
  | _ => True
  end.
(** values that fit the Go types: uint16 handles, byte values *)
Definition typed (o : cop) : Prop :=
  match o with
  | OFindInfo st en => 0 <= st < 65536 /\ 0 <= en < 65536
  | OReadByType st en u | OReadByGroup st en u => 0 <= st < 65536 /\ 0 <= en < 65536 /\ all_bytes u
  | ORead h => 0 <= h < 65536
  | OReadBlob h off => 0 <= h < 65536 /\ 0 <= off < 65536
  | OReadMultiple hs => Forall (fun h => 0 <= h < 65536) hs
  | OWrite h v | OWriteCmd h v => 0 <= h < 65536 /\ all_bytes v
  | OSigned h v sig => 0 <= h < 65536 /\ all_bytes v /\ all_bytes sig /\ length sig = 12%nat
  | OPrepare h off v => 0 <= h < 65536 /\ 0 <= off < 65536 /\ all_bytes v
  | _ => True
  end.
(** a PDU taken as the answer to o: an error response or the response with the next opcode *)
Definition answers_op (o : cop) (r : bytes) : bool := match r with x :: _ => (x =? 1) || (x =? op_code o + 1) | [] => false end.
(** what the caller gets from a response *)
Definition decodes (o : cop) (rsp : bytes) (v : cval) : Prop :=
  match o with
  | OMtu _ => exists a b, rsp = [3; a; b] /\ v = VMtu (de16 a b)
  | OFindInfo _ _ => exists f d, rsp = 5 :: f :: d /\ v = VList f d /\ (4 <= length d)%nat /\
       (f = 1 -> exists k, length d = (4 * k)%nat) /\ (f = 2 -> exists k, length d = (18 * k)%nat)
  | OReadByType _ _ _ | OReadByGroup _ _ _ => exists l d k, rsp = op_code o + 1 :: l :: d /\ v = VList l d /\ (2 <= length d)%nat /\
       (0 < k)%nat /\ Z.of_nat (length d) = Z.of_nat k * l
  | ORead _ | OReadBlob _ _ | OReadMultiple _ => exists b, rsp = op_code o + 1 :: b /\ v = VBytes b
  | OWrite _ _ | OExecute _ => (exists t, rsp = op_code o + 1 :: t) /\ v = VUnit
  | OPrepare _ _ _ => exists a b x y d, rsp = 23 :: a :: b :: x :: y :: d /\ v = VPrep (de16 a b) (de16 x y) d
  | OWriteCmd _ _ | OSigned _ _ _ => False
  end.
Definition result_of (o : cop) (rsp : bytes) (r : cres cval) : Prop :=
  (exists q h1 h2 code, rsp = [1; q; h1; h2; code] /\ r = CAtt code) \/
  (hd 0 rsp = 1 /\ length rsp <> 5%nat /\ r = CInvalid) \/
  (hd 0 rsp <> 1 /\ exists v, decodes o rsp v /\ r = COk v) \/
  (hd 0 rsp <> 1 /\ (forall v, ~ decodes o rsp v) /\ r = CInvalid).
(** the answer to a PDU that is neither: Error Response, Request Not Supported *)
Definition reject (r : bytes) : bytes := [1; hd 0 r; 0; 0; 6].
(** incoming PDUs before the answer to o *)
Fixpoint before (o : cop) (inc : list bytes) : list bytes :=
  match inc with [] => [] | r :: t => if answers_op o r then [] else r :: before o t end.

(** operations that wait for a response (Execute Write never gets that far) *)
Definition requests (o : cop) : Prop := match o with OWriteCmd _ _ | OSigned _ _ _ | OExecute _ => False | _ => True end.
(** the request written: that of [wire], except that Prepare Write sends what its buffer held in place of the value *)
Definition actual (c : cli) (o : cop) : bytes :=
  match o with OPrepare h off v => 22 :: le16 h ++ le16 off ++ firstn (length v) (skipn 5 (ctx c)) | _ => wire o end.
(** a list response announcing entries of length 0 *)
Definition zero_entries (o : cop) (r : bytes) : Prop := match o with OReadByType _ _ _ | OReadByGroup _ _ _ => exists d, r = op_code o + 1 :: 0 :: d /\ (2 <= length d)%nat | _ => False end.
(** when an operation panics *)
Definition crash (p : peer) (c : cli) (o : cop) : Prop :=
  args_ok c o /\
  match o with
  | OExecute _ => True
  | OSigned _ v _ => (length (ctx c) < 15 + length v)%nat
  | OWriteCmd _ v => (length (ctx c) < 3 + length v)%nat
  | _ => (length (ctx c) < length (wire o))%nat \/
         exists inc, p (clog c ++ [actual c o]) = Some inc /\ (In [] (before o inc) \/ exists rsp, find (answers_op o) inc = Some rsp /\ zero_entries o rsp)
  end.
(** client states: new, and after any operation against any peer that never announces an MTU below the minimum of 23 *)
Inductive creach : cli -> Prop :=
| cr_new : forall m, 23 <= m -> creach (new_client m)
| cr_op : forall c p o c' r, creach c -> run_op p c o = Ret (c', r) -> (forall v, r = COk (VMtu v) -> 23 <= v) -> creach c'.
