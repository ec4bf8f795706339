(** Properties C01, C02, C50: UUID and address text. *)
Require Import Verif.Base Verif.M_uuid Verif.S_uuid Verif.P_uuid.

(** C01: Parse accepts exactly the hex texts (dashes erased, any case) of 2 or 16 bytes and returns the bytes reversed. *)
Theorem C01_parse_exact : forall s u,
  uuid_parse s = Ret (Some u) <->
  exists t b, erased 45 s t /\ hex_text t b /\ (length b = 2%nat \/ length b = 16%nat) /\ u = rev b.
Proof. exact uuid_parse_iff. Qed.
Print Assumptions C01_parse_exact.

Theorem C01_parse_never_panics : forall s, exists r, uuid_parse s = Ret r.
Proof. exact uuid_parse_total. Qed.
Print Assumptions C01_parse_never_panics.

Theorem C01_parse_string_roundtrip : forall u, all_bytes u -> (length u = 2%nat \/ length u = 16%nat) ->
  exists s, uuid_string u = Ret s /\ uuid_parse s = Ret (Some u).
Proof. exact uuid_roundtrip. Qed.
Print Assumptions C01_parse_string_roundtrip.

(** What is printed: two lower-case hex digits per octet, most significant octet first. *)
Theorem C01_string_exact : forall u, all_bytes u ->
  exists s, uuid_string u = Ret s /\ hex_text s (rev u) /\ Forall (fun c => 48 <= c <= 57 \/ 97 <= c <= 102) s.
Proof. exact uuid_string_spec. Qed.
Print Assumptions C01_string_exact.

Theorem C01_print_stable : forall s u, uuid_parse s = Ret (Some u) ->
  exists t, uuid_string u = Ret t /\ uuid_parse t = Ret (Some u).
Proof. exact uuid_parse_print_parse. Qed.
Print Assumptions C01_print_stable.

Theorem C01_dash_case_insensitive : forall s1 s2 t1 t2,
  erased 45 s1 t1 -> erased 45 s2 t2 -> Forall2 same_letter t1 t2 -> uuid_parse s1 = uuid_parse s2.
Proof. exact uuid_parse_dash_case. Qed.
Print Assumptions C01_dash_case_insensitive.

Theorem C01_uuid16 : forall i, 0 <= i < 65536 ->
  length (uuid16 i) = 2%nat /\ all_bytes (uuid16 i) /\ le_val (uuid16 i) = i.
Proof. exact uuid16_spec. Qed.
Print Assumptions C01_uuid16.

(** "1800" and "18-00" and non-example: 4 bytes are refused *)
Example C01_ex1 : uuid_parse [49;56;48;48] = Ret (Some [0; 24]). Proof. reflexivity. Qed.
Example C01_ex2 : uuid_parse [49;56;45;48;48] = Ret (Some [0; 24]). Proof. reflexivity. Qed.
Example C01_ex3 : uuid_parse [49;56;48;48;49;56;48;48] = Ret None. Proof. reflexivity. Qed.
Example C01_ex4 : uuid_string [15; 42] = Ret [50; 97; 48; 102]. Proof. reflexivity. Qed.

(** C02 *)
Theorem C02_contains_iff : forall s u, contains s u = true <-> exists l, s = Some l /\ In u l.
Proof. exact contains_iff. Qed.
Print Assumptions C02_contains_iff.

Theorem C02_equal_iff : forall u v, uuid_equal u v = true <-> u = v.
Proof. exact beq_bytes_eq. Qed.
Print Assumptions C02_equal_iff.

Theorem C02_reverse : forall u, Reverse u = Ret (rev u).
Proof. exact Reverse_rev. Qed.
Print Assumptions C02_reverse.

Theorem C02_swapbuf : forall u, SwapBuf u = Ret (rev u).
Proof. exact SwapBuf_rev. Qed.
Print Assumptions C02_swapbuf.

Example C02_ex : contains (Some [[1;2];[0;24]]) [0;24] = true /\ contains None [0;24] = false.
Proof. split; reflexivity. Qed.
Example C02_ex2 : SwapBuf [1;2;3;4;5] = Ret [5;4;3;2;1]. Proof. reflexivity. Qed.

(** C50 (ASCII letters) *)
Theorem C50_addr_bytes : forall s t b, erased 58 s t -> hex_text t b -> addr_bytes (new_addr s) = b.
Proof. exact addr_bytes_spec. Qed.
Print Assumptions C50_addr_bytes.

Theorem C50_addr_text_lower : forall s, addr_string (new_addr s) = to_lower s /\
  Forall2 same_letter s (addr_string (new_addr s)) /\ Forall (fun c => ~ (65 <= c <= 90)) (addr_string (new_addr s)).
Proof. exact (fun s => conj eq_refl (conj (to_lower_same s) (to_lower_no_upper s))). Qed.
Print Assumptions C50_addr_text_lower.

Theorem C50_addr_equal_iff_same_letters : forall s t,
  addr_string (new_addr s) = addr_string (new_addr t) <-> Forall2 same_letter s t.
Proof. exact addr_equal_iff. Qed.
Print Assumptions C50_addr_equal_iff_same_letters.

Example C50_ex : addr_bytes (new_addr [65;66;58;48;49]) = [171; 1]. Proof. reflexivity. Qed.
