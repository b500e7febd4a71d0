(** * TxLeafModel.v — rlp.go:10-143: the parameter tables and DecodeTxLeafRlp *)
From Coq Require Import ZArith List.
From Verif Require Import Field RlpUtilModel RlpModel.
Import ListNotations.
Open Scope Z_scope.
Open Scope circ_scope.

(** rlp.go:24-30 TxLeafArrayRlpParams *)
Definition leaf_max : nat := 4352.
Definition leaf_value_max : nat := 4346.
Definition tx_leaf_params : array_check := ArrayCheck leaf_max 4 [(0%nat, 2%nat); (0%nat, leaf_value_max)].
(** rlp.go:32-38 SignedTxArrayCheckParams *)
Definition calldata_max : nat := 4030.
Definition signed_tx_params : array_check :=
  ArrayCheck leaf_value_max 6 [(0, 16); (0, 16); (0, 16); (0, 16); (0, 8); (0, 40); (0, 64); (0, calldata_max); (0, 2); (0, 2); (0, 64); (0, 64)]%nat.
(** rlp.go:11-22 Transaction *)
Record transaction := Tx { t_chain : list Z; t_nonce : list Z; t_prio : list Z; t_fee : list Z; t_gas : list Z; t_to : list Z; t_value : list Z; t_r : Z * Z; t_s : Z * Z; t_v : Z }.
(** rlp.go:52-143 DecodeTxLeafRlp.  None: the circuit cannot be satisfied (or does not compile: too few nibbles).  Lines 80-113 fill arrays that are not used;
    lines 72, 77 and 60 print. *)
Definition decode_tx_leaf (p : Z) (data : list Z) : option (transaction * list Z * list Z) :=
  let* '(out, _, _, fields) := rlp_nest_array_check p tx_leaf_params data in
  assert_eq p out 1 ;;
  let signed := nth 1 fields [] in
  let* '(out, _, lens, lf) := rlp_nest_array_check p signed_tx_params (skipn 2 signed) in
  assert_eq p out 1 ;;
  let* v := r_hex_to_decimal p (nth 9 lf []) 2 (nth 9 lens 0) in
  let* r := r_hex64_to_2fr p (nth 10 lf []) (nth 10 lens 0) in
  let* s := r_hex64_to_2fr p (nth 11 lf []) (nth 11 lens 0) in
  Some (Tx (firstn 16 (nth 0 lf [])) (firstn 16 (nth 1 lf [])) (firstn 16 (nth 2 lf [])) (firstn 16 (nth 3 lf [])) (firstn 8 (nth 4 lf [])) (firstn 40 (nth 5 lf []))
           (firstn 64 (nth 6 lf [])) r s v, signed, firstn 7 lens ++ [40]).
