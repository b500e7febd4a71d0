(** * IndexModel.v — circuits/gadgets/index-proof/core/circuit_index_mpt.go *)
From Coq Require Import ZArith List Lia Bool.
From Verif Require Import Field RlpUtilModel.
Import ListNotations.
Open Scope Z_scope.
Open Scope circ_scope.

Section S.
Variable p : Z.

(** circuit_index_mpt.go:14-20 SumNibble: a variadic api.Add is the iterated sum *)
Definition sum_nibble (nb : list Z) : Z :=
  fadd p (fadd p (fadd p (fmul p (nth 0 nb 0) 1) (fmul p (nth 1 nb 0) 2)) (fmul p (nth 2 nb 0) 4))
       (fmul p (nth 3 nb 0) 8).

(** circuit_index_mpt.go:68-76: the two nibbles (high first) of an array of eight little-endian bits *)
Definition byte_sums (b : list Z) : list Z := [sum_nibble (firstn 4 (skipn 4 b)); sum_nibble (firstn 4 b)].

(** circuit_index_mpt.go:31-121 CalTxOrReceiptIndexRlp *)
Definition cal_index_rlp (index : Z) : option (list Z) :=
  (* :33-40 *)
  let equaltozero := fis_zero p index in
  let lessthan7 := r_less_than p index 128 in
  let lessthan8 := r_less_than p index 256 in
  let lessthan16 := r_less_than p index 65536 in
  let lessthan8 := fsub p lessthan8 lessthan7 in
  let lessthan7 := fsub p lessthan7 equaltozero in
  let lessthan16 := fsub p (fsub p (fsub p lessthan16 equaltozero) lessthan7) lessthan8 in
  (* :42 *)
  assert_le p index 65535 ;;
  (* :44-56 *)
  let* bi := to_binary p index (field_bits p) in
  let* bp0 := to_binary p 0x80 (field_bits p) in
  let* bp1 := to_binary p 0x81 (field_bits p) in
  let* bp2 := to_binary p 0x82 (field_bits p) in
  (* :58-70 *)
  let p0 := firstn 8 bp0 in let p1 := firstn 8 bp1 in let p2 := firstn 8 bp2 in
  let p3 := firstn 8 bi in let b0 := firstn 8 (skipn 8 bi) in let b1 := firstn 8 bi in
  (* :72-95 *)
  let np0 := byte_sums p0 in let np1 := byte_sums p1 in let np2 := byte_sums p2 in let np3 := byte_sums p3 in
  let np i := fadd p (fadd p (fadd p (fmul p (nth i np0 0) equaltozero) (fmul p (nth i np1 0) lessthan8))
                        (fmul p (nth i np2 0) lessthan16)) (fmul p (nth i np3 0) lessthan7) in
  (* :97-101 *)
  let n0 := byte_sums b0 in let n1 := byte_sums b1 in
  (* :104-108 *)
  let exchange := r_less_than p 1 (fadd p (fis_zero p (nth 0 n0 0)) (fis_zero p (nth 1 n0 0))) in
  let* n00 := fselect p (fis_zero p exchange) (nth 0 n0 0) (nth 0 n1 0) in
  let* n01 := fselect p (fis_zero p exchange) (nth 1 n0 0) (nth 1 n1 0) in
  let* n10 := fselect p (fis_zero p exchange) (nth 0 n1 0) (nth 0 n0 0) in
  let* n11 := fselect p (fis_zero p exchange) (nth 1 n1 0) (nth 1 n0 0) in
  (* :110-113 *)
  let keep := fis_zero p lessthan7 in
  (* :115-123 *)
  Some [np 0%nat; np 1%nat; fmul p n00 keep; fmul p n01 keep; fmul p n10 keep; fmul p n11 keep; 0].

(** circuit_index_mpt.go:22-29 IndexCheckCircuit.Define *)
Definition index_check (index : Z) (rlpString : list Z) : option unit :=
  guard (Nat.eqb (length rlpString) 7) ;;
  let* res := cal_index_rlp index in
  let* _ := omap (fun ab => assert_eq p (fst ab) (snd ab)) (combine res rlpString) in Some tt.
End S.
