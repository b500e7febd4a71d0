(** * RlpModel.v — models the RLP prefix decoders and list checkers of circuits/gadgets/rlp/rlp.go *)
From Coq Require Import ZArith List Lia Bool.
From Verif Require Import Field RlpUtilModel.
Import ListNotations.
Open Scope Z_scope.
Open Scope circ_scope.

Section M.
Variable p : Z.

(** rlp.go:184-210 RlpArrayPrefix: (isBig, prefixOrTotalHexLen, isValid) *)
Definition rlp_array_prefix (a b : Z) : Z * Z * Z :=
  let lt1 := r_less_than p a 12 in
  let eq := fis_zero p (fsub p a 15) in
  let lt2 := r_less_than p b 8 in
  let isBig := fmul p eq (fsub p 1 lt2) in
  let prefixVal := fadd p (fmul p 16 a) b in
  let isValid := fsub p 1 lt1 in
  let lenTemp := fmul p 2 (fsub p prefixVal 192) in
  let lenTemp := fadd p lenTemp (fmul p (fmul p 2 isBig) (-55)) in
  (isBig, fmul p isValid lenTemp, isValid).

Record field_prefix := FieldPrefix {
  fp_isBig : Z; fp_isLiteral : Z; fp_hexLen : Z; fp_isValid : Z;
  fp_isArray : Z; fp_isEmptyList : Z; fp_isZero : Z }.

(** rlp.go:212-277 RlpFieldPrefix, results in the order of the Go function *)
Definition rlp_field_prefix (a b : Z) : field_prefix :=
  let '(isArrayBig, arrayHexLen, isArray) := rlp_array_prefix a b in
  let lt1 := r_less_than p a 12 in
  let lt2 := r_less_than p a 8 in
  let eq := fis_zero p (fsub p a 11) in
  let lt3 := r_less_than p b 8 in
  let eq1 := fis_zero p (fsub p a 12) in
  let eq2 := fis_zero p b in
  let isLiteral := lt2 in
  let isBig := fmul p eq (fsub p 1 lt3) in
  let isEmptyList := fmul p eq1 eq2 in
  let prefixVal := fadd p (fmul p 16 a) b in
  let lenTmp := fmul p 2 (fsub p prefixVal 128) in
  let lenTmp := fadd p lenTmp (fmul p (fmul p 2 isBig) (-55)) in
  let lenTemp2 := fmul p (fsub p 1 isLiteral) lenTmp in
  let prefixOrTotalHexLen := fmul p lenTemp2 (fsub p 1 isEmptyList) in
  let isValid := fadd p lt1 isEmptyList in
  let isValid := fsub p isValid (fmul p lt1 isEmptyList) in
  let prefixOrTotalHexLen := fadd p (fmul p isValid prefixOrTotalHexLen) (fmul p isArray arrayHexLen) in
  let isValid := fadd p isValid isArray in
  let isBig := fadd p isBig isArrayBig in
  let z0 := fis_zero p a in
  let z1 := fis_zero p b in
  let isZero := fis_zero p (fsub p 2 (fadd p z0 z1)) in
  FieldPrefix isBig isLiteral prefixOrTotalHexLen isValid isArray isEmptyList isZero.

(** rlp.go:373-379 ArrayCheck; MaxFields is [length ac_fields], whose entries are
    (FieldMinHexLen[i], FieldMaxHexLen[i]) (all shipped parameter tables have that shape) *)
Record array_check := ArrayCheck {
  ac_maxHexLen : nat; ac_prefixMax : nat; ac_fields : list (nat * nat) }.

(** rlp.go:419-445 = 549-575 = 676-702: the list header.
    Returns (isValid, arrayRlpPrefix1HexLen, totalArrayHexLen). *)
Definition array_head (prefixMax : nat) (inp : list Z) : option (Z * Z * Z) :=
  guard (Nat.leb (2 + prefixMax) (length inp)) ;;
  let '(isBig, hexLen, isValid) := rlp_array_prefix (nth 0 inp 0) (nth 1 inp 0) in
  let row := hex_prefix_vals p 0 (firstn prefixMax (skipn 2 inp)) in
  let prefix1 := fmul p isBig hexLen in
  let sel := fmul p isBig (fsub p prefix1 1) in
  let* tot := r_mux1 p sel prefixMax row in
  let totalLen := fadd p hexLen (fmul p isBig (fsub p (fmul p 2 tot) hexLen)) in
  Some (isValid, prefix1, totalLen).

(** rlp.go:616-617 etc.: lenPrefixMaxHexs *)
Definition len_prefix_max (fieldMax : nat) : nat := ((Nat.div (log_ceil fieldMax) 8) + 1) * 2.

(** rlp.go:582 and 605-657, one iteration of RlpArrayCheck's loop on the already shifted array [rlps].
    Returns (field content array, fieldHexLen, increment of check, increment of lenSum). *)
Definition array_field (maxHexLen idx : nat) (fieldNum : Z) (fmax : nat) (rlps : list Z)
  : option (list Z * Z * Z * Z) :=
  let fieldIsValid := r_less_than p (Z.of_nat idx) fieldNum in
  let fp := rlp_field_prefix (nth 0 rlps 0) (nth 1 rlps 0) in
  let* isLiteral := for_ p (fp_isLiteral fp) (fsub p 1 fieldIsValid) in
  let prefix1 := fmul p (fmul p (fp_isBig fp) (fp_hexLen fp)) fieldIsValid in
  let lpm := len_prefix_max fmax in
  let shift := fsub p (fadd p 2 prefix1) (fmul p isLiteral (fadd p 2 prefix1)) in
  let* out := r_shift_left p maxHexLen 0 lpm rlps shift in
  let sel := fmul p fieldIsValid (fmul p (fp_isBig fp) (fsub p prefix1 1)) in
  guard (Nat.leb (2 + lpm) (length rlps)) ;;
  let* v := r_mux1 p sel lpm (hex_prefix_vals p 0 (firstn lpm (skipn 2 rlps))) in
  let fieldTemp := fadd p (fp_hexLen fp) (fmul p (fp_isBig fp) (fsub p (fmul p v 2) (fp_hexLen fp))) in
  let fieldHexLen := fsub p (fadd p fieldTemp (fmul p 2 isLiteral)) (fmul p fieldTemp isLiteral) in
  let fieldHexLen := fmul p fieldHexLen fieldIsValid in
  let checkInc := fmul p (fp_isValid fp) fieldIsValid in
  Some (out, fieldHexLen, checkInc,
        fadd p (fsub p 2 (fmul p 2 isLiteral)) (fadd p prefix1 fieldHexLen)).

(** The loop rlp.go:581-658: [rlps] is the array for field idx; between two fields the content array is
    shifted left by fieldHexLen within (FieldMinHexLen, FieldMaxHexLen) of the field just read. *)
Fixpoint array_loop (maxHexLen idx : nat) (fieldNum : Z) (fs : list (nat * nat)) (rlps : list Z)
    (check lenSum : Z) : option (Z * Z * list Z * list (list Z)) :=
  match fs with
  | [] => Some (check, lenSum, [], [])
  | (fmin, fmax) :: rest =>
      let* '(out, len, cinc, linc) := array_field maxHexLen idx fieldNum fmax rlps in
      let check' := fadd p check cinc in
      let lenSum' := fadd p lenSum linc in
      match rest with
      | [] => Some (check', lenSum', [len], [out])
      | _ :: _ =>
          let* rlps' := r_shift_left p maxHexLen fmin fmax out len in
          let* '(c, s, lens, outs) := array_loop maxHexLen (S idx) fieldNum rest rlps' check' lenSum' in
          Some (c, s, len :: lens, out :: outs)
      end
  end.

(** rlp.go:538-664 RlpArrayCheck with explicit fieldNum (Go default: MaxFields).
    Returns (out, totalRlpHexLen, fieldHexLens, fields). *)
Definition rlp_array_check (a : array_check) (inp : list Z) (fieldNum : Z)
  : option (Z * Z * list Z * list (list Z)) :=
  let* '(isValid, prefix1, total) := array_head (ac_prefixMax a) inp in
  let totalRlp := fadd p (fadd p 2 prefix1) total in
  guard (Nat.leb (ac_maxHexLen a) (length inp)) ;;
  let* rlps0 := match ac_fields a with
                | [] => Some []
                | _ => r_shift_left p (ac_maxHexLen a) 0 10 (firstn (ac_maxHexLen a) inp) (fadd p 2 prefix1)
                end in
  let* '(check, lenSum, lens, outs) :=
     array_loop (ac_maxHexLen a) 0 fieldNum (ac_fields a) rlps0 isValid 0 in
  let lenCheck := fis_zero p (fsub p total lenSum) in
  Some (fis_zero p (fsub p (fadd p check lenCheck) (fadd p fieldNum 2)), totalRlp, lens, outs).

(** rlp.go:472-524, one iteration of RlpNestArrayCheck's loop (list-typed fields keep their prefix) *)
Definition nest_field (maxHexLen : nat) (fmax : nat) (rlps : list Z) : option (list Z * Z * Z * Z) :=
  let fp := rlp_field_prefix (nth 0 rlps 0) (nth 1 rlps 0) in
  let prefix1 := fmul p (fp_isBig fp) (fp_hexLen fp) in
  let lpm := len_prefix_max fmax in
  let shift := fsub p (fadd p 2 prefix1) (fmul p (fp_isLiteral fp) (fadd p 2 prefix1)) in
  let kept := fmul p shift (fp_isArray fp) in
  let shift := fmul p shift (fsub p 1 (fp_isArray fp)) in
  let* out := r_shift_left p maxHexLen 0 lpm rlps shift in
  let sel := fmul p (fp_isBig fp) (fsub p prefix1 1) in
  guard (Nat.leb (2 + lpm) (length rlps)) ;;
  let* v := r_mux1 p sel lpm (hex_prefix_vals p 0 (firstn lpm (skipn 2 rlps))) in
  let fieldTemp := fadd p (fp_hexLen fp) (fmul p (fp_isBig fp) (fsub p (fmul p v 2) (fp_hexLen fp))) in
  let fieldHexLen := fsub p (fadd p fieldTemp (fmul p 2 (fp_isLiteral fp))) (fmul p fieldTemp (fp_isLiteral fp)) in
  let fieldHexLen := fmul p fieldHexLen (fsub p 1 (fp_isZero fp)) in
  let linc := fsub p (fsub p 2 (fmul p 2 (fp_isLiteral fp))) (fmul p 1 (fp_isEmptyList fp)) in
  Some (out, fadd p fieldHexLen kept, fp_isValid fp, fadd p linc (fadd p prefix1 fieldHexLen)).

(** rlp.go:451-525 loop of RlpNestArrayCheck *)
Fixpoint nest_loop (maxHexLen : nat) (fs : list (nat * nat)) (rlps : list Z)
    (check lenSum : Z) : option (Z * Z * list Z * list (list Z)) :=
  match fs with
  | [] => Some (check, lenSum, [], [])
  | (fmin, fmax) :: rest =>
      let* '(out, len, cinc, linc) := nest_field maxHexLen fmax rlps in
      let check' := fadd p check cinc in
      let lenSum' := fadd p lenSum linc in
      match rest with
      | [] => Some (check', lenSum', [len], [out])
      | _ :: _ =>
          let* rlps' := r_shift_left p maxHexLen fmin fmax out len in
          let* '(c, s, lens, outs) := nest_loop maxHexLen rest rlps' check' lenSum' in
          Some (c, s, len :: lens, out :: outs)
      end
  end.

(** rlp.go:413-532 RlpNestArrayCheck *)
Definition rlp_nest_array_check (a : array_check) (inp : list Z) : option (Z * Z * list Z * list (list Z)) :=
  let* '(isValid, prefix1, total) := array_head (ac_prefixMax a) inp in
  let totalRlp := fadd p (fadd p 2 prefix1) total in
  guard (Nat.leb (ac_maxHexLen a) (length inp)) ;;
  let* rlps0 := match ac_fields a with
                | [] => Some []
                | _ => r_shift_left p (ac_maxHexLen a) 0 (ac_prefixMax a) (firstn (ac_maxHexLen a) inp)
                         (fadd p 2 prefix1)
                end in
  let* '(check, lenSum, lens, outs) :=
     nest_loop (ac_maxHexLen a) (ac_fields a) rlps0 isValid 0 in
  let lenCheck := fis_zero p (fsub p total lenSum) in
  Some (fis_zero p (fsub p (fadd p check lenCheck) (fadd p (Z.of_nat (length (ac_fields a))) 2)),
        totalRlp, lens, outs).

(** rlp.go:729-777, one iteration of BlkHeaderRlpCheck's loop *)
Definition blk_field (maxHexLen idx : nat) (fieldsNum : Z) (fmax : nat) (rlps : list Z)
  : option (list Z * Z * Z * Z) :=
  let fp := rlp_field_prefix (nth 0 rlps 0) (nth 1 rlps 0) in
  let prefix1 := fmul p (fp_isBig fp) (fp_hexLen fp) in
  let lpm := len_prefix_max fmax in
  let shift := fsub p (fadd p 2 prefix1) (fmul p (fp_isLiteral fp) (fadd p 2 prefix1)) in
  let* out := r_shift_left p maxHexLen 0 lpm rlps shift in
  let sel := fmul p (fp_isBig fp) (fsub p prefix1 1) in
  guard (Nat.leb (2 + lpm) (length rlps)) ;;
  let* v := r_mux1 p sel lpm (hex_prefix_vals p 0 (firstn lpm (skipn 2 rlps))) in
  let fieldTemp := fadd p (fp_hexLen fp) (fmul p (fp_isBig fp) (fsub p (fmul p v 2) (fp_hexLen fp))) in
  let used := r_less_than p (Z.of_nat idx) fieldsNum in
  let fieldHexLen := fsub p (fadd p fieldTemp (fmul p 2 (fp_isLiteral fp))) (fmul p fieldTemp (fp_isLiteral fp)) in
  let fieldHexLen := fmul p fieldHexLen used in
  Some (out, fieldHexLen, fp_isValid fp,
        fadd p (fsub p 2 (fmul p 2 (fp_isLiteral fp))) (fadd p prefix1 fieldHexLen)).

(** rlp.go:708-778 loop of BlkHeaderRlpCheck *)
Fixpoint blk_loop (maxHexLen idx : nat) (fieldsNum : Z) (fs : list (nat * nat)) (rlps : list Z)
    (check lenSum : Z) : option (Z * Z * list Z * list (list Z)) :=
  match fs with
  | [] => Some (check, lenSum, [], [])
  | (fmin, fmax) :: rest =>
      let* '(out, len, cinc, linc) := blk_field maxHexLen idx fieldsNum fmax rlps in
      let check' := fadd p check cinc in
      let lenSum' := fadd p lenSum linc in
      match rest with
      | [] => Some (check', lenSum', [len], [out])
      | _ :: _ =>
          let* rlps' := r_shift_left p maxHexLen fmin fmax out len in
          let* '(c, s, lens, outs) := blk_loop maxHexLen (S idx) fieldsNum rest rlps' check' lenSum' in
          Some (c, s, len :: lens, out :: outs)
      end
  end.

(** rlp.go:670-785 BlkHeaderRlpCheck *)
Definition blk_header_rlp_check (a : array_check) (inp : list Z) (fieldsNum : Z)
  : option (Z * Z * list Z * list (list Z)) :=
  let* '(isValid, prefix1, total) := array_head (ac_prefixMax a) inp in
  let totalRlp := fadd p (fadd p 2 prefix1) total in
  guard (Nat.leb (ac_maxHexLen a) (length inp)) ;;
  let* rlps0 := match ac_fields a with
                | [] => Some []
                | _ => r_shift_left p (ac_maxHexLen a) 0 (ac_prefixMax a) (firstn (ac_maxHexLen a) inp)
                         (fadd p 2 prefix1)
                end in
  let* '(check, lenSum, lens, outs) :=
     blk_loop (ac_maxHexLen a) 0 fieldsNum (ac_fields a) rlps0 isValid 0 in
  let lenCheck := fis_zero p (fsub p total lenSum) in
  Some (fis_zero p (fsub p (fadd p check lenCheck) (fadd p (Z.of_nat (length (ac_fields a))) 2)),
        totalRlp, lens, outs).

(** rlp.go:381-407 LeftShiftRlpArrayPrefix (asserts the list prefix, drops it) *)
Definition left_shift_rlp_array_prefix (a : array_check) (inp : list Z) : option (list Z * Z) :=
  let* '(isValid, prefix1, total) := array_head (ac_prefixMax a) inp in
  assert_eq p isValid 1 ;;
  let* out := r_shift_left p (ac_maxHexLen a) 0 (ac_prefixMax a) inp (fadd p 2 prefix1) in
  Some (out, total).

End M.
