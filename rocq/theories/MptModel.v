(** * MptModel.v — models circuits/gadgets/mpt/mpt_util.go and mpt.go (Merkle-Patricia inclusion gadgets).

    The digest gadget rlp.Keccak256AsNibbles ∘ keccak.NibblesToU64Array is the section variable [hash]
    (buffer nibbles -> round index -> 64 digest nibbles, [None] = unsatisfiable); it is modelled and
    instantiated in KeccakModel.v.  Go slices are lists; an index past the end panics, rendered by guards. *)
From Coq Require Import ZArith List Lia Bool Arith.
From Verif Require Import Field RlpUtilModel RlpModel.
Import ListNotations.
Open Scope Z_scope.
Open Scope circ_scope.

Section M.
Variable p : Z.

(** mpt_util.go:44-52 NewMPTLeafCheck, 76-81: the ArrayCheck built from it *)
Definition leaf_params (maxKey maxValue : nat) : array_check :=
  let maxRlp := (4 + (maxKey + 2) + 4 + maxValue)%nat in
  ArrayCheck maxRlp (2 * (log_ceil maxRlp / 8 + 1)) [(0, maxKey + 2); (0, maxValue)]%nat.

(** mpt_util.go:122-130 NewMPTExtensionCheck, 150-155 = 207-212 *)
Definition ext_params (maxKey maxRef : nat) : array_check :=
  let maxRlp := (4 + (maxKey + 2) + 2 + maxRef)%nat in
  ArrayCheck maxRlp (2 * (log_ceil maxRlp / 8 + 1)) [(0, maxKey + 2); (0, maxRef)]%nat.

(** mpt_util.go:12, 250-256 and 284-289 = 264-269 *)
Definition branch_params : array_check :=
  ArrayCheck 1064 8 (repeat (0, 64)%nat 16 ++ [(0, 0)%nat]).

(** mpt_util.go:85-92 / 166-173: hex-prefix flag test with the flag digits [odd] and [even] *)
Definition prefix_check (odd even : Z) (f0 : list Z) (prefLen : Z) : Z :=
  fadd p (fmul p (r_equal p prefLen 1) (r_equal p (nth 0 f0 0) odd))
         (fmul p (fmul p (r_equal p prefLen 2) (r_equal p (nth 0 f0 0) even)) (r_equal p (nth 1 f0 0) 0)).

(** mpt_util.go:60-113 CheckLeaf: (output, rlpTotalLength, valueLength) *)
Definition check_leaf (maxKey maxValue : nat) (keyLen : Z) (key value leafRlp : list Z) (prefLen : Z)
  : option (Z * Z * Z) :=
  assert_eq p (Z.of_nat (length key)) (Z.of_nat maxKey) ;;
  assert_eq p (Z.of_nat (length value)) (Z.of_nat maxValue) ;;
  guard (Nat.leb 2 (length value)) ;;
  let* isSingle := r_array_equal p (firstn 2 value) [8; 0] 2 2 in
  let* isZeroArr := r_array_equal p (skipn 2 value) (repeat 0 64) 64 64 in
  let* isZeroValue := fand p isSingle isZeroArr in
  let a := leaf_params maxKey maxValue in
  let* '(rlpout, total, lens, fields) := rlp_array_check p a leafRlp 2 in
  let f0 := nth 0 fields [] in
  let f1 := nth 1 fields [] in
  let l0 := nth 0 lens 0 in
  let l1 := nth 1 lens 0 in
  let pc := prefix_check 3 2 f0 prefLen in
  let* kfr := r_shift_left p (ac_maxHexLen a) 0 2 f0 prefLen in
  let* matched := r_array_equal p key kfr maxKey (fsub p l0 prefLen) in
  let* isNonExist := fand p isZeroValue (fsub p 1 matched) in
  let lenMatched := r_equal p keyLen (fsub p l0 prefLen) in
  let keyPass := fmul p matched lenMatched in
  let* valueMatched := r_array_equal p value f1 maxValue l1 in
  let rlpCheck := fadd p rlpout pc in
  let checkOut := fadd p (fadd p rlpCheck keyPass) valueMatched in
  let* out := fselect p isNonExist (fadd p rlpCheck 2) checkOut in
  Some (out, total, l1).

(** mpt_util.go:132-198 CheckExtension: (output, rlpTotalLength) *)
Definition check_extension (maxKey maxRef : nat) (keyLen : Z) (key : list Z) (refLen : Z) (refs nodeRlp : list Z)
    (prefLen : Z) : option (Z * Z) :=
  let a := ext_params maxKey maxRef in
  let* '(rlpout, total, lens, fields) := rlp_array_check p a nodeRlp 2 in
  let f0 := nth 0 fields [] in
  let f1 := nth 1 fields [] in
  let l0 := nth 0 lens 0 in
  let l1 := nth 1 lens 0 in
  let pc := prefix_check 1 0 f0 prefLen in
  let* kfr := r_shift_left p (ac_maxHexLen a) 0 2 f0 prefLen in
  let* matched := r_array_equal p key kfr maxKey (fsub p l0 prefLen) in
  let lenMatched := r_equal p keyLen (fsub p l0 prefLen) in
  let keyPass := fmul p matched lenMatched in
  let* refMatched := r_array_equal p refs f1 maxRef l1 in
  let refLenMatched := r_equal p refLen l1 in
  let refPass := fmul p refMatched refLenMatched in
  Some (fadd p (fadd p (fadd p rlpout pc) keyPass) refPass, total).

(** mpt_util.go:200-242 checkExtensionNodeNonExistence (the RLP validity flag is computed but not used) *)
Definition ext_nonexistence (maxKey maxRef : nat) (key : list Z) (keyLen : Z) (nodeRlp : list Z) (prefLen : Z)
  : option Z :=
  let a := ext_params maxKey maxRef in
  let* '(rlpout, total, lens, fields) := rlp_array_check p a nodeRlp 2 in
  let f0 := nth 0 fields [] in
  let l0 := nth 0 lens 0 in
  let pc := prefix_check 1 0 f0 prefLen in
  let* kfr := r_shift_left p (ac_maxHexLen a) 0 2 f0 prefLen in
  let* matched := r_array_equal p key kfr maxKey (fsub p l0 prefLen) in
  let lenMatched := r_equal p keyLen (fsub p l0 prefLen) in
  let* both := fand p matched lenMatched in
  Some (r_equal p (fadd p pc (fsub p 1 both)) 2).

(** mpt_util.go:259-275 CheckBranchForNonExistence *)
Definition branch_nonexistence (keyNibble : Z) (nodeRlp : list Z) : option Z :=
  let* '(valid, total, lens, fields) := rlp_array_check p branch_params nodeRlp 17 in
  let* l := smux p keyNibble lens in
  Some (fis_zero p (fsub p (fadd p valid (fis_zero p l)) 2)).

(** mpt_util.go:277-318 CheckBranch: (output, rlpTotalLength).  [branch_rows] is the transposed table that
    lines 298-306 build: row j holds digit j of every child. *)
Definition branch_rows (fields : list (list Z)) : list (list Z) :=
  map (fun j => map (fun i => nth j (nth i fields []) 0) (seq 0 16)) (seq 0 64).
Definition check_branch (maxRef : nat) (keyNibble refLen : Z) (refs nodeRlp : list Z) : option (Z * Z) :=
  let* '(rlpout, total, lens, fields) := rlp_array_check p branch_params nodeRlp 17 in
  let* child := r_multiplexer p keyNibble 64 16 (branch_rows fields) in
  let* refCheck := r_array_equal p refs child maxRef refLen in
  let* len := r_mux1 p keyNibble 16 (firstn 16 lens) in
  let lenCheck := r_equal p len refLen in
  Some (fadd p (fadd p (fadd p rlpout refCheck) lenCheck) 1, total).

Variable hash : list Z -> Z -> option (list Z).

(** rlp/util.go:52-88 Keccak256AsNibbles: digest and OutputLength *)
Definition keccak_or_len (inLen : Z) (buf : list Z) (round : Z) : option (list Z * Z) :=
  let* d := hash buf round in
  Some (d, fadd p (fmul p (r_less_than p inLen 63) (fsub p inLen 64)) 64).

(** mpt.go:47-77 (= 289-319): the key-fragment rule.  [orArg] is the second operand of api.Or: nodeTypes[i] in
    the fixed-length variant, 1 - nodeTypes[i] in the other one. *)
Definition frag_terms (orArg : nat -> Z) (keyLength : Z) (starts : list Z) (n : nat) : option (list Z) :=
  omap (fun i =>
    let isSingle := r_equal p (fadd p (nth i starts 0) 1) (nth (S i) starts 0) in
    let mono := r_less_than p (nth i starts 0) (nth (S i) starts 0) in
    let* valid := for_ p isSingle (orArg i) in
    let range := r_less_than p (nth i starts 0) keyLength in
    Some (fadd p (fadd p valid mono) range)) (seq 0 n).
(** running sums; tmp = api.Add(tmp, a, b, c) *)
Fixpoint run_sums (acc : Z) (l : list Z) : list Z :=
  match l with [] => [] | x :: r => let a := fadd p acc x in a :: run_sums a r end.
Definition frags_valid (orArg : nat -> Z) (maxDepth : nat) (keyLength : Z) (starts : list Z) (depth : Z) : option Z :=
  let* terms := frag_terms orArg keyLength starts (maxDepth - 1) in
  let last := fadd p 2 (r_less_than p (nth (maxDepth - 1) starts 0) keyLength) in
  let* m := r_mux1 p (fsub p depth 1) maxDepth (run_sums 0 (terms ++ [last])) in
  Some (r_equal p m (fmul p 3 depth)).

(** mpt.go:147-165 (= 365-374): the reference (digits and length) the node of [layer] must hold: the last node's
    digest when depth = layer+2, else the next layer's digest.  [nxt] is the next layer's, absent for the bottom layer. *)
Definition node_ref (depthEq : Z) (leaf : list Z * Z) (nxt : option (list Z * Z)) : list Z * Z :=
  match nxt with
  | None => (map (fun i => fmul p depthEq (nth i (fst leaf) 0)) (seq 0 64), fmul p depthEq (snd leaf))
  | Some n =>
      (map (fun i => fadd p (fmul p depthEq (fsub p (nth i (fst leaf) 0) (nth i (fst n) 0))) (nth i (fst n) 0)) (seq 0 64),
       fadd p (fmul p depthEq (fsub p (snd leaf) (snd n))) (snd n))
  end.

Record layers_in := LayersIn {
  li_key : list Z; li_starts : list Z; li_nodes : list (list Z); li_rounds : list Z;
  li_prefs : list Z; li_types : list Z; li_depth : Z }.

(** mpt.go:141-224 (= 350-434), the body of the layer loop.  [sub] is the key slice gadget, [keyLen] the compile
    time key length.  Result: ((extension output, branch output), digest and its length). *)
Definition layer_check (keyLen : nat) (sub : Z -> Z -> option (list Z * Z)) (i : layers_in) (leaf : list Z * Z)
    (layer : nat) (nxt : option (list Z * Z)) : option ((Z * Z) * (list Z * Z)) :=
  let s0 := nth layer (li_starts i) 0 in
  let s1 := nth (S layer) (li_starts i) 0 in
  let* '(keySel, _) := sub s0 s1 in
  let depthEq := r_equal p (li_depth i) (Z.of_nat (S layer) + 1) in
  let '(refs, refLen) := node_ref depthEq leaf nxt in
  let ty := nth layer (li_types i) 0 in
  let rlp := nth layer (li_nodes i) [] in
  guard (Nat.leb 1064 (length rlp)) ;;
  let extRlp := map (fun x => fmul p ty x) (firstn (4 + 2 + keyLen + 2 + 64) rlp) in
  let* '(extOut, extTotal) := check_extension keyLen 64 (fsub p s1 s0) keySel refLen refs extRlp (nth layer (li_prefs i) 0) in
  guard (Nat.leb keyLen (length (li_key i))) ;;
  let depthLt := r_less_than p (Z.of_nat layer) (li_depth i) in
  let* nib := r_mux1 p (fmul p depthLt s0) keyLen (firstn keyLen (li_key i)) in
  let brRlp := map (fun x => fsub p x (fmul p ty x)) (firstn 1064 rlp) in
  let* '(brOut, brTotal) := check_branch 64 nib refLen refs brRlp in
  let inLen := fadd p (fmul p ty (fsub p extTotal brTotal)) brTotal in
  let* h := keccak_or_len inLen rlp (nth layer (li_rounds i) 0) in
  Some ((extOut, brOut), h).

(** mpt.go:141 `for layer := maxDepth - 2; layer >= 0; layer--`: n layers starting at [layer] *)
Fixpoint layers_loop (keyLen : nat) (sub : Z -> Z -> option (list Z * Z)) (i : layers_in) (leaf : list Z * Z)
    (n layer : nat) : option (list (Z * Z) * option (list Z * Z)) :=
  match n with
  | O => Some ([], None)
  | S n' =>
      let* '(rs, nxt) := layers_loop keyLen sub i leaf n' (S layer) in
      let* '(r, h) := layer_check keyLen sub i leaf layer nxt in
      Some (r :: rs, Some h)
  end.

(** mpt.go:229-251 (= 439-461): running total of the per-layer outputs *)
Fixpoint layer_sums (acc : Z) (types : list Z) (rs : list (Z * Z)) : list Z :=
  match types, rs with
  | ty :: types', (e, b) :: rs' =>
      let a := fadd p (fadd p acc b) (fmul p ty (fsub p e b)) in a :: layer_sums a types' rs'
  | _, _ => []
  end.

(** the slices have the documented sizes; anything shorter panics *)
Definition sizes_ok (maxDepth : nat) (i : layers_in) : bool :=
  Nat.leb 2 maxDepth && Nat.leb maxDepth (length (li_starts i)) && Nat.leb (maxDepth - 1) (length (li_nodes i)) &&
  Nat.leb (maxDepth - 1) (length (li_rounds i)) && Nat.leb (maxDepth - 1) (length (li_prefs i)) &&
  Nat.leb (maxDepth - 1) (length (li_types i)).

(** mpt.go:100-116: the last node of a storage proof may show absence *)
Definition storage_override (keyLen : nat) (key lastRlp leafSel : list Z) (leafSelLen prefLen depth out : Z) : option Z :=
  let* nib := smux p (fsub p depth 1) key in
  let* b := branch_nonexistence nib lastRlp in
  let* e := ext_nonexistence keyLen 64 leafSel leafSelLen lastRlp prefLen in
  let* absent := for_ p b e in
  fselect p absent 4 out.

(** mpt.go:18-257 CheckMPTInclusionFixedKeyLength: (Output, ValueLength) *)
Definition check_mpt_fixed (maxDepth keyLen maxValue : nat) (value rootHash lastRlp : list Z) (lastRound leafPref : Z)
    (i : layers_in) (isStorage : bool) : option (Z * Z) :=
  assert_le p (Z.of_nat maxDepth) 10 ;;
  guard (sizes_ok maxDepth i) ;;
  let depth := li_depth i in
  let starts := li_starts i in
  let* fv := frags_valid (fun k => nth k (li_types i) 0) maxDepth (Z.of_nat keyLen) starts depth in
  let* leafStart := r_mux1 p (fsub p depth 1) maxDepth (firstn maxDepth starts) in
  guard (Nat.leb 64 (length (li_key i))) ;;
  let sub := fun from end_ => r_sub_array p 64 64 7 (firstn 64 (li_key i)) from end_ in
  let* '(leafSel, leafSelLen) := sub leafStart (Z.of_nat keyLen) in
  let* '(out0, _, valueLen) := check_leaf keyLen maxValue leafSelLen leafSel value lastRlp leafPref in
  let* out := if isStorage
              then storage_override keyLen (li_key i) lastRlp leafSel leafSelLen leafPref depth out0
              else Some out0 in
  let* leafHash := keccak_or_len (Z.of_nat (length lastRlp)) lastRlp lastRound in
  let* '(rs, h0) := layers_loop keyLen sub i leafHash (maxDepth - 1) 0 in
  match h0 with
  | None => None
  | Some root =>
      let* rootCheck := r_array_equal p rootHash (fst root) 64 64 in
      let base := fadd p (fadd p rootCheck out) fv in
      let* total := r_mux1 p (fsub p depth 1) maxDepth (base :: layer_sums base (li_types i) rs) in
      Some (r_equal p total (fadd p (fmul p depth 4) 2), valueLen)
  end.

(** mpt.go:259-467 CheckMPTInclusionNoBranchTermination; [leafHash] is the 64 digits that
    utils.Recompose32ByteToNibbles(publicLeafHash) returns (modelled in FieldPackModel.v).  The key copy of
    line 351 has 7 entries, so maxKeyHexLen > 7 panics; lines 318-321 read key[0..5]. *)
Definition check_mpt_no_branch_term (maxDepth maxKey : nat) (keyLength : Z) (rootHash leafHash : list Z) (i : layers_in)
  : option (Z * Z) :=
  assert_le p (Z.of_nat maxDepth) 10 ;;
  guard (sizes_ok maxDepth i) ;;
  let depth := li_depth i in
  let starts := li_starts i in
  let* fv := frags_valid (fun k => fsub p 1 (nth k (li_types i) 0)) maxDepth keyLength starts depth in
  let* leafStart := r_mux1 p (fsub p depth 1) maxDepth (firstn maxDepth starts) in
  guard (Nat.leb 7 (length (li_key i)) && Nat.leb maxKey 7) ;;
  let sub := fun from end_ => r_sub_array p maxKey maxKey (log_ceil maxKey) (firstn 7 (li_key i)) from end_ in
  let* '(rs, h0) := layers_loop maxKey sub i (leafHash, 64) (maxDepth - 1) 0 in
  match h0 with
  | None => None
  | Some root =>
      let* rootCheck := r_array_equal p rootHash (fst root) 64 64 in
      let base := fadd p (fadd p rootCheck 4) fv in
      let* total := r_mux1 p (fsub p depth 1) maxDepth (base :: layer_sums base (li_types i) rs) in
      Some (r_equal p total (fadd p (fmul p depth 4) 1), 0)
  end.

End M.
