(** * KeccakModel.v — models circuits/gadgets/keccak/*.go and keccak/keccakf/*.go *)
From Coq Require Import ZArith List Bool Arith.
From Verif Require Import Field RlpUtilModel.
Import ListNotations.
Open Scope Z_scope.
Open Scope circ_scope.

(** st[i] = x on a Go array *)
Definition upd {A : Type} (i : nat) (x : A) (l : list A) : list A := firstn i l ++ x :: skipn (S i) l.

(** keccakf.go:18-43 rc (constUint64, uint64api.go:31-37, expands them to bits) *)
Definition kf_rc : list Z :=
  [0x0000000000000001; 0x0000000000008082; 0x800000000000808A; 0x8000000080008000; 0x000000000000808B; 0x0000000080000001;
   0x8000000080008081; 0x8000000000008009; 0x000000000000008A; 0x0000000000000088; 0x0000000080008009; 0x000000008000000A;
   0x000000008000808B; 0x800000000000008B; 0x8000000000008089; 0x8000000000008003; 0x8000000000008002; 0x8000000000000080;
   0x000000000000800A; 0x800000008000000A; 0x8000000080008081; 0x8000000000008080; 0x0000000080000001; 0x8000000080008008].
(** keccakf.go:44-51 *)
Definition kf_rotc : list nat :=
  [1; 3; 6; 10; 15; 21; 28; 36; 45; 55; 2; 14; 27; 41; 56; 8; 25; 43; 62; 18; 39; 61; 20; 44]%nat.
Definition kf_piln : list nat :=
  [10; 7; 11; 17; 18; 3; 5; 16; 8; 21; 24; 4; 15; 23; 19; 13; 12; 2; 20; 14; 22; 9; 6; 1]%nat.

Section K.
Variable p : Z.

(** uint64api.go:31-37 *)
Definition const_u64 (a : Z) : list Z := map (fun i => Z.land (Z.shiftr a (Z.of_nat i)) 1) (seq 0 64).
(** uint64api.go:52-63 and, 65-76 xor, 78-84 lrot, 86-98 not; a xuint64 is a list of 64 field elements *)
Definition u_and (ins : list (list Z)) : option (list Z) :=
  omap (fun i => ofold (fun r v => fand p r (nth i v 0)) ins 1) (seq 0 64).
Definition u_xor (ins : list (list Z)) : option (list Z) :=
  omap (fun i => ofold (fun r v => fxor p r (nth i v 0)) ins 0) (seq 0 64).
Definition u_lrot (v : list Z) (shift : nat) : list Z :=
  map (fun i => nth ((i + 64 - shift) mod 64) v 0) (seq 0 64).
Definition u_not (v : list Z) : option (list Z) := omap (fun i => fxor p (nth i v 0) 1) (seq 0 64).

(** keccakf.go:74-83 *)
Definition kf_theta (st : list (list Z)) : option (list (list Z)) :=
  let* bc := omap (fun i => u_xor [nth i st []; nth (i + 5) st []; nth (i + 10) st []; nth (i + 15) st []; nth (i + 20) st []])
                  (seq 0 5) in
  ofold (fun st i =>
           let* t := u_xor [nth ((i + 4) mod 5) bc []; u_lrot (nth ((i + 1) mod 5) bc []) 1] in
           ofold (fun st j => let* x := u_xor [nth (j + i) st []; t] in Some (upd (j + i) x st)) [0; 5; 10; 15; 20]%nat st)
        (seq 0 5) st.
(** keccakf.go:85-91 *)
Definition kf_rho_pi (st : list (list Z)) : list (list Z) :=
  snd (fold_left (fun ts i =>
         let '(t, st) := ts in
         let j := nth i kf_piln 0%nat in
         (nth j st [], upd j (u_lrot t (nth i kf_rotc 0%nat)) st)) (seq 0 24) (nth 1 st [], st)).
(** keccakf.go:94-101 *)
Definition kf_chi (st : list (list Z)) : option (list (list Z)) :=
  ofold (fun st j =>
    let bc := map (fun i => nth (j + i) st []) (seq 0 5) in
    ofold (fun st i =>
      let* n := u_not (nth ((i + 1) mod 5) bc []) in
      let* a := u_and [n; nth ((i + 2) mod 5) bc []] in
      let* x := u_xor [nth (j + i) st []; a] in
      Some (upd (j + i) x st)) (seq 0 5) st) [0; 5; 10; 15; 20]%nat st.
(** keccakf.go:103 *)
Definition kf_iota (r : nat) (st : list (list Z)) : option (list (list Z)) :=
  let* x := u_xor [nth 0 st []; const_u64 (nth r kf_rc 0)] in Some (upd 0 x st).
(** keccakf.go:69-106 permute *)
Definition kf_permute (st : list (list Z)) : option (list (list Z)) :=
  ofold (fun st r =>
    let* st1 := kf_theta st in
    let st2 := kf_rho_pi st1 in
    let* st3 := kf_chi st2 in
    kf_iota r st3) (seq 0 24) st.
(** keccakf.go:56-67 Permute: lanes are consecutive groups of 64 bits *)
Definition kf_permute_bits (a : list Z) : option (list Z) :=
  let* res := kf_permute (map (fun i => firstn 64 (skipn (i * 64) a)) (seq 0 25)) in
  Some (concat res).

(** keccak256_bits.go:62-75 absorbBits *)
Definition absorb_bits (s block : list Z) : option (list Z) :=
  let* x := omap (fun i => fxor p (nth i s 0) (nth i block 0)) (seq 0 1088) in
  kf_permute_bits (x ++ skipn 1088 s).
(** keccak256_bits.go:36-42; data[i] panics past the end *)
Definition round_bits (data : list Z) (round : nat) : option (list Z) :=
  guard (Nat.leb ((round + 1) * 1088) (length data)) ;; Some (firstn 1088 (skipn (round * 1088) data)).
(** keccak256_bits.go:20-27: the states after 1..n blocks *)
Fixpoint bit_states (data : list Z) (n round : nat) (s : list Z) : option (list (list Z)) :=
  match n with
  | O => Some []
  | S n' =>
      let* b := round_bits data round in
      let* s' := absorb_bits s b in
      let* rest := bit_states data n' (S round) s' in
      Some (s' :: rest)
  end.
(** keccak256_bits.go:49-60 transpose2 *)
Definition transpose_n (cols : nat) (rows : list (list Z)) : list (list Z) :=
  map (fun i => map (fun r => nth i r 0) rows) (seq 0 cols).
(** keccak256_bits.go:12-34 Keccak256Bits *)
Definition keccak256_bits (maxRounds : nat) (roundIndex : Z) (data : list Z) : option (list Z) :=
  guard (Nat.leb (length data) (maxRounds * 1088)) ;;
  guard (Nat.eqb (length data mod 1088) 0) ;;
  let* sts := bit_states data maxRounds 0 (repeat 0 1600) in
  if Nat.eqb maxRounds 1 then Some (firstn 256 (nth 0 sts []))
  else m_multiplex p roundIndex 256 maxRounds (transpose_n 1600 sts).
(** keccak256_bits_optimized.go:11-34; states[minRounds:] is the states after minRounds..maxRounds blocks *)
Definition keccak256_bits_optimized (minRounds maxRounds : nat) (roundIndex : Z) (data : list Z) : option (list Z) :=
  guard (Nat.leb (length data) (maxRounds * 1088)) ;;
  guard (Nat.eqb (length data mod 1088) 0) ;;
  let* sts := bit_states data maxRounds 0 (repeat 0 1600) in
  if Nat.eqb maxRounds 1 then Some (firstn 256 (nth 0 sts []))
  else
    guard (Nat.leb minRounds maxRounds) ;; (* a larger minRounds panics on the slice or gives an empty selection *)
    m_multiplex p (fsub p roundIndex (Z.of_nat minRounds - 1)) 256 (maxRounds - minRounds + 1)
      (transpose_n 1600 (skipn minRounds (repeat 0 1600 :: sts))).

(** keccak256.go:79-91 absorb on 25 words of 64 bits; [perm] is gnark's keccakf.PermuteOld (external dependency) *)
Variable perm : list Z -> option (list Z).
Definition absorb_words (s block : list Z) : option (list Z) :=
  let* x := omap (fun i =>
      let* rb := to_binary p (nth i s 0) 64 in
      let* bb := to_binary p (nth i block 0) 64 in
      let* xs := omap (fun j => fxor p (nth j rb 0) (nth j bb 0)) (seq 0 64) in
      from_binary p xs) (seq 0 17) in
  perm (x ++ skipn 17 s).
Fixpoint word_states (blocks : list (list Z)) (s : list Z) : option (list (list Z)) :=
  match blocks with
  | [] => Some []
  | b :: r => let* s' := absorb_words s b in let* rest := word_states r s' in Some (s' :: rest)
  end.
(** keccak256.go:14-63 Keccak256 / ForNormalTransaction / ForMaxTransaction (MAX_ROUNDS = 10, 13, 13): [blocks] has
    exactly that many entries of 17 words *)
Definition keccak256_words (blocks : list (list Z)) (roundIndex : Z) : option (list Z) :=
  let* sts := word_states blocks (repeat 0 25) in
  let* sel := m_multiplex p roundIndex 25 (length blocks) (transpose_n 25 sts) in
  Some (firstn 4 sel).

(** periphery.go:129-165 NibblesToU64Array (= 167-203, 205-241; 90-126 RecomposeHexToKeccakU64s with width): the first
    len*4/64 groups of 16 nibbles become words, the rest of the [width] rows of 17 words is 0; more words panic *)
Definition nibble_word (n : list Z) : option Z :=
  let* bytes := omap (fun j =>
     let* hi := to_binary p (nth (2 * j) n 0) 4 in
     let* lo := to_binary p (nth (2 * j + 1) n 0) 4 in
     Some (lo ++ hi)) (seq 0 8) in
  from_binary p (concat bytes).
Definition nibbles_to_words (width : nat) (nibbles : list Z) : option (list (list Z)) :=
  let start := (length nibbles * 4 / 64)%nat in
  let* ws := omap (fun i => nibble_word (firstn 16 (skipn (i * 16) nibbles))) (seq 0 start) in
  guard (Nat.leb start (width * 17)) ;;
  let all := ws ++ repeat 0 (width * 17 - start) in
  Some (map (fun r => firstn 17 (skipn (r * 17) all)) (seq 0 width)).

(** rlp/util.go:52-88 Keccak256AsNibbles, digest part: each output word gives 16 nibbles, low byte first, high
    nibble of a byte first *)
Definition word_nibbles (w : Z) : option (list Z) :=
  let* b := to_binary p w 64 in
  let* ns := omap (fun i => from_binary p (firstn 4 (skipn (4 * i) b))) (seq 0 16) in
  Some (flat_map (fun i => [nth (2 * i + 1) ns 0; nth (2 * i) ns 0]) (seq 0 8)).
Definition keccak_nibbles (width : nat) (nibbles : list Z) (roundIndex : Z) : option (list Z) :=
  let* blocks := nibbles_to_words width nibbles in
  let* out := keccak256_words blocks roundIndex in
  let* ns := omap word_nibbles out in
  Some (concat ns).
End K.
