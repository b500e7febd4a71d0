(** * ShaModel.v — models circuits/gadgets/sha256/*.go and circuits/gadgets/sha512/*.go

    The two Go packages are copies of each other that differ in the word size, the constants, the rotation amounts, the
    block size and the number of digits kept by add; one definition with those parameters models both. *)
From Coq Require Import ZArith List Bool Arith.
From Verif Require Import Field KeccakModel.
Import ListNotations.
Open Scope Z_scope.
Open Scope circ_scope.

Record sha_code := ShaCode {
  cW : nat;                       (* 32: xuint32, uint32api.go:28; 64: xuint64, sha512/uint64api.go:27 *)
  cChunk : nat;                   (* sha256.go:8, sha512.go:8 *)
  cRounds : nat;                  (* sha256block.go:106,116: 64; sha512block.go:127,137: 80 *)
  cWArr : nat;                    (* length of w: sha256block.go:80 (64), sha512block.go:97 (chunk = 128) *)
  cK : list Z; cInit : list Z;
  cE : nat * nat * nat; cA : nat * nat * nat;      (* lrot(e,-x), lrot(a,-x) *)
  cV1 : nat * nat * nat; cV2 : nat * nat * nat;    (* lrot(v,-x), lrot(v,-y), rshift(v,z) *)
  cAddDigits : nat -> nat;        (* uint32api.go:140: 33+len(in); sha512/uint64api.go:146: 68 *)
  cLenPos : nat }.                (* sha256.go:110: 56; sha512.go:110: 112 *)

(** sha256block.go:7-72, sha256.go:10-19 *)
Definition sha256_code : sha_code := ShaCode 32 64 64 64
  [0x428a2f98; 0x71374491; 0xb5c0fbcf; 0xe9b5dba5; 0x3956c25b; 0x59f111f1; 0x923f82a4; 0xab1c5ed5;
   0xd807aa98; 0x12835b01; 0x243185be; 0x550c7dc3; 0x72be5d74; 0x80deb1fe; 0x9bdc06a7; 0xc19bf174;
   0xe49b69c1; 0xefbe4786; 0x0fc19dc6; 0x240ca1cc; 0x2de92c6f; 0x4a7484aa; 0x5cb0a9dc; 0x76f988da;
   0x983e5152; 0xa831c66d; 0xb00327c8; 0xbf597fc7; 0xc6e00bf3; 0xd5a79147; 0x06ca6351; 0x14292967;
   0x27b70a85; 0x2e1b2138; 0x4d2c6dfc; 0x53380d13; 0x650a7354; 0x766a0abb; 0x81c2c92e; 0x92722c85;
   0xa2bfe8a1; 0xa81a664b; 0xc24b8b70; 0xc76c51a3; 0xd192e819; 0xd6990624; 0xf40e3585; 0x106aa070;
   0x19a4c116; 0x1e376c08; 0x2748774c; 0x34b0bcb5; 0x391c0cb3; 0x4ed8aa4a; 0x5b9cca4f; 0x682e6ff3;
   0x748f82ee; 0x78a5636f; 0x84c87814; 0x8cc70208; 0x90befffa; 0xa4506ceb; 0xbef9a3f7; 0xc67178f2]
  [0x6A09E667; 0xBB67AE85; 0x3C6EF372; 0xA54FF53A; 0x510E527F; 0x9B05688C; 0x1F83D9AB; 0x5BE0CD19]
  (6, 11, 25)%nat (2, 13, 22)%nat (17, 19, 10)%nat (7, 18, 3)%nat (fun n => 33 + n)%nat 56.
(** sha512block.go:7-88, sha512.go:10-19 *)
Definition sha512_code : sha_code := ShaCode 64 128 80 128
  [0x428a2f98d728ae22; 0x7137449123ef65cd; 0xb5c0fbcfec4d3b2f; 0xe9b5dba58189dbbc;
   0x3956c25bf348b538; 0x59f111f1b605d019; 0x923f82a4af194f9b; 0xab1c5ed5da6d8118;
   0xd807aa98a3030242; 0x12835b0145706fbe; 0x243185be4ee4b28c; 0x550c7dc3d5ffb4e2;
   0x72be5d74f27b896f; 0x80deb1fe3b1696b1; 0x9bdc06a725c71235; 0xc19bf174cf692694;
   0xe49b69c19ef14ad2; 0xefbe4786384f25e3; 0x0fc19dc68b8cd5b5; 0x240ca1cc77ac9c65;
   0x2de92c6f592b0275; 0x4a7484aa6ea6e483; 0x5cb0a9dcbd41fbd4; 0x76f988da831153b5;
   0x983e5152ee66dfab; 0xa831c66d2db43210; 0xb00327c898fb213f; 0xbf597fc7beef0ee4;
   0xc6e00bf33da88fc2; 0xd5a79147930aa725; 0x06ca6351e003826f; 0x142929670a0e6e70;
   0x27b70a8546d22ffc; 0x2e1b21385c26c926; 0x4d2c6dfc5ac42aed; 0x53380d139d95b3df;
   0x650a73548baf63de; 0x766a0abb3c77b2a8; 0x81c2c92e47edaee6; 0x92722c851482353b;
   0xa2bfe8a14cf10364; 0xa81a664bbc423001; 0xc24b8b70d0f89791; 0xc76c51a30654be30;
   0xd192e819d6ef5218; 0xd69906245565a910; 0xf40e35855771202a; 0x106aa07032bbd1b8;
   0x19a4c116b8d2d0c8; 0x1e376c085141ab53; 0x2748774cdf8eeb99; 0x34b0bcb5e19b48a8;
   0x391c0cb3c5c95a63; 0x4ed8aa4ae3418acb; 0x5b9cca4f7763e373; 0x682e6ff3d6b2b8a3;
   0x748f82ee5defb2fc; 0x78a5636f43172f60; 0x84c87814a1f0ab72; 0x8cc702081a6439ec;
   0x90befffa23631e28; 0xa4506cebde82bde9; 0xbef9a3f7b2c67915; 0xc67178f2e372532b;
   0xca273eceea26619c; 0xd186b8c721c0c207; 0xeada7dd6cde0eb1e; 0xf57d4f7fee6ed178;
   0x06f067aa72176fba; 0x0a637dc5a2c898a6; 0x113f9804bef90dae; 0x1b710b35131c471b;
   0x28db77f523047d84; 0x32caab7b40c72493; 0x3c9ebe0a15c9bebc; 0x431d67c49c100d4c;
   0x4cc5d4becb3e42b6; 0x597f299cfc657e2a; 0x5fcb6fab3ad6faec; 0x6c44198c4a475817]
  [0x6a09e667f3bcc908; 0xbb67ae8584caa73b; 0x3c6ef372fe94f82b; 0xa54ff53a5f1d36f1;
   0x510e527fade682d1; 0x9b05688c2b3e6c1f; 0x1f83d9abfb41bd6b; 0x5be0cd19137e2179]
  (14, 18, 41)%nat (28, 34, 39)%nat (19, 61, 6)%nat (1, 8, 7)%nat (fun _ => 68)%nat 112.

Section M.
Variable p : Z.
Variable c : sha_code.
Let W := cW c.

(** uint32api.go:31-37 constUint32 (uint8api.go:35-41 constUint8 with 8 bits) *)
Definition const_word (n : nat) (a : Z) : list Z := map (fun i => Z.land (Z.shiftr a (Z.of_nat i)) 1) (seq 0 n).
(** uint32api.go:46-48 fromUint32: WithUnconstrainedInputs, no boolean constraint *)
Definition from_word (l : list Z) : Z := val_le l mod p.
(** uint32api.go:50-61 and, 63-74 or, 76-87 xor *)
Definition w_and (ins : list (list Z)) : option (list Z) := omap (fun i => ofold (fun r v => fand p r (nth i v 0)) ins 1) (seq 0 W).
Definition w_or (ins : list (list Z)) : option (list Z) := omap (fun i => ofold (fun r v => for_ p r (nth i v 0)) ins 0) (seq 0 W).
Definition w_xor (ins : list (list Z)) : option (list Z) := omap (fun i => ofold (fun r v => fxor p r (nth i v 0)) ins 0) (seq 0 W).
(** uint32api.go:89-95 lrot(in, -r): res[i] = in[(i+r+W) mod W] *)
Definition w_rotr (v : list Z) (r : nat) : list Z := map (fun i => nth ((i + r + W) mod W) v 0) (seq 0 W).
(** uint32api.go:97-108 not *)
Definition w_not (v : list Z) : option (list Z) := omap (fun i => fxor p (nth i v 0) 1) (seq 0 W).
(** uint32api.go:110-119 rshift *)
Definition w_rshift (v : list Z) (s : nat) : list Z := map (fun i => nth (i + s) v 0) (seq 0 (W - s)) ++ repeat 0 s.
(** uint32api.go:121-130 lshift *)
Definition w_lshift (v : list Z) (s : nat) : list Z := repeat 0 s ++ map (fun i => nth (i - s) v 0) (seq s (W - s)).
(** uint32api.go:132-144 add(i1, i2, in...) *)
Definition w_add (ins : list (list Z)) : option (list Z) :=
  let sum := fold_left (fun a v => fadd p a (from_word v)) ins 0 in
  let* b := to_binary p sum (cAddDigits c (length ins - 2)) in
  Some (firstn W b).
(** uint8api.go:119-128 toUint32 *)
Definition to_word (b : list Z) : list Z := map (fun i => nth i b 0) (seq 0 8) ++ repeat 0 (W - 8).
(** uint32api.go:152-158 toUnit8 *)
Definition to_byte (v : list Z) : list Z := map (fun i => nth i v 0) (seq 0 8).
(** bigEndian.go:26-37 PutUint32, 5-24 PutUint64, for a word of n bits *)
Definition put_word (v : list Z) : list (list Z) := map (fun k => to_byte (w_rshift v (W - 8 - 8 * k))) (seq 0 (W / 8)).

(** sha256block.go:88-98: word i of a block.  The last operand is not shifted in Go; lshift by 0 is the identity. *)
Definition load_word (blk : list (list Z)) (i : nat) : option (list Z) :=
  w_or (map (fun k => w_lshift (to_word (nth (W / 8 * i + k) blk [])) (W - 8 - 8 * k)) (seq 0 (W / 8))).
(** sha256block.go:100-107: the message schedule, in place *)
Definition sched_step (w : list (list Z)) (i : nat) : option (list (list Z)) :=
  let v1 := nth (i - 2) w [] in
  let '(a1, a2, a3) := cV1 c in
  let* t1 := w_xor [w_rotr v1 a1; w_rotr v1 a2; w_rshift v1 a3] in
  let v2 := nth (i - 15) w [] in
  let '(b1, b2, b3) := cV2 c in
  let* t2 := w_xor [w_rotr v2 b1; w_rotr v2 b2; w_rshift v2 b3] in
  let* x := w_add [t1; nth (i - 7) w []; t2; nth (i - 16) w []] in
  Some (upd i x w).
(** sha256block.go:111-134: one round *)
Definition round_step (w : list (list Z)) (st : list (list Z)) (i : nat) : option (list (list Z)) :=
  match st with
  | [a; b; cc; d; e; f; g; h] =>
      let '(e1, e2, e3) := cE c in
      let '(a1, a2, a3) := cA c in
      let* se := w_xor [w_rotr e e1; w_rotr e e2; w_rotr e e3] in
      let* ef := w_and [e; f] in
      let* ne := w_not e in
      let* ng := w_and [ne; g] in
      let* ch := w_xor [ef; ng] in
      let* t1 := w_add [h; se; ch; const_word W (nth i (cK c) 0); nth i w []] in
      let* sa := w_xor [w_rotr a a1; w_rotr a a2; w_rotr a a3] in
      let* ab := w_and [a; b] in
      let* ac := w_and [a; cc] in
      let* bc := w_and [b; cc] in
      let* mj := w_xor [ab; ac; bc] in
      let* t2 := w_add [sa; mj] in
      let* e' := w_add [d; t1] in
      let* a' := w_add [t1; t2] in
      Some [a'; a; b; cc; e'; e; f; g]
  | _ => None
  end.
(** sha256block.go:85-148, one iteration of the outer loop on the state (h, w) *)
Definition block_step (hw : list (list Z) * list (list Z)) (blk : list (list Z)) : option (list (list Z) * list (list Z)) :=
  let '(h, w) := hw in
  let* w1 := ofold (fun w i => let* x := load_word blk i in Some (upd i x w)) (seq 0 16) w in
  let* w2 := ofold sched_step (seq 16 (cRounds c - 16)) w1 in
  let* st := ofold (round_step w2) (seq 0 (cRounds c)) h in
  let* h' := omap (fun j => w_add [nth j h []; nth j st []]) (seq 0 8) in
  Some (h', w2).
(** sha256block.go:74-151 blockGeneric: every whole block of p *)
Definition block_generic (h : list (list Z)) (pp : list (list Z)) : option (list (list Z)) :=
  let* z := to_binary p 0 W in
  let* hw := ofold (fun hw j => block_step hw (firstn (cChunk c) (skipn (cChunk c * j) pp)))
                   (seq 0 (length pp / cChunk c)) (h, repeat z (cWArr c)) in
  Some (fst hw).

(** sha256.go:21-28 digest (id and api are not modelled) *)
Record digest := Digest { dh : list (list Z); dx : list (list Z); dnx : nat; dlen : Z }.
(** sha256.go:30-42 Reset: x keeps its contents *)
Definition reset (d : digest) : digest := Digest (map (const_word W) (cInit c)) (dx d) 0 0.
(** sha256.go:44-52 New *)
Definition new : digest := reset (Digest [] (repeat [] (cChunk c)) 0 0).
(** sha256.go:65-91 write *)
Definition write (d : digest) (pp : list (list Z)) : option digest :=
  let len' := (dlen d + Z.of_nat (length pp)) mod 2 ^ 64 in
  let* '(h1, x1, nx1, p1) :=
    (if Nat.ltb 0 (dnx d) then
       let n := Nat.min (cChunk c - dnx d) (length pp) in
       let x' := firstn (dnx d) (dx d) ++ firstn n pp ++ skipn (dnx d + n) (dx d) in
       let nx' := (dnx d + n)%nat in
       if Nat.eqb nx' (cChunk c) then
         let* h' := block_generic (dh d) x' in Some (h', x', 0%nat, skipn n pp)
       else Some (dh d, x', nx', skipn n pp)
     else Some (dh d, dx d, dnx d, pp)) in
  let* '(h2, p2) :=
    (if Nat.leb (cChunk c) (length p1) then
       let n := (length p1 - length p1 mod cChunk c)%nat in
       let* h' := block_generic h1 (firstn n p1) in Some (h', skipn n p1)
     else Some (h1, p1)) in
  if Nat.ltb 0 (length p2) then
    let n := Nat.min (cChunk c) (length p2) in
    Some (Digest h2 (firstn n p2 ++ skipn n x1) n len')
  else Some (Digest h2 x1 nx1 len').
(** sha256.go:55-63 Write *)
Definition write_vars (d : digest) (vs : list Z) : option digest :=
  let* bytes := omap (fun v => to_binary p v 8) vs in write d bytes.
(** sha256.go:100-150 checkSum *)
Definition check_sum (d : digest) : option (list Z) :=
  let r := Z.to_nat (dlen d mod Z.of_nat (cChunk c)) in
  let tmp := const_word 8 0x80 :: repeat (const_word 8 0) (cChunk c - 1) in
  let n := (if Nat.ltb r (cLenPos c) then cLenPos c - r else cChunk c + cLenPos c - r)%nat in
  let* d1 := write d (firstn n tmp) in
  let* lenbits := to_binary p ((8 * dlen d) mod 2 ^ 64) 64 in
  let len8 := map (fun k => map (fun i => nth (i + (56 - 8 * k)) lenbits 0) (seq 0 8)) (seq 0 8) in
  let tail := repeat (const_word 8 0) (cChunk c - cLenPos c - 8) ++ len8 in
  let* d2 := write d1 tail in
  guard (Nat.eqb (dnx d2) 0) ;;
  Some (map from_word (flat_map put_word (firstn 8 (dh d2)))).
(** sha256.go:92-98 Sum: works on a copy, the receiver is unchanged *)
Definition sum (d : digest) : option (digest * list Z) := let* out := check_sum d in Some (d, out).

(** A client's calls, in order. *)
Inductive op := OpWrite (vs : list Z) | OpReset | OpSum.
Definition step (s : digest * list (list Z)) (o : op) : option (digest * list (list Z)) :=
  let '(d, outs) := s in
  match o with
  | OpWrite vs => let* d' := write_vars d vs in Some (d', outs)
  | OpReset => Some (reset d, outs)
  | OpSum => let* '(d', out) := sum d in Some (d', outs ++ [out])
  end.
Definition run (ops : list op) : option (digest * list (list Z)) := ofold step ops (new, []).
End M.
