(** * GoUtilModel.v — models common/utils/{hex,binary,utils,compose,const}.go

    Go strings and byte slices are lists of byte values (Z); a panic is [None]. *)
From Coq Require Import ZArith List Bool Arith.
From Verif Require Import Field KeccakModel SliceModel.
Import ListNotations.
Open Scope Z_scope.
Open Scope circ_scope.

(** ** Slices *)
(** Go's s[a], s[b] = s[b], s[a] *)
Definition swap {A : Type} (d : A) (l : list A) (ab : nat * nat) : list A :=
  upd (snd ab) (nth (fst ab) l d) (upd (fst ab) (nth (snd ab) l d) l).
(** hex.go:189-194 Reverse: for i, j := 0, len(s)-1; i < j; i, j = i+1, j-1 (also inlined at utils.go:91-93, 113-115, 149-151
    and binary.go:81-83).  Reverse works in place: its result is also the new content of its argument. *)
Fixpoint reverse_loop {A : Type} (d : A) (fuel i j : nat) (s : list A) : list A :=
  match fuel with
  | O => s
  | S f => if Nat.ltb i j then reverse_loop d f (S i) (j - 1) (swap d s (i, j)) else s
  end.
Definition reverse {A : Type} (d : A) (s : list A) : list A := reverse_loop d (length s) 0 (length s - 1) s.
(** binary.go:40-51 FlipByGroups; groupSize = 0 is a division by zero *)
Definition flip_by_groups {A : Type} (d : A) (l : list A) (g : nat) : option (list A) :=
  if Nat.eqb g 0 then None else
  Some (fold_left (fun res i => fold_left (fun res j => swap d res (i * g + j, length res - (i + 1) * g + j)%nat) (seq 0 g) res)
                  (seq 0 (length l / g / 2)) l).
(** utils.go:60-70 Partition: the map is a list of (key, group) pairs without repeated keys *)
Section Partition.
Variables (K V : Type) (eqb : K -> K -> bool).
Fixpoint map_append (m : list (K * list V)) (k : K) (v : V) : list (K * list V) :=
  match m with
  | [] => [(k, [v])]
  | (k', vs) :: r => if eqb k k' then (k', vs ++ [v]) :: r else (k', vs) :: map_append r k v
  end.
Definition partition (vs : list V) (keys : list K) (f : K -> V -> bool) : list (K * list V) :=
  fold_left (fun m v => fold_left (fun m k => if f k v then map_append m k v else m) keys m) vs [].
Fixpoint lookup (m : list (K * list V)) (k : K) : option (list V) :=
  match m with [] => None | (k', vs) :: r => if eqb k k' then Some vs else lookup r k end.
(** utils.go:51-58 Contains *)
Definition contains (l : list K) (t : K) : bool := existsb (fun s => eqb s t) l.
End Partition.
Arguments map_append {K V}. Arguments partition {K V}. Arguments lookup {K V}. Arguments contains {K}.

(** ** hex.go *)
(** encoding/hex, trusted: the value of a hex digit, lower-case encoding, and DecodeString, which returns the bytes
    decoded before the first invalid digit (the error is ignored by the callers) *)
Definition hex_val (c : Z) : option Z :=
  if (48 <=? c) && (c <=? 57) then Some (c - 48)
  else if (97 <=? c) && (c <=? 102) then Some (c - 87)
  else if (65 <=? c) && (c <=? 70) then Some (c - 55) else None.
Definition hex_digit (n : Z) : Z := if n <? 10 then 48 + n else 87 + n.
Fixpoint hex_decode (s : list Z) : list Z :=
  match s with
  | a :: b :: r => match hex_val a, hex_val b with Some x, Some y => (16 * x + y) :: hex_decode r | _, _ => [] end
  | _ => []
  end.
(** hex.go:57-59 has0xPrefix *)
Definition has_0x (s : list Z) : bool :=
  match s with a :: b :: _ => (a =? 48) && ((b =? 120) || (b =? 88)) | _ => false end.
(** hex.go:52-54 isHexCharacter *)
Definition is_hex_char (c : Z) : bool := ((48 <=? c) && (c <=? 57)) || ((97 <=? c) && (c <=? 102)) || ((65 <=? c) && (c <=? 70)).
(** hex.go:39-49 isHex *)
Definition is_hex (s : list Z) : bool := Nat.even (length s) && forallb is_hex_char s.
(** hex.go:28-36 IsValidTxHash *)
Definition is_valid_tx_hash (s : list Z) : bool :=
  match s with
  | [] => false
  | _ => let t := if has_0x s then skipn 2 s else s in Nat.eqb (length t) 64 && is_hex t
  end.
(** hex.go:64-74 Hex2Bytes; go-ethereum's common.FromHex is the same function *)
Definition hex2bytes (s : list Z) : list Z :=
  let t := if has_0x s then skipn 2 s else s in
  let t := if Nat.odd (length t) then 48 :: t else t in hex_decode t.
(** hex.go:77-83 Bytes2Hex, Bytes2Hex0x *)
Definition bytes2hex (b : list Z) : list Z := flat_map (fun x => [hex_digit (x / 16); hex_digit (x mod 16)]) b.
Definition bytes2hex0x (b : list Z) : list Z := 48 :: 120 :: bytes2hex b.
(** go-ethereum BytesToAddress (n = 20) / BytesToHash (n = 32): keep the last n bytes, left pad with zeros *)
Definition to_fixed (n : nat) (b : list Z) : list Z :=
  let b' := if Nat.ltb n (length b) then skipn (length b - n) b else b in repeat 0 (n - length b') ++ b'.
(** hex.go:104-106 Hex2Addr, 140-142 Hex2Hash *)
Definition hex2addr (s : list Z) : list Z := to_fixed 20 (hex2bytes s).
Definition hex2hash (s : list Z) : list Z := to_fixed 32 (hex2bytes s).
(** hex.go:133-135 FormatAddrHex, 109-111 Addr2Hex *)
Definition format_addr_hex (s : list Z) : list Z := bytes2hex (hex2addr s).
(** big.Int.SetBytes *)
Definition be_val (l : list Z) : Z := fold_left (fun a b => 256 * a + b) l 0.
(** hex.go:156-159 Hex2BigInt *)
Definition hex2bigint (s : list Z) : Z := be_val (hex2bytes s).
(** hex.go:163-187 Pad20Bytes, Pad32Bytes *)
Definition pad_bytes (n : nat) (b : list Z) : option (list Z) :=
  if Nat.eqb (length b) n then Some b else guard (Nat.leb (length b) n) ;; Some (repeat 0 (n - length b) ++ b).

(** ** binary.go *)
(** binary.go:71-86 DecodeByteToBinary *)
Definition decode_byte (x : Z) : list Z := reverse 0 (map (fun i => if Z.land x (Z.shiftl 1 (Z.of_nat i)) =? 0 then 0 else 1) (seq 0 8)).
(** binary.go:54-68 BitsToFrBigInt *)
Definition bits_to_fr (b : list Z) (m : Z) : Z :=
  fold_left (fun res i => if nth i b 0 =? 0 then res
                          else let r := res + 2 ^ (Z.of_nat (length b) - Z.of_nat i - 1) in if m <? r then r mod m else r)
            (seq 0 (length b)) 0.
(** binary.go:14-26 PackBitsToFr: chunks of FieldBitLen-1 bits *)
Fixpoint chunk_loop {A : Type} (fuel size : nat) (l : list A) : list (list A) :=
  match l, fuel with
  | [], _ => []
  | _, O => []
  | _, S f => firstn size l :: chunk_loop f size (skipn size l)
  end.
Definition split_every {A : Type} (size : nat) (l : list A) : list (list A) := chunk_loop (length l) size l.
Definition pack_bits_to_fr (p : Z) (bits : list Z) : option (list Z) := omap (from_binary p) (split_every (field_bits p - 1) bits).
(** binary.go:88-93 Byte32ToBits *)
Definition byte32_to_bits (p : Z) (v0 v1 : Z) (fr : nat) : option (list Z) :=
  let* a := to_binary p v0 fr in let* b := to_binary p v1 (256 - fr) in Some (a ++ b).

(** ** utils.go *)
(** groups of four bits, FromBinary, then reversed: utils.go:87-94, 108-117, 145-152 *)
Definition nibbles_of (p : Z) (n : nat) (bits : list Z) : option (list Z) :=
  let* ns := omap (fun i => from_binary p (firstn 4 (skipn (4 * i) bits))) (seq 0 n) in Some (reverse 0 ns).
(** utils.go:72-95 Recompose32ByteToNibbles *)
Definition recompose_32 (p : Z) (trunk : list Z) : option (list Z) :=
  guard (negb (Nat.eqb (length trunk) 0)) ;;
  guard (Nat.eqb (256 mod length trunk) 0) ;;
  let* bs := omap (fun i => to_binary p (nth (length trunk - i - 1) trunk 0) (256 / length trunk)) (seq 0 (length trunk)) in
  nibbles_of p 64 (concat bs).
(** utils.go:97-118 RecomposeSDKByte32ToNibble *)
Definition recompose_sdk_nibbles (p v0 v1 : Z) : option (list Z) :=
  let* h := to_binary p v0 248 in let* l := to_binary p v1 8 in nibbles_of p 64 (h ++ l).
(** utils.go:120-141 RecomposeSDKByte32To2Fr *)
Definition recompose_sdk_2fr (p v0 v1 : Z) : option (Z * Z) :=
  let* h := to_binary p v1 8 in let* l := to_binary p v0 248 in
  let bits := l ++ h in
  let* a := from_binary p (firstn 128 bits) in let* b := from_binary p (skipn 128 bits) in Some (b, a).
(** utils.go:143-153 Recompose6BytesToNibbles *)
Definition recompose_6 (p d : Z) : option (list Z) := let* bits := to_binary p d 48 in nibbles_of p 12 bits.
(** utils.go:173-189: the field elements GenerateBls12377Hash feeds to MiMC (the hash itself is not modelled) *)
Definition bls_hash_inputs (input : list Z) : list Z := map (fun c => bits_to_fr c bn254) (split_every 253 (flat_map decode_byte input)).
(** utils.go:201-211 MiMCBlockPad0; the indices never leave the slice *)
Definition mimc_block_pad0 (data : list Z) (n : nat) : list Z :=
  map (fun i => if Nat.ltb i (n - length data) then 0 else nth (length data + i - n) data 0) (seq 0 n).

(** ** compose.go *)
(** big.Int.BitLen *)
Definition bit_len (x : Z) : Z := if x =? 0 then 0 else Z.log2 (Z.abs x) + 1.
(** compose.go:11-13 DecomposeBits via 25-39 decompose with bitSize 1: n Euclidean divisions by 2 *)
Definition decompose_bits (x : Z) (n : nat) : option (list Z) := guard (bit_len x <=? Z.of_nat n) ;; Some (bits_le n x).
(** compose.go:15-23 recompose with bitSize 1 (data are uints below 2^63) *)
Definition recompose (data : list Z) : Z :=
  fold_left (fun r i => (r + Z.shiftl (nth i data 0) (Z.of_nat i)) mod bn254) (seq 0 (length data)) 0.
(** compose.go:41-54 PackBitsToInt *)
Definition pack_bits_to_int (bits : list Z) : list Z := map recompose (split_every 253 bits).
(** compose.go:99-104 Byte32ToFrBits *)
Definition byte32_to_fr_bits (v0 v1 : Z) (fr : nat) : option (list Z) :=
  let* a := decompose_bits v0 fr in let* b := decompose_bits v1 (256 - fr) in Some (a ++ b).
(** compose.go:108-120 ParseBytes32 *)
Definition parse_bytes32 (data : list Z) (fr : nat) : option (Z * Z) :=
  guard (Nat.leb (length data) 32) ;;
  let* bits := decompose_bits (be_val data) 256 in
  guard (Nat.leb fr 256) ;;
  Some (recompose (firstn fr bits), recompose (skipn fr bits)).

(** ** const.go:9-26 GetStartBlockInfo: (BlockNumber, InitialIndex, ChainId) *)
Definition start_block_info (chain : Z) : Z * Z * Z :=
  let b := if chain =? 42161 then 185536768 else if chain =? 10 then 119300224 else if chain =? 97 then 41759160 else if chain =? 56 then 40077400 else 0 in
  (b, b / 128, chain).
