(** * HeaderModel.v — models circuits/fabric/smt/utils.go (except MimcRoot, see MerkleModel.checked_root)
    and common/circuits/smt.go ChunkIndexFound.
    common/circuits/keccak.go is the same code as gadgets/keccak/periphery.go, modelled in KeccakPadModel.v. *)
From Coq Require Import ZArith List Bool Arith.
From Verif Require Import Field RlpEnc ProofModel KeccakPadModel TxModel.
Import ListNotations.
Open Scope Z_scope.

(** ** go-ethereum v1.14.8 core/types.Header: hashes and fixed byte arrays are byte lists, *big.Int is [option Z]
    (nil = [None]), uint64 is Z, optional trailing fields are options *)
Record header := { h_parent : list Z; h_uncle : list Z; h_coinbase : list Z; h_root : list Z; h_tx : list Z; h_receipt : list Z;
  h_bloom : list Z; h_difficulty : option Z; h_number : option Z; h_gas_limit : Z; h_gas_used : Z; h_time : Z; h_extra : list Z;
  h_mix : list Z; h_nonce : list Z; h_base_fee : option Z; h_withdrawals : option (list Z); h_blob_used : option Z;
  h_excess_blob : option Z; h_beacon_root : option (list Z) }.

(** go-ethereum's generated EncodeRLP (trusted): a nil big integer is the empty string, a negative one an error; the optional
    fields are written up to the last one that is set, the unset ones before it as the empty string *)
Definition big_item (x : option Z) : option rtree :=
  match x with None => Some (RStr []) | Some n => if n <? 0 then None else Some (RStr (be_bytes n)) end.
Fixpoint opt_items (l : list (option rtree)) : list rtree :=
  match l with
  | [] => []
  | None :: r => match opt_items r with [] => [] | t => RStr [] :: t end
  | Some x :: r => x :: opt_items r
  end.
Definition header_tree (h : header) : option rtree :=
  obind (big_item (h_difficulty h)) (fun diff =>
  obind (big_item (h_number h)) (fun num =>
  obind (match h_base_fee h with None => Some None | Some f => option_map Some (big_item (Some f)) end) (fun fee =>
  Some (RList ([RStr (h_parent h); RStr (h_uncle h); RStr (h_coinbase h); RStr (h_root h); RStr (h_tx h); RStr (h_receipt h);
                RStr (h_bloom h); diff; num; RStr (be_bytes (h_gas_limit h)); RStr (be_bytes (h_gas_used h));
                RStr (be_bytes (h_time h)); RStr (h_extra h); RStr (h_mix h); RStr (h_nonce h)] ++
               opt_items [fee; option_map RStr (h_withdrawals h); option_map (fun n => RStr (be_bytes n)) (h_blob_used h);
                          option_map (fun n => RStr (be_bytes n)) (h_excess_blob h); option_map RStr (h_beacon_root h)]))))).
(** rlp.EncodeToBytes(&header): [None] is an encoding error *)
Definition header_rlp (h : header) : option (list Z) := option_map rlp (header_tree h).

(** utils.go:23-31 NewHash: panics unless 32 bytes, else (quotient, remainder) by 2^128 *)
Definition new_hash (bs : list Z) : option (Z * Z) :=
  if Nat.eqb (length bs) 32 then Some (Z.quot (be_value bs) (2 ^ 128), Z.rem (be_value bs) (2 ^ 128)) else None.

(** utils.go:71-78 getUintByteLen (fuel 64 is more than the number of iterations for any uint64) *)
Fixpoint uint_len_loop (fuel : nat) (x i : Z) : Z :=
  match fuel with O => i | S f => if 0 <? x then uint_len_loop f (x / 256) (i + 1) else i end.
Definition get_uint_byte_len (x : Z) : Z := uint_len_loop 64 x 0.
(** utils.go:80-86 checkLen (the printed message is not modelled) *)
Definition check_len (actual max : Z) : Z := if actual >? max then 1 else 0.
(** len(x.Bytes()) of a *big.Int: nil pointer dereference on nil *)
Definition big_len (x : option Z) : res Z := match x with None => Panic | Some n => Ok (Z.of_nat (length (big_bytes n))) end.
(** utils.go:60-69 checkDynamicFieldLen *)
Definition check_dynamic_field_len (h : header) : res bool :=
  match big_len (h_difficulty h) with Panic => Panic | Err => Err | Ok d =>
  match big_len (h_number h) with Panic => Panic | Err => Err | Ok n =>
  let has0 := check_len d 7 + check_len n 8 + check_len (get_uint_byte_len (h_gas_limit h)) 4 + check_len (get_uint_byte_len (h_gas_used h)) 4
              + check_len (get_uint_byte_len (h_time h)) 4 in
  match big_len (h_base_fee h) with Panic => Panic | Err => Err | Ok b =>
  Ok (has0 + check_len b 7 =? 0) end end end.
(** utils.go:33-58 EncodeHeaders: one bit list and one round index per header *)
Definition encode_header (h : header) : res (list Z * Z) :=
  match check_dynamic_field_len h with
  | Panic => Panic | Err => Err
  | Ok false => Err
  | Ok true =>
    match header_rlp h with
    | None => Err
    | Some r =>
      match bytes2block_bits (pad101_bytes r) with
      | None => Panic
      | Some bits => let zerosToPad := 5 * 1088 - Z.of_nat (length bits) in
                     Ok (bits ++ repeat 0 (Z.to_nat zerosToPad), Z.quot (Z.of_nat (length bits)) 1088 - 1)
      end
    end
  end.
Fixpoint encode_headers (hs : list header) : res (list (list Z) * list Z) :=
  match hs with
  | [] => Ok ([], [])
  | h :: r =>
    match encode_header h with
    | Panic => Panic | Err => Err
    | Ok (e, i) => match encode_headers r with Panic => Panic | Err => Err | Ok (es, is) => Ok (e :: es, i :: is) end
    end
  end.

(** utils.go:99-121 genHeader *)
Definition gen_header (parent : list Z) (number : Z) : header :=
  let n7 := be_value [255; 255; 255; 255; 255; 255; 255] in
  let e := repeat 0 32 in
  {| h_parent := parent; h_uncle := e; h_coinbase := repeat 0 20; h_root := e; h_tx := e; h_receipt := e; h_bloom := repeat 0 256;
     h_difficulty := Some n7; h_number := Some number; h_gas_limit := 0xffffffff; h_gas_used := 0xffffffff; h_time := 0xffffffff;
     h_extra := repeat 1 32; h_mix := e; h_nonce := repeat 1 8; h_base_fee := Some n7; h_withdrawals := Some e;
     h_blob_used := None; h_excess_blob := None; h_beacon_root := None |}.
Section Gen.
(** Header.Hash() is Keccak-256 of the header's RLP: [hash] is an arbitrary function of the header *)
Variable hash : header -> list Z.
(** utils.go:88-97 GenHeaders (int arithmetic taken without overflow: startBlockNum + count below 2^63) *)
Definition gen_headers (count start : Z) (prev : list Z) : list header :=
  fold_left (fun hs i => let num := Z.of_nat i + start in hs ++ [gen_header (hash (nth (i - 1) hs (gen_header [] 0))) num])
            (seq 1 (Z.to_nat (count - 1))) [gen_header prev start].
End Gen.

(** utils.go:157-164 padLeftVars, 166-170 padLeft (zero value of the type in front) *)
Definition pad_left (n : nat) (l : list Z) : list Z := repeat 0 n ++ l.
Section Mimc.
(** gnark-crypto's MiMC over the BLS12-377 scalar field r: an arbitrary function of the written 32-byte blocks *)
Variable r : Z.
Variable mimc : list (list Z) -> list Z.
(** fr.Element.SetBytes(b).Bytes(): the big-endian number reduced modulo r, on 32 bytes *)
Definition fr_bytes (b : list Z) : list Z := let x := be_bytes (be_value b mod r) in repeat 0 (32 - length x) ++ x.
(** utils.go:148-155 MimcHashBytes32: slicing panics below 16 bytes *)
Definition mimc_hash_bytes32 (inp : list Z) : option (list Z) :=
  if Nat.ltb (length inp) 16 then None
  else Some (mimc [fr_bytes (pad_left 16 (firstn 16 inp)); fr_bytes (pad_left 16 (skipn 16 inp))]).
End Mimc.

(** common/circuits/smt.go:10-17 ChunkIndexFound *)
Fixpoint chunk_index_found (target : Z) (indexes : list Z) : bool :=
  match indexes with [] => false | v :: r => if v =? target then true else chunk_index_found target r end.
