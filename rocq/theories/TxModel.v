(** * TxModel.v — models common/proof/util.go and common/proof/tx_merkel_proof.go *)
From Coq Require Import ZArith List Bool Arith.
From Verif Require Import Field RlpEnc ProofModel.
Import ListNotations.
Open Scope Z_scope.
Open Scope circ_scope.

(** ** go-ethereum transactions (the accessors used by util.go).  Big integers are integers; [tx_chain] is the
    chain id stored in a typed transaction.  A nil recipient is [None]. *)
Record tx := { tx_type : Z; tx_nonce : Z; tx_gas_price : Z; tx_tip : Z; tx_fee_cap : Z; tx_gas : Z; tx_to : option (list Z);
               tx_value : Z; tx_data : list Z; tx_access : list (list Z * list (list Z)); tx_chain : Z; tx_v : Z; tx_r : Z; tx_s : Z }.
(** math/big Int.Uint64 / Int64: the low 64 bits *)
Definition low64 (x : Z) : Z := x mod 2 ^ 64.
(** go-ethereum core/types deriveChainId *)
Definition derive_chain_id (v : Z) : Z :=
  if v <? 2 ^ 64 then (if (v =? 27) || (v =? 28) then 0 else ((v - 35) mod 2 ^ 64) / 2)
  else (v - 35) / 2.
(** Transaction.ChainId(): derived from V for a legacy transaction *)
Definition chain_id (t : tx) : Z := if tx_type t =? 0 then derive_chain_id (tx_v t) else tx_chain t.

(** go-ethereum rlp.EncodeToBytes on the field types that occur: a non-negative integer is its minimal big-endian
    string (a negative big.Int is an error), an address pointer tagged "nil" is the empty string when nil *)
Definition rlp_num (x : Z) : option rtree := guard (0 <=? x) ;; Some (RStr (be_bytes x)).
Definition rlp_to (a : option (list Z)) : rtree := RStr (match a with Some x => x | None => [] end).
Definition rlp_access (l : list (list Z * list (list Z))) : rtree :=
  RList (map (fun e => RList [RStr (fst e); RList (map RStr (snd e))]) l).
(** util.go:28-58 PrepareUnsignedTransactionRlp (with the struct layouts of 16-26 and 60-70) *)
Definition unsigned_tree (t : tx) : option rtree :=
  if tx_type t =? 0 then
    let* nonce := rlp_num (tx_nonce t) in let* price := rlp_num (tx_gas_price t) in let* gas := rlp_num (tx_gas t) in
    let* value := rlp_num (tx_value t) in let* chain := rlp_num (chain_id t) in
    let* pad1 := rlp_num 0 in let* pad2 := rlp_num 0 in
    Some (RList [nonce; price; gas; rlp_to (tx_to t); value; RStr (tx_data t); chain; pad1; pad2])
  else if tx_type t =? 2 then
    let* chain := rlp_num (chain_id t) in let* nonce := rlp_num (tx_nonce t) in let* tip := rlp_num (tx_tip t) in
    let* cap := rlp_num (tx_fee_cap t) in let* gas := rlp_num (tx_gas t) in let* value := rlp_num (tx_value t) in
    Some (RList [chain; nonce; tip; cap; gas; rlp_to (tx_to t); value; RStr (tx_data t); rlp_access (tx_access t)])
  else None.
Definition unsigned_rlp (t : tx) : option (list Z) := let* u := unsigned_tree t in Some (rlp u).

(** math/big Int.FillBytes into 32 bytes: panics when the number does not fit *)
Definition fill32 (x : Z) : option (list Z) := let b := big_bytes x in guard (Nat.leb (length b) 32) ;; Some (repeat 0 (32 - length b) ++ b).
(** util.go:88-104: the signature handed to Ecrecover *)
Definition sig_bytes (t : tx) : option (list Z) :=
  let v := if tx_type t =? 0 then (low64 (tx_v t) - 35 - low64 (chain_id t) * 2) mod 2 ^ 64 else tx_v t in
  let* r := fill32 (tx_r t) in
  let* s := fill32 (tx_s t) in
  Some (r ++ s ++ (if low64 v =? 0 then [0] else big_bytes v)).
(** util.go:80-86: the message that is hashed *)
Definition sign_payload (t : tx) : option (list Z) :=
  let* u := unsigned_rlp t in Some ((if tx_type t =? 0 then [] else [tx_type t]) ++ u).

Section Recover.
(** crypto.Keccak256: an arbitrary function of the bytes *)
Variable keccak256 : list Z -> list Z.
(** crypto.Ecrecover followed by UnmarshalPubkey and PubkeyToAddress: an arbitrary function of hash and signature *)
Variable ecrecover : list Z -> list Z -> option (list Z).
(** util.go:72-119 RecoverTransactionSignerAddress *)
Definition recover_signer (t : tx) : option (list Z) :=
  let* m := sign_payload t in
  let* s := sig_bytes t in
  ecrecover (keccak256 m) s.
End Recover.

(** ** tx_merkel_proof.go *)
Inductive res (A : Type) : Type := Ok (a : A) | Err | Panic.
Arguments Ok {A}. Arguments Err {A}. Arguments Panic {A}.
(** go-ethereum trie nodes, fully resolved (no hash nodes); keys are nibbles with terminator 16 *)
Inductive tnode : Type := TNil | TValue (v : list Z) | TShort (key : list Z) (c : tnode) | TFull (cs : list tnode).
(** go-ethereum trie hexToCompact *)
Definition compact (key : list Z) : list Z :=
  let term := match rev key with 16 :: _ => true | _ => false end in
  let k := if term then removelast key else key in
  let base := if term then 32 else 0 in
  let pairs := fix pairs (l : list Z) : list Z := match l with a :: b :: r => 16 * a + b :: pairs r | _ => [] end in
  match Nat.odd (length k), k with
  | true, a :: r => base + 16 + a :: pairs r
  | _, _ => base :: pairs k
  end.
Section Trie.
Variable keccak256 : list Z -> list Z.
(** go-ethereum trie hasher: the RLP tree of a node; children of 32 bytes or more are replaced by their hash *)
Fixpoint node_tree (n : tnode) : rtree :=
  let child (c : tnode) (t : rtree) :=
    match c with TNil => RStr [] | TValue v => RStr v | _ => if Nat.ltb (length (rlp t)) 32 then t else RStr (keccak256 (rlp t)) end in
  match n with
  | TNil => RStr []
  | TValue v => RStr v
  | TShort key c => RList [RStr (compact key); child c (node_tree c)]
  | TFull cs => RList (map (fun c => child c (node_tree c)) cs)
  end.
(** go-ethereum Trie.Prove: nodes on the path *)
Fixpoint has_prefix (key k : list Z) : bool :=
  match k, key with [], _ => true | x :: k', y :: key' => (x =? y) && has_prefix key' k' | _ :: _, [] => false end.
Fixpoint prove_nodes (fuel : nat) (n : tnode) (key : list Z) : list tnode :=
  match fuel, key with
  | O, _ | _, [] => []
  | S f, k0 :: rest =>
      match n with
      | TNil | TValue _ => []
      | TShort k c => n :: (if has_prefix key k then prove_nodes f c (skipn (length k) key) else [])
      | TFull cs => n :: prove_nodes f (nth (Z.to_nat k0) cs TNil) rest
      end
  end.
(** ... and the encodings written to the proof: the root and every node of 32 bytes or more *)
Definition prove (root : tnode) (key : list Z) : list tnode :=
  match prove_nodes (S (length key)) root key with
  | [] => []
  | n :: r => n :: filter (fun m => negb (Nat.ltb (length (rlp (node_tree m))) 32)) r
  end.
(** rlp.DecodeBytes into [][]byte of the encoding of a node: succeeds iff every member is a string (go-ethereum's
    decoder inverts the encoder; RlpEnc.rlp_injective makes this well defined) *)
Fixpoint all_strings (l : list rtree) : option (list (list Z)) :=
  match l with
  | [] => Some []
  | RStr s :: r => let* ss := all_strings r in Some (s :: ss)
  | RList _ :: _ => None
  end.
Definition decode_strings (t : rtree) : option (list (list Z)) := match t with RList l => all_strings l | RStr _ => None end.
(** tx_merkel_proof.go:30-60 GetTransactionProof and 62-92 GetReceiptProof: [root] is the trie that DeriveSha built from
    the transactions/receipts and [same_root] tells whether its hash is the one in the header.  The key is rlp(index).
    Result: encoded nodes, the leaf's value as decoded, and the prefix. *)
Definition key_nibbles (bytes : list Z) : list Z := flat_map (fun b => [b / 16; b mod 16]) bytes ++ [16].
Definition get_proof (root : tnode) (same_root : bool) (index : Z) : res (list (list Z) * list Z * list Z) :=
  if negb same_root then Err else
  let key := rlp_uint index in
  let nodes := prove root (key_nibbles key) in
  match rev nodes with
  | [] => Panic
  | leaf :: _ =>
      let leafValue := rlp (node_tree leaf) in
      match decode_strings (node_tree leaf) with
      | Some [k; v] => Ok (map (fun n => rlp (node_tree n)) nodes, key, firstn (length leafValue - length v) leafValue)
      | _ => Err
      end
  end.
End Trie.
(** types_proof writer, tx_merkel_proof.go:20-28 ProofWriter.Put / Delete: two parallel append-only lists *)
Definition writer := (list (list Z) * list (list Z))%type.
Definition put (w : writer) (k v : list Z) : writer := (fst w ++ [k], snd w ++ [v]).
Definition delete (w : writer) (k : list Z) : writer := w.
