(** * ProofModel.v — models common/proof/{types,query_id,agg_exports}.go and common/s3api/utils.go.
    Go strings and byte slices are lists of byte values.  A Go panic and a returned error are both [None]. *)
From Coq Require Import ZArith List Bool Arith.
From Verif Require Import Field GoUtilModel RlpEnc.
Import ListNotations.
Open Scope Z_scope.
Open Scope circ_scope.

(** math/big, trusted: Int.Bytes is the minimal big-endian string of the absolute value *)
Definition big_bytes (x : Z) : list Z := be_bytes (Z.abs x).
(** Go conversion int64(u) of a uint64 *)
Definition to_int64 (u : Z) : Z := if u <? 2 ^ 63 then u else u - 2 ^ 64.

(** ** types.go *)
(** types.go:187-193 Groth16Proof *)
Record groth16 := { gA : list Z * list Z; gB : (list Z * list Z) * (list Z * list Z); gC : list Z * list Z;
                    gCommitment : list Z * list Z; gPok : list Z * list Z }.
(** types.go:149-156 ChunkProof *)
Record chunk_proof := { cp_root : list Z; cp_prev : list Z; cp_end : list Z; cp_start_block : Z; cp_end_block : Z; cp_proof : groth16 }.
(** types.go:158-185 ChunkProof.EncodeABI *)
Definition encode_abi (c : chunk_proof) : option (list Z) :=
  let g := cp_proof c in
  let root := hex2hash (cp_root c) in let prev := hex2hash (cp_prev c) in let ende := hex2hash (cp_end c) in
  let args :=
    [hex2bytes (fst (gA g)); hex2bytes (snd (gA g));
     hex2bytes (fst (fst (gB g))); hex2bytes (snd (fst (gB g)));
     hex2bytes (fst (snd (gB g))); hex2bytes (snd (snd (gB g)));
     hex2bytes (fst (gC g)); hex2bytes (snd (gC g));
     []; [];
     firstn 16 root; skipn 16 root; firstn 16 prev; skipn 16 prev; firstn 16 ende; skipn 16 ende;
     big_bytes (to_int64 (cp_start_block c)); big_bytes (to_int64 (cp_end_block c))] in
  let* ws := omap (pad_bytes 32) args in Some (concat ws).

(** types.go:195-202 Groth16Proof.AsBigInts: (a, b, c, commitment, commitmentPok) *)
Definition as_big_ints (g : groth16) :=
  let f (x : list Z * list Z) := (hex2bigint (fst x), hex2bigint (snd x)) in
  (f (gA g), (f (fst (gB g)), f (snd (gB g))), f (gC g), f (gCommitment g), f (gPok g)).
(** types.go:204-224 OnChainProof, BeaconProof: (A, B, C, Commitment) *)
Definition beacon_proof (g : groth16) :=
  let '(a, b, c, commitment, _) := as_big_ints g in (a, b, c, commitment).
(** types.go:120-132 CommitteeSszMappingProof.GetProof: nil receiver gives an all-zero proof *)
Definition ssz_get_proof (p : option groth16) :=
  match p with
  | None => ((0, 0), ((0, 0), (0, 0)), (0, 0), (0, 0))
  | Some g => beacon_proof g
  end.

(** types.go:75-90 SDKQueryProvingInfo.GetSubProofS3Path; an info is represented by the field that is used *)
Definition sub_proof_paths (receipt_tx_hashes storage_hashes tx_hashes : list (list Z)) : list (list Z) :=
  let ids := fold_left (fun ids x => ids ++ [x]) receipt_tx_hashes [] in
  let ids := fold_left (fun ids x => ids ++ [x]) storage_hashes ids in
  fold_left (fun ids x => ids ++ [x]) tx_hashes ids.

(** ** s3api/utils.go:5-7 ObjectKey: fmt.Sprintf("%s/%d.json", prefix, slot) *)
(** fmt %d of a uint64: decimal digits without leading zeros, "0" for zero *)
Fixpoint dec_fuel (fuel : nat) (n : Z) : list Z :=
  match fuel with
  | O => []
  | S f => (if n <? 10 then [] else dec_fuel f (n / 10)) ++ [48 + n mod 10]
  end.
Definition dec_string (n : Z) : list Z := dec_fuel (S (Z.to_nat (Z.log2 n))) n.
Definition object_key (prefix : list Z) (slot : Z) : list Z :=
  prefix ++ [47] ++ dec_string slot ++ [46; 106; 115; 111; 110].

(** ** agg_exports.go *)
(** go-ethereum hexutil.Encode *)
Definition hexutil_encode (b : list Z) : list Z := bytes2hex0x b.
(** agg_exports.go:9-15 ZKSDKAggPubInputs *)
Record agg_pub := { ap_agg_vk : list Z; ap_smt0 : list Z; ap_smt1 : list Z; ap_app_vk : list Z; ap_out0 : list Z; ap_out1 : list Z; ap_query : list Z }.
(** agg_exports.go:17-76 GenerateBatchProofAndPublicInputs; the exported proof is given as its twelve numbers
    (utils.ExportProof is not modelled) *)
Definition batch_string (a0 a1 b00 b01 b10 b11 c0 c1 m0 m1 k0 k1 : Z) (pubs : agg_pub) : list Z :=
  let h x := hexutil_encode (big_bytes x) ++ [44] in
  h a0 ++ h a1 ++ h b00 ++ h b01 ++ h b10 ++ h b11 ++ h c0 ++ h c1 ++ h m0 ++ h m1 ++ h k0 ++ h k1 ++
  (ap_query pubs ++ [44]) ++ (ap_smt0 pubs ++ [44]) ++ (ap_smt1 pubs ++ [44]) ++ (ap_agg_vk pubs ++ [44]) ++
  (ap_out0 pubs ++ [44]) ++ (ap_out1 pubs ++ [44]) ++ (ap_app_vk pubs ++ [44]).

(** ** query_id.go *)
(** math/big Int.SetString, trusted: digit value in the scanner, then base 10 and base 0 (prefix detection and
    underscore separators).  State of the scan: value, number of digits, "previous char was '_'", "previous char
    was a digit or prefix", invalid separator seen. *)
Definition digit_val (c : Z) : Z :=
  if (48 <=? c) && (c <=? 57) then c - 48
  else if (97 <=? c) && (c <=? 122) then c - 87
  else if (65 <=? c) && (c <=? 90) then c - 55 else 1000.
(** prev: 0 = nothing, 1 = digit (or base prefix '0'), 2 = underscore *)
Fixpoint scan_digits (b : Z) (sep : bool) (s : list Z) (acc : Z) (count : nat) (prev : Z) (inval : bool) : option (Z * nat) :=
  match s with
  | [] => guard (negb (inval || (prev =? 2))) ;; Some (acc, count)
  | c :: r =>
      if (c =? 95) && sep then scan_digits b sep r acc count 2 (inval || negb (prev =? 1))
      else if digit_val c <? b then scan_digits b sep r (acc * b + digit_val c) (S count) 1 inval
      else None
  end.
Definition scan_number (base : Z) (s : list Z) : option Z :=
  if base =? 0 then
    match s with
    | 48 :: [] => Some 0
    | 48 :: c :: r =>
        let pref b := let* '(v, n) := scan_digits b true r 0 0 1 false in guard (negb (Nat.eqb n 0)) ;; Some v in
        if (c =? 98) || (c =? 66) then pref 2
        else if (c =? 111) || (c =? 79) then pref 8
        else if (c =? 120) || (c =? 88) then pref 16
        else let* '(v, n) := scan_digits 8 true (c :: r) 0 0 1 false in Some v
    | _ => let* '(v, n) := scan_digits 10 true s 0 0 0 false in guard (negb (Nat.eqb n 0)) ;; Some v
    end
  else let* '(v, n) := scan_digits base false s 0 0 0 false in guard (negb (Nat.eqb n 0)) ;; Some v.
Definition set_string (base : Z) (s : list Z) : option Z :=
  match s with
  | 45 :: r => let* v := scan_number base r in Some (- v)
  | 43 :: r => scan_number base r
  | _ => scan_number base s
  end.
(** go-ethereum hexutil.Decode *)
Definition hexutil_decode (s : list Z) : option (list Z) :=
  guard (has_0x s) ;; guard (is_hex (skipn 2 s)) ;; Some (hex_decode (skipn 2 s)).

(** types.go:320-328 SDKQueryLogExtractInfo (the fields that are used) *)
Record log_info := { li_contract : list Z; li_index : Z; li_topic0 : list Z; li_from_topic : bool; li_value_index : Z; li_value : list Z }.
(** types.go:293-318 SDKQueryProvingInfoForReceipt (the fields that are used) *)
Record receipt_info := { ri_logs : list log_info; ri_block : Z; ri_fee : list Z; ri_key : list Z; ri_time : Z }.
(** types.go:330-353 SDKQueryProvingInfoForStorageSlot (the fields that are used) *)
Record storage_info := { si_account : list Z; si_slot : list Z; si_value : list Z; si_block : Z; si_fee : list Z; si_time : Z }.
(** types.go:355-381 SDKQueryProvingInfoForTransaction (the fields that are used) *)
Record tx_info := { ti_block : Z; ti_fee : list Z; ti_key : list Z; ti_leaf : list Z; ti_time : Z }.

(** query_id.go:21-50: the bits of one log field.  logTopic0[:6] of a shorter string is taken to panic
    (in Go it could still succeed within the slice's spare capacity). *)
Definition log_bits (f : log_info) : option (list Z) :=
  let* addr := hexutil_decode (li_contract f) in
  let* b1 := decompose_bits (be_val addr) (8 * 20) in
  let* b2 := decompose_bits (li_index f) (8 * 2) in
  let* topic := hexutil_decode (li_topic0 f) in
  guard (Nat.leb 6 (length topic)) ;;
  let* b3 := decompose_bits (be_val (firstn 6 topic)) (8 * 6) in
  let* b4 := decompose_bits (if li_from_topic f then 1 else 0) 1 in
  let* b5 := decompose_bits (li_value_index f) 7 in
  let* value := hexutil_decode (li_value f) in
  let* v := parse_bytes32 value 248 in
  let* b6 := byte32_to_fr_bits (fst v) (snd v) 248 in
  Some (b1 ++ b2 ++ b3 ++ b4 ++ b5 ++ b6).
(** query_id.go:11-53 MiMCHashReceiptCustomInputs, up to the packed bits *)
Definition receipt_bits (r : receipt_info) : option (list Z) :=
  let* b1 := decompose_bits (ri_block r) (8 * 4) in
  let* fee := set_string 0 (ri_fee r) in
  let* b2 := decompose_bits fee (8 * 16) in
  let* key := set_string 0 (ri_key r) in
  let* b3 := decompose_bits key (8 * 4) in
  let* ls := omap log_bits (ri_logs r) in
  let* b4 := decompose_bits (ri_time r) (8 * 8) in
  Some (b1 ++ b2 ++ b3 ++ concat ls ++ b4).
(** query_id.go:144-149 GetPaddedSlotBytes: a slot longer than 32 bytes is a slice-bounds panic *)
Definition padded_slot (s : list Z) : option (list Z) :=
  let b := hex2bytes s in guard (Nat.leb (length b) 32) ;; Some (repeat 0 (32 - length b) ++ b).
(** query_id.go:66-87 MiMCHashStorageCustomInputs, up to the packed bits *)
Definition storage_bits (s : storage_info) : option (list Z) :=
  let* b1 := decompose_bits (si_block s) (8 * 4) in
  let* fee := set_string 0 (si_fee s) in
  let* b2 := decompose_bits fee (8 * 16) in
  let* acc := set_string 0 (si_account s) in
  let* b3 := decompose_bits acc (8 * 20) in
  let* slot := padded_slot (si_slot s) in
  let* sv := parse_bytes32 slot 248 in
  let* b4 := byte32_to_fr_bits (fst sv) (snd sv) 248 in
  let* value := set_string 10 (si_value s) in
  let* vv := parse_bytes32 (big_bytes value) 248 in
  let* b5 := byte32_to_fr_bits (fst vv) (snd vv) 248 in
  let* b6 := decompose_bits (si_time s) (8 * 8) in
  Some (b1 ++ b2 ++ b3 ++ b4 ++ b5 ++ b6).
(** query_id.go:99-129 MiMCHashTxCustomInputs, up to the packed bits *)
Definition tx_bits (t : tx_info) : option (list Z) :=
  let* b1 := decompose_bits (ti_block t) (8 * 4) in
  let* fee := set_string 0 (ti_fee t) in
  let* b2 := decompose_bits fee (8 * 16) in
  let* key := set_string 0 (ti_key t) in
  let* b3 := decompose_bits key (8 * 4) in
  let* lv := parse_bytes32 (hex2bytes (ti_leaf t)) 248 in
  let* b4 := byte32_to_fr_bits (fst lv) (snd lv) 248 in
  let* b5 := decompose_bits (ti_time t) (8 * 8) in
  Some (b1 ++ b2 ++ b3 ++ b4 ++ b5).

Section Poseidon.
(** iden3 poseidon.Hash: an arbitrary function of its inputs; it accepts one to sixteen inputs *)
Variable P : list Z -> Z.
(** utils/poseidon_bn254.go and query_id.go:55-63, 88-97, 130-139: write every packed element, Sum, Bytes *)
Definition query_hash (bits : list Z) : option (list Z) :=
  let data := pack_bits_to_int bits in
  guard (Nat.leb 1 (length data) && Nat.leb (length data) 16) ;; Some (big_bytes (P data)).
Definition receipt_query_id (r : receipt_info) : option (list Z) := let* b := receipt_bits r in query_hash b.
Definition storage_query_id (s : storage_info) : option (list Z) := let* b := storage_bits s in query_hash b.
Definition tx_query_id (t : tx_info) : option (list Z) := let* b := tx_bits t in query_hash b.
End Poseidon.
