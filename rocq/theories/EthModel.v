(** * EthModel.v — models circuits/gadgets/mpt/eth_proof.go (account, storage, block-hash and combined proofs).

    As in MptModel.v the digest gadget (keccak.NibblesToU64Array followed by rlp.Keccak256AsNibbles) is the variable [hash];
    api.Println (line 174) has no effect on the constraints.  Fixed-size Go arrays are lists guarded by their length; the
    per-proof arrays key / starts / nodes / rounds / prefixes / types / depth are the record [layers_in] of MptModel.v. *)
From Coq Require Import ZArith List Lia Bool Arith.
From Verif Require Import Field RlpUtilModel RlpModel MptModel.
Import ListNotations.
Open Scope Z_scope.
Open Scope circ_scope.

(** eth_proof.go:56-62 addressValueArrayCheck *)
Definition account_params : array_check := ArrayCheck 228 4 [(0, 64); (0, 24); (64, 64); (64, 64)]%nat.
(** eth_proof.go:201-207 blockHashArrayCheck; EthBlockHeadMaxBlockHexSize = 8 * 272 (lines 13-14) *)
Definition header_params : array_check :=
  ArrayCheck 2176 4
    [(64, 64); (64, 64); (40, 40); (64, 64); (64, 64); (64, 64); (512, 512); (0, 14); (0, 16); (0, 8); (0, 8); (0, 8); (0, 2000);
     (64, 64); (16, 18); (0, 16); (64, 64)]%nat.

(** eth_proof.go:30-38 EthAccountProofResult *)
Record account_result := AccountResult {
  ea_output : Z; ea_nonceLen : Z; ea_nonce : list Z; ea_balanceLen : Z; ea_balance : list Z; ea_storageRoot : list Z; ea_codeHash : list Z }.
(** eth_proof.go:112-116 EthStorageProofResult *)
Record storage_result := StorageResult { es_output : Z; es_slotValue : Z * Z; es_valueLen : Z }.
(** eth_proof.go:184-193 EthBlockHashResult *)
Record block_result := BlockResult {
  eb_output : Z; eb_hash : list Z; eb_numberLen : Z; eb_number : list Z; eb_time : list Z;
  eb_stateRoot : list Z; eb_txRoot : list Z; eb_receiptsRoot : list Z }.
(** eth_proof.go:252-256 EthAddressStorageProofResult *)
Record address_storage_result := AddressStorageResult { as_output : Z; as_blockNumber : Z; as_slotValue : Z * Z }.

Section M.
Variable p : Z.
Variable hash : list Z -> Z -> option (list Z).

(** eth_proof.go:40-110 CheckEthAccountProof; [li_key i] is addressHash *)
Definition check_eth_account (maxDepth : nat) (stateRoot addressRlp leafRlp : list Z) (leafRound leafPref : Z) (i : layers_in) : option account_result :=
  guard (Nat.eqb (length stateRoot) 64 && Nat.eqb (length (li_key i)) 64 && Nat.eqb (length addressRlp) 228) ;;
  let* '(rlpout, _, lens, fields) := rlp_array_check p account_params addressRlp 4 in
  let* '(mptOut, _) := check_mpt_fixed p hash maxDepth 64 228 addressRlp stateRoot leafRlp leafRound leafPref i false in
  Some (AccountResult (fmul p rlpout mptOut) (nth 0 lens 0) (firstn 64 (nth 0 fields [])) (nth 1 lens 0) (firstn 24 (nth 1 fields []))
          (firstn 64 (nth 2 fields [])) (firstn 64 (nth 3 fields []))).

(** eth_proof.go:158-172: the slot value read off the 66 digits of its RLP encoding *)
Definition slot_value (valueRlp : list Z) : option (Z * Z) :=
  let fp := rlp_field_prefix p (nth 0 valueRlp 0) (nth 1 valueRlp 0) in
  let prefix1 := fmul p (fp_isBig fp) (fp_hexLen fp) in
  let lpm := ((log_ceil (66 / 8) + 1) * 2)%nat in
  let shift := fmul p (fp_isLiteral fp) (fadd p 2 prefix1) in
  let shift := fsub p (fadd p 2 prefix1) shift in
  let* shiftOut := r_shift_left p 66 0 lpm valueRlp shift in
  let* '(v0, v1) := r_hex64_to_2fr p shiftOut (fp_hexLen fp) in
  let* short := r_hex_to_decimal p shiftOut 2 2 in
  let* s0 := fselect p (fis_zero p (fp_hexLen fp)) short v0 in
  let* s1 := fselect p (fis_zero p (fp_hexLen fp)) 0 v1 in
  Some (s0, s1).
(** eth_proof.go:118-182 CheckEthStorageProof; [li_key i] is slotHash *)
Definition check_eth_storage (maxDepth : nat) (storageRoot valueRlp leafRlp : list Z) (leafRound leafPref : Z) (i : layers_in) : option storage_result :=
  guard (Nat.eqb (length storageRoot) 64 && Nat.eqb (length (li_key i)) 64 && Nat.eqb (length valueRlp) 66) ;;
  let* '(mptOut, vlen) := check_mpt_fixed p hash maxDepth 64 66 valueRlp storageRoot leafRlp leafRound leafPref i true in
  let* v := slot_value valueRlp in
  Some (StorageResult mptOut v (fsub p vlen 2)).

(** eth_proof.go:195-250 CheckEthBlockHash.  The first argument of Keccak256AsNibbles (totalRlpLength) only feeds its unused
    OutputLength result. *)
Definition check_eth_block (blockRlp : list Z) (fieldsNum round : Z) : option block_result :=
  guard (Nat.eqb (length blockRlp) 2176) ;;
  let* '(rlpout, _, lens, fields) := blk_header_rlp_check p header_params blockRlp fieldsNum in
  let* d := hash blockRlp round in
  Some (BlockResult rlpout d (nth 8 lens 0) (firstn 8 (nth 8 fields [])) (firstn 8 (nth 11 fields []))
          (firstn 64 (nth 3 fields [])) (firstn 64 (nth 4 fields [])) (firstn 64 (nth 5 fields []))).

(** eth_proof.go:333-337: big-endian value of the 8 digits, the weights being math.Pow(16, 7-i) *)
Definition block_number_value (digits : list Z) : Z :=
  fold_left (fun acc k => fadd p acc (fmul p (nth k digits 0) (16 ^ (7 - Z.of_nat k)))) (seq 0 8) 0.
(** eth_proof.go:258-344 CheckEthAddressStorageProof; [ai], [si]: the account and the storage path *)
Definition check_eth_address_storage (addrDepth storDepth : nat) (blockHash blockRlp : list Z) (fieldsNum blockRound : Z)
    (addressRlp addrLeaf : list Z) (addrLeafRound addrLeafPref : Z) (ai : layers_in)
    (valueRlp storLeaf : list Z) (storLeafRound storLeafPref : Z) (si : layers_in) : option address_storage_result :=
  guard (Nat.eqb (length blockHash) 64 && Nat.eqb (length (li_rounds ai)) 9) ;;
  let* b := check_eth_block blockRlp fieldsNum blockRound in
  let* hashEq := r_array_equal p blockHash (eb_hash b) 64 64 in
  let* a := check_eth_account addrDepth (eb_stateRoot b) addressRlp addrLeaf addrLeafRound addrLeafPref ai in
  let* s := check_eth_storage storDepth (ea_storageRoot a) valueRlp storLeaf storLeafRound storLeafPref si in
  let* digits := r_shift_right p 8 3 (eb_number b) (fsub p 8 (eb_numberLen b)) in
  Some (AddressStorageResult (r_equal p (fadd p (fadd p hashEq (ea_output a)) (es_output s)) 3)
          (block_number_value digits) (es_slotValue s)).
End M.
