#!/usr/bin/env python3
"""Generates /verif/properties.jsonl (source of truth for the property list)."""
import json, os
P = []
def p(id, title, statement, quantifier, why, anchors):
    P.append(dict(id=id, title=title, statement=statement, quantifier=quantifier,
                  why_tests_cant=why, anchors=anchors))
G = "circuits/gadgets/"
p("C01", "Multiplex selects exactly the requested column or is unsatisfiable",
  "For every table of wIn rows of nIn field elements and every selector, mux.Multiplex (and rlp.Multiplexer) has a satisfying assignment iff the selector is one of 0..nIn-1, and then row i of the output is the selector-th entry of row i of the table.",
  "every field with modulus larger than nIn, every nIn, wIn, every table content, every selector field element (including ones >= nIn)",
  "A test tries a handful of selectors; soundness is about all ~2^254 selector values and every table size.",
  [G+"mux/multiplexer.go:Multiplex,decode,dotProduct,isEqual", G+"rlp/util.go:Multiplexer,Decoder,EscalarProduct"])
p("C02", "Equality and comparison gadgets return exact 0/1 answers",
  "rlp.Equal(a,b) is 1 iff a = b and otherwise 0; rlp.LessThan(a,b) is 1 iff the canonical integer of a is smaller than that of b and otherwise 0.",
  "every pair of field elements",
  "Wrap-around near the modulus cannot be enumerated.",
  [G+"rlp/util.go:Equal,LessThan"])
p("C03", "ArrayEqual decides prefix equality",
  "rlp.ArrayEqual(a,b,maxLength,targetLength) is satisfiable iff maxLength fits both arrays and 0 <= targetLength <= maxLength, and returns 1 iff the first targetLength entries of a and b agree, else 0.",
  "every pair of arrays, every maxLength and every targetLength field element",
  "The gadget counts matches instead of and-ing them; that the count trick never confuses different prefixes has to hold for all arrays.",
  [G+"rlp/util.go:ArrayEqual"])
p("C04", "SubArray returns the requested slice and rejects bad ranges",
  "SubArray(in,from,end) is unsatisfiable unless from <= end <= nIn and end-from <= maxSelect; when satisfiable the reported length is end-from and output k is in[from+k] for every k < end-from (beyond that it wraps cyclically).",
  "every input array, every nIn < 2^nInBits, every maxSelect <= nIn, every from/end field element",
  "The barrel shifter mixes all positions; off-by-one errors show up only at particular bit patterns of from.",
  [G+"rlp/util.go:SubArray.SubArray,NewSubArray,LogCeil"])
p("C05", "ShiftLeft rotates left by the requested amount",
  "rlp.ShiftLeft with shift in [minShift, maxShift] returns the input array rotated left by shift positions; amounts whose offset from minShift does not fit the LogCeil bit width are rejected.",
  "every array, every length, every min/max shift and every shift value in range",
  "All shift amounts and lengths, including the modulo wrap-around of negative shifts.",
  [G+"rlp/rlp.go:ShiftLeft"])
p("C06", "ShiftRight moves the array right filling with zeros",
  "rlp.ShiftRight(in,shift) returns an array of the same length whose entry i is in[i-shift] for i >= shift and 0 below, for every shift that fits LogCeil(maxIn) bits; larger shifts are rejected.",
  "every array, every length, every shift field element",
  "All shift amounts and lengths.",
  [G+"rlp/rlp.go:ShiftRight"])
p("C07", "RLP prefix decoders agree with the RLP specification",
  "RlpFieldPrefix/RlpArrayPrefix classify the first byte of an item as the RLP specification does (literal byte, short/long string, short/long list), and the announced length equals the specification's. The validity flag of RlpFieldPrefix is 1 for every byte except 0xc0, where it is 2 (so the stronger reading 'all flags are boolean' is refuted).",
  "every pair of nibbles (all 256 first bytes)",
  "Users rely on the flags being boolean for the sum-of-flags tricks of the callers; tests sample a few bytes.",
  [G+"rlp/rlp.go:RlpFieldPrefix,RlpArrayPrefix"])
p("C08", "RlpArrayCheck accepts exactly well-formed RLP lists within the declared bounds",
  "If RlpArrayCheck returns 1 for a nibble string and the fixed-size fields have their declared size then the string starts with the returned fields, in order, with the returned lengths, and, unless one of the fields is the empty list 0xc0, header and fields form one well-formed RLP list of the returned total length. Every well-formed list that satisfies the declared bounds, has no 0xc0 field and whose length prefixes fit the shifters is accepted. Each restriction is necessary: the unrestricted claim is refuted in each of the excluded cases.",
  "every nibble string, every number of fields, every declared min/max field length and prefix table",
  "Soundness must hold for adversarial witnesses, i.e. all inputs.",
  [G+"rlp/rlp.go:ArrayCheck.RlpArrayCheck,NewArrayCheck"])
p("C09", "RlpNestArrayCheck verifies the total list length",
  "If RlpNestArrayCheck accepts then the fields are consecutive RLP items and, unless one of them is the empty list or the parse stopped at a byte 00, the announced list payload length equals the sum of the encoded lengths of the returned fields. Conversely, on every well-formed list whose members fit the declared bounds and shifters and are not the byte 00 it is satisfiable, returns the members' contents and lengths and the total length, and reports success exactly if at most one member is the empty list. Refuted: with an empty list among the fields the announced length is not verified; a byte 00 is read twice.",
  "every nibble string, every field table",
  "Soundness for adversarial witnesses.",
  [G+"rlp/rlp.go:ArrayCheck.RlpNestArrayCheck"])
p("C10", "MPT leaf check binds the value to the key",
  "If CheckLeaf reports full success for a leaf node then the leaf's hex-prefix encoded key remainder equals the key nibbles from keyFrom on (with parity/terminator flag correct) and its value field equals the claimed value. Conversely every RLP leaf node that fits the buffers, whose path starts the key part and whose value starts the claimed value, gets full success.",
  "every leaf nibble string, key, key length, start offset, claimed value",
  "Adversarial witnesses.",
  [G+"mpt/mpt_util.go:MptCheck.CheckLeaf", G+"mpt/mpt.go"])
p("C11", "MPT extension check binds the shared nibbles and child hash",
  "If CheckExtension reports full success then the extension's path equals the key nibbles in [keyFrom, keyFrom+n) and its child reference equals the claimed child hash. Conversely every RLP extension node that fits, with that path and reference, gets full success.",
  "every extension node nibble string, key and offsets",
  "Adversarial witnesses.",
  [G+"mpt/mpt_util.go:MptCheck.CheckExtension"])
p("C12", "MPT branch check binds the child selected by the key nibble",
  "If CheckBranch reports full success then the node is a 17-item RLP list and the child at the given key nibble equals the claimed child reference. Conversely every branch node of sixteen children of at most 32 bytes without a value gets full success for the selected child.",
  "every branch node nibble string, nibble and claimed child",
  "Adversarial witnesses.",
  [G+"mpt/mpt_util.go:MptCheck.CheckBranch"])
p("C13", "Fixed-key-length MPT inclusion proof forces a connected path of hashed nodes",
  "CheckMPTInclusionFixedKeyLength (isStorageProof = false) returns 1 for depth >= 2 only if the first node hashes to the root, every node is a branch or extension whose child reference along the key is the reference of the next node, the key digits from keyFragmentStarts[0] on are consumed exactly and the last node is the leaf of the key with the claimed value (or a leaf of another key, for the empty value). Depth 1 and a nonzero keyFragmentStarts[0] are accepted without such a path (refutations).",
  "every depth, every vector of per-layer check results and witnesses",
  "The code sums flags and compares the total with 4*depth+2; that no combination of partial successes reaches the total is a for-all statement.",
  [G+"mpt/mpt.go:CheckMPTInclusionFixedKeyLength"])
p("C14", "Score and path rule of the no-branch-termination variant",
  "CheckMPTInclusionNoBranchTermination answers 1 exactly when its score is one point short of the maximum, so it rejects every fully valid proof and accepts a wrong root hash; its path rule forces extensions, not branches, to consume a single digit, unlike the fixed-key-length variant. (The intended reading - same rule as the fixed variant - is refuted.)",
  "every node type flag and every key fragment length",
  "The two variants share tests only for single-nibble paths.",
  [G+"mpt/mpt.go:CheckMPTInclusionNoBranchTermination"])
p("C15", "Pad101Bytes is the Keccak multi-rate padding",
  "keccak.Pad101Bytes(m) returns m followed by the Keccak pad10*1 with domain byte 0x01, its length is the smallest multiple of 136 larger than |m|, and m can be recovered from it (padding is injective).",
  "every byte string of every length",
  "The one-byte case and the exact-multiple case are two of 136 residues; tests hit a few lengths.",
  [G+"keccak/pad.go:Pad101Bytes"])
p("C16", "Bit-level padding and round index agree with the byte-level padding",
  "For a message of n bytes, Pad101Bits and PadBits101 give the bit expansion of Pad101Bytes of that message (followed by zeros), and GetRoundIndex(8n)+1 is the number of 136-byte blocks of the padded message, exactly when n mod 136 is not 135; for n mod 136 = 135 both are wrong (one block too many), so the digest computed from them is not Keccak-256 of the message. Pad101Bits is satisfiable exactly for in-range digits and lengths between its bounds that are whole bytes.",
  "every message length",
  "Only one residue class modulo 136 is wrong.",
  [G+"keccak/pad.go:Pad101Bits,PadBits101,GetRoundIndex"])
p("C17", "The in-circuit permutation is Keccak-f[1600]",
  "keccakf.Permute maps every 25-lane state to the Keccak-f[1600] permutation of FIPS 202 of that state.",
  "every state of 25 64-bit words",
  "2^1600 states.",
  [G+"keccak/keccakf/keccakf.go:permute", G+"keccak/keccakf/uint64api.go"])
p("C18", "The block gadget returns the sponge state after roundIndex+1 blocks",
  "keccak.Keccak256(blocks, roundIndex) returns the first four lanes of the sponge after absorbing blocks[0..roundIndex]; blocks after roundIndex have no influence; roundIndex out of range is unsatisfiable.",
  "every block contents and every roundIndex field element",
  "Independence from trailing blocks is a for-all statement.",
  [G+"keccak/keccak256.go:Keccak256", G+"keccak/keccak256_bits.go"])
p("C19", "Byte/nibble/word packing conventions round-trip",
  "Bytes2Blocks, byte2Bits, NibblesToU64Array and RecomposeHexToKeccakU64s put byte k of the message at bits 8(k mod 8).. of little-endian word k div 8, so that unpacking the words restores the bytes.",
  "every byte string",
  "Endianness errors are invisible on symmetric data.",
  [G+"keccak/periphery.go"])
p("C20", "SHA-256 gadget is insensitive to how the message is split into writes",
  "For the sha256 and sha512 gadgets, any sequence of Write calls whose concatenation is m leaves the same digest as a single Write(m); Sum does not change the state, so Sum;Sum and Write;Sum;Write;Sum behave as on the concatenation; Reset forgets all history.",
  "every sequence of Write/Sum/Reset calls (histories of any length)",
  "Interleavings with the 64-byte buffer are unbounded.",
  [G+"sha256/sha256.go", G+"sha512/sha512.go"])
p("C21", "SHA-256/512 gadgets compute FIPS 180-4",
  "sha256.Sum / sha512.Sum after writing m is the FIPS 180-4 SHA-256/SHA-512 digest of m for every message m.",
  "every message of every length (below 2^61 bytes)",
  "Padding boundary cases at all residues; compression for all words.",
  [G+"sha256/sha256.go", G+"sha256/sha256block.go", G+"sha512/sha512.go", G+"sha512/sha512block.go"])
p("C22", "Multi-operand word addition never loses or fabricates carries",
  "The sha gadgets' add(in...) returns the sum of its operands modulo 2^32 (2^64) and is satisfiable for every tuple of word operands used by the code.",
  "every tuple of 32-bit (64-bit) words, every arity used",
  "Carry widths: the worst case is a single point among 2^160 inputs.",
  [G+"sha256/uint32api.go:add", G+"sha512/uint64api.go:add"])
p("C23", "Merge inverts Split for every prover; Split is the digit decomposition for an honest one",
  "For every hint output that satisfies the constraints, Merge of the limbs returned by limbs.API.Split is the value; the honest hint returns the base-2^k digits; and the limbs are unique as soon as they are range-checked. Split itself does not range-check its limbs, so uniqueness without the check is refuted by a concrete second witness.",
  "every value, limb size and limb count, and every witness a malicious prover may choose for the hint outputs",
  "Hint outputs are chosen by the prover; only a proof can range over them.",
  [G+"limbs/limbapi.go:Split,Merge", G+"limbs/utils.go"])
p("C24", "LrotMerge is bit rotation",
  "limbs LrotMerge(limbs, r) equals the left rotation by r bits of the merged word for the honest hint, and for every prover when r is a multiple of the limb size; for other amounts a dishonest hint output is accepted (refuted), and amounts beyond the word are rejected.",
  "every limb vector with in-range limbs, every rotation amount",
  "All words and rotation amounts.",
  [G+"limbs/limbapi.go:LrotMerge"])
p("C25", "Slice helpers are involutions / permutations that preserve content",
  "Flip, FlipSubSlice, FlipByGroups and Reverse reverse exactly the documented ranges, are involutions, and panic exactly on the documented lengths; with distinct keys, Partition puts into the group of a key, in order, exactly the values its predicate accepts, so that the groups are a permutation of the values when each value matches one key (with repeated keys values are duplicated: refuted); Contains decides membership.",
  "every slice, every index range, every key function",
  "For-all over slices.",
  [G+"utils/slice.go", "common/utils/utils.go", "common/utils/binary.go"])
p("C26", "Hex codec round trip and malformed input",
  "Hex2Bytes(Bytes2Hex(b)) = b for every b, with or without 0x prefix; odd-length input is treated as left-padded with one zero digit; Hex2Addr/Hex2Hash keep the last 20/32 bytes and left-pad with zeros; a malformed digit silently truncates the result; IsValidTxHash accepts exactly the strings of 64 hex digits with an optional 0x or 0X prefix; Hex2BigInt is the base-16 value.",
  "every byte string and every character string",
  "For-all over strings, including malformed ones.",
  ["common/utils/hex.go"])
p("C27", "Bit/field packing round-trips",
  "Splitting a 32-byte word at any bit between 3 and 253 and recomposing it, in or out of circuit, gives the word back (outside of that range the word is lost: refuted); PackBitsToInt is injective on bit strings of equal length and agrees with PackBitsToFr; DecomposeBits(x,n) are the n bits of x and panics if x has more; the nibble recompositions give the hex digits from the left.",
  "every 32-byte word, bit string, and width",
  "For-all over 2^256 words.",
  ["common/utils/compose.go", "common/utils/binary.go", "common/utils/poseidon_bn254.go"])
p("C28", "BitsToFrBigInt yields the bits' value in the field",
  "The result of BitsToFrBigInt is congruent to the bits' value, lies between 0 and the modulus inclusive, and is exact and canonical for up to 253 bits (it is not canonical for the bits of the modulus itself: refuted).",
  "every bit string of up to 254 bits",
  "The failing value is a single point in 2^254.",
  ["common/utils/compose.go:BitsToFrBigInt"])
p("C29", "Chain start-block table is consistent",
  "GetStartBlockInfo returns InitialIndex = floor(BlockNumber / 128) for every chain id and zeros for an unknown one; BlockNumber = 128 * InitialIndex holds for chains 42161 and 10 (and is refuted for 97 and 56).",
  "every chain id (64-bit)",
  "Default branch ranges over all ids; arithmetic relation is asserted nowhere.",
  ["common/utils/const.go:GetStartBlockInfo"])
p("C30", "Chunk-proof ABI encoding is faithful",
  "EncodeABI of a proof is the concatenation of 32-byte big-endian words, one per field in order, and is injective, for coordinates of at most 32 bytes and block numbers below 2^63; a coordinate of more than 32 bytes panics; a block number n >= 2^63 is encoded as 2^64 - n (so faithfulness for all uint64 values is refuted).",
  "every field value including all uint64 values",
  "Only values >= 2^63 are mis-encoded.",
  ["common/proof/types.go:ChunkProof.EncodeABI"])
p("C31", "Query ids encode their parameters injectively",
  "The byte strings hashed for receipt, storage and transaction query ids have fixed size and place every parameter at a fixed offset with fixed width, so two different well-formed parameter tuples of the same kind have different pre-images (equal ids exhibit a Keccak collision); receipts with more than the maximal number of log fields are rejected. Not guaranteed (refuted by examples): negative numeric texts alias their absolute value, and pre-images of different kinds may coincide.",
  "every tuple of query parameters",
  "Injectivity is a for-all-pairs statement.",
  ["common/proof/query_id.go"])
p("C32", "Sender recovery passes the right recovery id",
  "RecoverTransactionSignerAddress recovers from the EIP-155 signing hash with recovery id v-35-2*chainId for legacy transactions (every chain id), from the EIP-1559 signing hash with recovery id v for dynamic-fee transactions, and errors on every other type; signature values above 32 bytes and unprotected (v = 27/28) transactions never yield an address. The signed payload binds the transaction fields. v is not validated: a v congruent to a valid one modulo 2^64 is accepted (refuted by example).",
  "every v, chain id and transaction type",
  "64-bit wrap-around.",
  ["common/proof/util.go:RecoverTransactionSignerAddress"])
p("C33", "S3 object keys are unambiguous",
  "Two different (prefix, block number) pairs never yield the same object key; the sub-proof paths of a batch are listed in the order of the batch.",
  "every pair of names",
  "For-all-pairs.",
  ["common/s3api/utils.go"])
p("C34", "MiMC Merkle path gadgets recompute the root of the specified tree and are binding",
  "The Merkle path gadgets are satisfiable iff every direction is 0 or 1 and the path fits, and then return the root obtained by hashing along the path with the sibling on the side told by the direction; two accepted leaves with the same directions and root are equal unless two different inputs among those actually hashed collide; for a full tree of 2^d leaves the path of leaf i recomputes the tree root. The whole-tree roots (emulated MiMC, fabric MiMC, Keccak) equal the specified binary tree root for exactly 2^d leaves and fail for every other count, and two equal-sized leaf lists with the same root are equal unless the hashed inputs collide.",
  "every tree depth, leaf, path and index; every hash function",
  "Binding is a for-all-pairs statement.",
  [G+"merkle/mimc_root.go", G+"merkle/emulated_mimc_root.go", G+"smt/smt.go", "circuits/fabric/smt/utils.go"])
p("C35", "Sparse-Merkle inclusion gadget is sound",
  "The sparse-Merkle inclusion gadget is satisfiable only with 0/1 directions and returns 1 iff hashing the leaf up along the given directions yields the given root, else 0; two different leaves accepted for the same directions and root exhibit a hash collision among the hashed inputs; the configured maximum depth has no effect on the answer.",
  "every depth, sibling vector, bit vector (boolean or not), leaf and root",
  "Adversarial witness.",
  [G+"smt/smt.go"])
p("C36", "Emulated MiMC hasher is history independent after Hash",
  "Whatever calls came before, Hash(xs...) returns the Miyaguchi-Preneel hash of exactly xs, and Write calls accumulate: Reset, Write.. , Sum hashes the concatenation of the written elements. A second Sum without Reset absorbs the same elements again, so Sum is NOT idempotent (refuted by example).",
  "every history of Write/Sum/Reset/Hash calls",
  "Histories are unbounded.",
  [G+"emulated/mimc/mimc.go", G+"emulated/mimc/encrypt.go"])
p("C37", "Transaction/receipt index key is the RLP of the index",
  "CalTxOrReceiptIndexRlp(index) returns the nibbles of RLP(index) (padded, with its length) for every index below 2^16, and is unsatisfiable for larger ones; different indices give different keys.",
  "every index field element",
  "65536 accepted values and 2^254 rejected ones.",
  [G+"index-proof/core/circuit_index_mpt.go"])
p("C38", "Ed25519 point formulas implement the edwards25519 group law",
  "The curve constants of the ed25519 gadget are those of RFC 8032 (q = 2^255-19 and L prime, d = -121665/121666 a non-square, base point of order exactly L). For every pair of points on the curve the constraints of Add determine exactly the affine twisted Edwards sum (no exceptional pair, no freedom left by the division hints), likewise Double, Neg, AssertIsOnCurve and AssertQ; the sum is again on the curve and the operations form an abelian group. Off the curve a doubling is not determined (refuted).",
  "every pair (triple) of curve points and every hint value",
  "For-all over 2^510 pairs and all prover-chosen quotients.",
  [G+"ed25519/point.go:add,double,neg,assertIsOnCurve,assertQ", G+"ed25519/twistededwards.go:newEdCurve", G+"ed25519/params.go"])
p("C39", "Ed25519 scalar multiplication computes the scalar multiple",
  "ScalarMul constrains its result to [s]P and DoubleBaseScalarMul to [s1]P1+[s2]P2, for every scalar of the native field and every representative of the emulated scalar below the native modulus; a native field wider than 255 bits is rejected at construction.",
  "every scalar, every curve point, every native field",
  "Exponentially many scalars.",
  [G+"ed25519/point.go:scalarMul,doubleBaseScalarMul", G+"ed25519/curve.go:ScalarMul,DoubleBaseScalarMul"])
p("C40", "Extension-tower arithmetic is the ring arithmetic of Fp2/Fp6/Fp12",
  "E2/E6/E12 Add, Sub, Mul, Square, Conjugate, MulByNonResidue, Inverse and the sparse multiplications equal the operations of Fp[u]/(u^2+1), Fp2[v]/(v^3-(1+u)), Fp6[w]/(w^2-v).",
  "every tuple of field elements",
  "Polynomial identities over infinite domains.",
  [G+"pairing_bls12381/tower.go"])
p("C41", "Hash-to-curve sign function follows RFC 9380",
  "g2Sgn0 returns the RFC 9380 sgn0 of every Fp2 element. True with honest hints unless the real part is zero and the imaginary part odd (refuted there), and for any prover when the real part is at least 2^381-p; below that bound a prover can have either sign (refuted).",
  "every pair of base-field elements",
  "Fails only on a measure-zero set (real part zero).",
  [G+"pairing_bls12381/hash2curve.go:g2Sgn0"])
p("C42", "Bit-to-byte conversion helpers group bits in the documented order",
  "conv.Bits2Bytes / Bits2Bytes2 / Bits2BytesArray / Bits2Uint128s give the numbers whose bits are the consecutive groups of 8/128 bits in the documented order, panic on a partial group and reject non-bits; Bits2Nibbles fails on every non-empty input (refuted).",
  "every bit vector whose length is a multiple of the group size",
  "For-all over bit vectors.",
  [G+"conv/bits.go"])
p("C43", "Header chain encoding rejects inconsistent input",
  "EncodeHeaders returns, for every header with admitted field widths and at most 32 bytes of extra data, exactly 5*1088 bits and the round index for which the Keccak circuit computes Keccak-256 of the header's RLP; the encoding is injective; a too wide or negative numeric field is an error; a header without base fee panics; over-long extra data is NOT rejected and gives more bits (refuted by example). GenHeaders returns max(1,count) headers with consecutive numbers, each on top of its predecessor's hash, all accepted by EncodeHeaders. NewHash splits 32 bytes into two 128-bit halves injectively; MimcHashBytes32 is collision-free up to MiMC.",
  "every list of headers",
  "For-all over header lists.",
  ["circuits/fabric/smt/utils.go"])
p("C44", "Contract calldata codec",
  "EncodeCalldata returns the selector followed by the packed arguments and, whatever calls happened before or after, neither changes the selectors nor earlier results; decoding the bytes after the selector gives back the arguments; unknown methods, a wrong number of targets and non-pointer targets are errors. Not guaranteed (refuted by examples): DecodeCalldata of the full EncodeCalldata result decodes a wrong value without error, and the result for a method without arguments aliases the ABI's selector.",
  "every method name, every argument list, every history of calls",
  "Aliasing depends on call history.",
  ["common/utils/contract_codec.go"])
p("C45", "Transaction leaf split",
  "For every proof the transaction/receipt proof generator returns, leafRlpPrefix ++ leaf value is the last proof node; for an index stored in the trie that node is the leaf holding its value, the first node is the root, and inner nodes below 32 bytes are omitted; a header root mismatch is an error; an empty block panics; an index absent from the trie is NOT rejected (refuted by example).",
  "every proof node and key",
  "For-all over proofs.",
  ["common/proof/tx_merkel_proof.go"])
p("C46", "Storage-proof variant of the MPT inclusion check",
  "CheckMPTInclusionFixedKeyLength with isStorageProof = true returns 1 for depth >= 2 only if the nodes form a connected hashed path along the key from keyFragmentStarts[0] and the last node is the leaf of the key, or a leaf of another key (empty value), or a well-formed 17-item branch without child at key digit depth-1, or an extension whose path differs from the remaining key.",
  "every depth, node list, key, value and witness",
  "Adversarial witnesses.",
  [G+"mpt/mpt.go:CheckMPTInclusionFixedKeyLength", G+"mpt/mpt_util.go:CheckBranchForNonExistence,checkExtensionNodeNonExistence"])
p("C47", "Ed25519 signature verification",
  "For a public key and an R on the curve, Verify is satisfiable exactly when the two key variables hold the RFC 8032 encoding of A, the five message variables are in range and 8[S]B = 8R + 8[h]A for a challenge h congruent modulo L to the little-endian SHA-512 of enc(R) || enc(A) || message; the key bytes determine A up to sign (completely for canonical x). The intended unforgeability fails: R is never asserted to be on the curve and an explicit forgery for the RFC 8032 test key is accepted (refuted); S is not range checked, so S+L is accepted with S (refuted).",
  "every native field of 254-255 bits, key, signature, message and every hint value",
  "Adversarial witnesses; for-all over messages, keys and signatures.",
  [G+"ed25519/ed25519.go:Verify,bytes,copyFieldElement,recomposeMsg,recomposePbKey"])
p("C48", "Frobenius maps of Fp12",
  "Frobenius(x) = x^p, FrobeniusSquare(x) = x^(p^2), Conjugate(x) = x^(p^6) for every x of Fp12, Conjugate is the p-th power on Fp2. FrobeniusCube is NOT x^(p^3): it equals Frobenius (refuted by the element w).",
  "every element of Fp12",
  "The coefficient tables are ten-odd 381-bit constants; an error in one shows only on inputs using that coefficient.",
  [G+"pairing_bls12381/tower.go:Frobenius,FrobeniusSquare,FrobeniusCube,Conjugate"])
p("C49", "Cyclotomic arithmetic and exponentiation by the curve parameter",
  "On the cyclotomic subgroup (x^(p^4-p^2+1) = 1) Conjugate is the inverse, CyclotomicSquare squares, n compressed squarings followed by DecompressKarabina give x^(2^n), ExptHalf gives x^(x0/2) and Expt x^x0, for every satisfying assignment of the hints; assignments exist exactly when the coefficient C1.B0 of the decompressed powers is non-zero, so the identity is rejected.",
  "every element of the cyclotomic subgroup, every hint value",
  "A subgroup of about 2^1524 elements and adversarial hints.",
  [G+"pairing_bls12381/tower.go:CyclotomicSquare,CyclotomicSquareCompressed,DecompressKarabina,NSquare,NSquareCompressed,ExptHalf,Expt"])
p("C50", "Final exponentiation",
  "Every result FinalExponentiation(e) can be made to return is e^(3(p^12-1)/r), of order dividing r; a result exists exactly when e <> 0 and the five cyclotomic exponentiations are decompressible; no result exists for any e in Fp6 (0 and 1 included).",
  "every element of Fp12, every hint value",
  "Adversarial hints; 2^4572 elements.",
  [G+"pairing_bls12381/pairing.go:FinalExponentiation"])
p("C51", "Miller loop and pairing",
  "For points Q_k of the twist whose Miller values exist, MillerLoop has exactly one result, the conjugate of the product of the values of Miller's algorithm (affine chord-and-tangent over Fp12) times a factor killed by the final exponentiation; every result of Pair is z with z * (prod f_k)^(3(p^12-1)/r) = 1; empty or unequal slices are an error. Pair([P,-P],[Q,Q]), whose pairing is 1, has no satisfying assignment.",
  "every number of pairs, every points P_k and Q_k, every hint value",
  "For-all over lists of points and prover-chosen quotients.",
  [G+"pairing_bls12381/pairing.go:MillerLoop,Pair,DoubleStep,AddStep,Mul014By014,MulBy014"])
p("C52", "HashToField follows RFC 9380",
  "For a 32-element message the HashToField circuit with count = 2n (n = 2 for HashToG2, 1 for EncodeToG2) is satisfiable exactly when the message consists of bytes, and returns hash_to_field of RFC 9380 (expand_message_xmd, SHA-256, the library's DST). Beyond n = 63, where the RFC aborts, it does not abort.",
  "every native field above 2^70, every message, every count",
  "For-all over 2^256 messages and all fields.",
  [G+"pairing_bls12381/hash2curve.go:HashToField,ExpandMsgXmd"])
p("C53", "Comparisons of Fp2 elements",
  "With honest hints E2NotZero, E2NotEqual and E2NotOne are exact; whatever the hints the answer 0 is right. Not guaranteed (refuted): a prover can have 'not zero' and 'not one' answered 1 for every element, and 'not equal' for equal elements exactly when a coordinate is below 2^381-p.",
  "every pair of Fp2 elements, every hint value",
  "Adversarial hints.",
  [G+"pairing_bls12381/hash2curve.go:E2NotZero,E2NotEqual,E2NotOne,G1NotZero,G1NotEqual,G1NotEqualOne"])
p("C54", "G2 point operations compute the group law",
  "Jacobian double, neg, add, sub, Psi and affine add, sub, double, DoubleAndAdd, neg compute the chord-and-tangent group law of y^2 = x^3 + 4(1+u) (psi with the RFC 9380 constants). Jacobian add/sub are total and exact with honest hints for all points including infinity, equal and opposite ones; for any prover when the operands are finite and distinct; infinity + G can be accepted as infinity (refuted). Affine operations accept exactly the sum and reject equal abscissae. Jacobian-to-affine accepts exactly the affine coordinates and rejects infinity; affine-to-Jacobian is exact on the curve.",
  "every point of the curve, every Jacobian representation, every hint value",
  "About 2^762 points; exceptional cases are never hit by random tests.",
  [G+"pairing_bls12381/g2.go", G+"pairing_bls12381/hash2curve.go:GetG2JacFromG2Affine,GetG2AffineFromG2Jac"])
p("C55", "Multiplication by the curve parameter and cofactor clearing",
  "G2JacobianConstScalarMul, G2ConstScalarMulV2 and G2ConstScalarMul return [|x0|]P for |x0| = 0xd201000000010000: the first for every point with honest hints and for any prover on points without small order (all of G2), the affine ones for every point and prover (V2 satisfiable on all of G2). ClearCofactor with honest hints is satisfiable and equals RFC 9380's clear_cofactor_bls12381_g2 for every point of the curve; G2ClearCofactor is sound.",
  "every point of the curve, every hint value",
  "For-all over points; adversarial hints.",
  [G+"pairing_bls12381/g2.go:G2JacobianConstScalarMul,G2ConstScalarMulV2,G2ConstScalarMul,G2ClearCofactor", G+"pairing_bls12381/hash2curve.go:ClearCofactor"])
p("C56", "sqrt_ratio and the simplified SWU map follow RFC 9380",
  "With honest hints g2SqrtRatio returns a square root of u/v or of Z*u/v and a flag telling which, and MapElementToCurve2 is satisfiable exactly when Z^2 u^4 + Z u^2 <> 0 and returns the RFC's abscissa and a point of the curve; it is the RFC's point whenever the sign is decided by first coordinates. Not guaranteed (refuted): u = 0 is unsatisfiable, u with first coordinate 0 and odd second coordinate gets the opposite point, a dishonest prover can have a point off the curve (u = 1) and choose the sign whenever the first coordinate of u is below 2^381-p.",
  "every u, v in Fp2, every hint value",
  "About 2^762 inputs, exceptional cases of measure zero, adversarial hints.",
  [G+"pairing_bls12381/hash2curve.go:g2SqrtRatio,MapElementToCurve2,G2Sgn0"])
p("C57", "The isogeny maps the SWU curve to G2's curve",
  "G2Isogeny accepts exactly the image under the 3-isogeny with the constants of RFC 9380 appendix E.3, whatever the prover, and rejects what the isogeny sends to infinity; it is satisfiable on every point of the SWU curve and its result lies on y^2 = x^3 + 4(1+u).",
  "every point, every hint value",
  "Polynomial identity over a 762-bit field.",
  [G+"pairing_bls12381/hash2curve.go:G2Isogeny"])
p("C58", "Encoding and hashing to G2 give the points of RFC 9380",
  "For every 32-element message whose field elements are ordinary for the SWU map (all but a fraction of about 2^-380), EncodeToG2OnJac and HashToG2OnJac run by an honest prover are satisfied exactly by byte messages and the point encode_to_curve / hash_to_curve of RFC 9380 (suite BLS12381G2_XMD:SHA-256_SSWU with the package's DST), on the curve, and satisfiable unless that point is infinity; EncodeToG2 and HashToG2 return the same point when satisfied. Not guaranteed (refuted): for about a quarter (a sixteenth) of the messages another prover can have the negated point accepted.",
  "every message, every native field above 2^70, every hint value",
  "2^256 messages, adversarial hints.",
  [G+"pairing_bls12381/hash2curve.go:EncodeToG2OnJac,HashToG2OnJac,EncodeToG2,HashToG2"])
p("C59", "Hexadecimal digits become numbers",
  "HexToDecimal returns the value of the first realLen digits (modulo the field) for 1 <= realLen <= maxLen and 0 for an empty string; Hex64To2Fr splits a string of up to 64 digits into (value, 0) when it has at most 62 digits and into (rest, first byte) when it has 63 or 64, and is unsatisfiable beyond. Not guaranteed (refuted): HexToDecimal with a length above maxLen + 1 silently truncates to maxLen digits.",
  "every digit string, every declared length, every field",
  "16^64 strings and all field elements as lengths.",
  [G+"rlp/rlp.go:HexToDecimal,Hex64To2Fr"])
p("C60", "Header RLP check with absent trailing fields",
  "If BlkHeaderRlpCheck answers 1 for fieldNum = k the buffer starts with a list header and min(k, n) RLP items, whose lengths and contents are reported, followed only by the header digits of the unused fields, all of them counted by the list header; with k >= n, or when the byte behind the items is below 0x80, it is exactly one RLP list of k items. Lists of the first k fields followed by a byte below 0x80 are accepted. An entry that is not the last and whose minimum is positive and below its maximum must be in use. Not guaranteed (refuted): with unused fields 0xc2 05 85, no RLP list, is accepted, and 0xc1 05 followed by 0x81 is rejected.",
  "every parameter table, every digit string, every number of fields, every field above 2^200",
  "For-all over tables and 16^M buffers; the accepted malformed buffers are what tests miss.",
  [G+"rlp/rlp.go:BlkHeaderRlpCheck"])
p("C61", "Block header gadget reports the header's fields",
  "Whenever CheckEthBlockHash is satisfied, whatever its verdict and the claimed number of fields (which must be at least 15), the reported hash is the digest of the whole buffer and, if the buffer starts with the RLP of a 15- to 17-field Ethereum header, the reported state, transactions and receipts roots, number, number length and time are those of that header. Such a header followed (unless it has 17 fields) by a padding byte below 0x80 is accepted with Output 1.",
  "every buffer, every number of fields, every header, every digest gadget that range-checks its input",
  "For-all over headers and adversarial field counts.",
  [G+"mpt/eth_proof.go:CheckEthBlockHash"])
p("C62", "Account proofs are sound",
  "If CheckEthAccountProof answers 1 with depth at least 2, the node buffers form a hash-linked trie path from stateRoot along addressHash (from digit keyFragmentStarts[0]) to a leaf holding a prefix of addressRlp; if that prefix is the RLP of an account, the reported nonce, balance, storage root and code hash, with their lengths, are that account's. Absence can not be claimed: the zero value is rejected.",
  "every path, key, buffer and hint, every digest gadget that range-checks its input",
  "Adversarial proofs of any shape.",
  [G+"mpt/eth_proof.go:CheckEthAccountProof"])
p("C63", "Storage proofs and the slot value",
  "If CheckEthStorageProof answers 1 with depth at least 2, the buffers form a hash-linked path from storageRoot along slotHash to a leaf of the slot holding a prefix of slotValueRlp, or to a node that passes one of the absence tests. If slotValueRlp starts with the RLP of a 1- to 32-byte string, SlotValue is its value modulo 2^248 and divided by 2^248; the zero value reads 0. Not guaranteed (refuted): a proof cut off at an extension node that agrees with the key is accepted with an arbitrary value, and after the prefix 0x80 the value reported is the following byte.",
  "every path, key, buffer and value",
  "Adversarial proofs of any shape.",
  [G+"mpt/eth_proof.go:CheckEthStorageProof"])
p("C64", "Combined block, account and storage proof",
  "If CheckEthAddressStorageProof answers 1 (depths at least 2) for a buffer starting with the RLP of a header, then blockHash is the digest of that buffer, BlockNumber is the header's number (1 to 4 bytes; others are unsatisfiable), the account path starts at the header's state root, the storage path at the storage root of the account found, and SlotValue is the value encoded in slotValueRlp.",
  "every header, account, slot, path and hint",
  "Adversarial proofs; the composition of three gadgets.",
  [G+"mpt/eth_proof.go:CheckEthAddressStorageProof"])
p("C65", "Digit strings and emulated field elements",
  "When digits of s bits fill the limbs exactly, any element ToElement returns denotes the number written by the digits, whatever the prover's hints, and every number of at most the modulus' bit length is accepted by an honest prover; ToElements needs no hints, succeeds exactly when each group of digits has at most that bit length and returns their elements in order. FromElement with an honest prover yields the big-endian base-2^k digits of the integer its limbs denote and inverts ToElement; with any prover it does so if the digits are range-checked. Not guaranteed (refuted): FromElement's digits are not forced without such checks; ToElement accepts unreduced numbers; ToElements ignores digits beyond a whole limb and denotes another number if s does not divide the limb size.",
  "every native modulus, every emulated field, limb size and digit size, every digit string and every hint",
  "For-all over field sizes and malicious hints; unit tests run the honest prover on one field.",
  ["circuits/gadgets/emulated/element.go:FromElement", "circuits/gadgets/emulated/element.go:ToElement", "circuits/gadgets/emulated/element.go:ToElements"])
p("C66", "String and time conversions of common/utils",
  "Str2Int of a non-empty decimal numeral, with or without sign, is the number whenever it fits in int64, and every malformed string of at most 20 characters gives 0; Str2Uint64 of an unsigned numeral is the smaller of its value and 2^63-1, and of a negative one is the two's complement. TsMilli is the number of milliseconds for every time from 1970 to 2262; TsMilliToTime is exact iff the product with 10^6 is below 2^63, and TsMilli inverts it iff the product is below 2^64; TsSecToTime is exact below 2^63. Not guaranteed (refuted): Str2Uint64 does not read back uint64 values from 2^63 up, errors are indistinguishable from 0, and times before 1970 are read as far in the future.",
  "every string of bytes and every time",
  "The claims range over strings of any length and over all 64-bit values, including the overflow boundaries.",
  ["common/utils/string.go:Str2Int", "common/utils/string.go:Str2Uint64", "common/utils/time.go:TsMilli", "common/utils/time.go:TsMilliToTime", "common/utils/time.go:TsSecToTime"])
p("C67", "What the verifying-key digests cover",
  "The bytes that CalculateAppVkHashFor761 feeds its hasher exist for every key whose numbers fit 48 bytes, are whole 48-byte blocks, and determine the number of public inputs, the coset shift, the KZG key, the permutation commitments and the five selector commitments: two keys with equal input agree on all of these. CalculateAppVkHashFrom761To254 splits a 48-byte digest into two blocks that denote its high and low 192 bits, both below the BN254 modulus, injectively. Not guaranteed (refuted): keys that differ in domain size, generator or commitment (Qcp) data have the same digest; inputs longer than 48 bytes lose bytes.",
  "every verifying key and every digest",
  "Injectivity ranges over all pairs of keys.",
  ["common/utils/plonk_util.go:CalculateAppVkHashFor761", "common/utils/plonk_util.go:CalculateAppVkHashFrom761To254"])
p("C68", "Poseidon hasher histories",
  "After any history of Write, Reset and changes to the numbers written, Sum is the Poseidon digest of the numbers written since the last Reset, in order, with the values they have when Sum is called; nothing before a Reset matters; if the numbers are not changed after being written it is the digest of the values written. Not guaranteed (refuted): Write does not copy its argument.",
  "every sequence of operations, every heap and every hash function",
  "For-all over operation histories and aliasing.",
  ["common/utils/poseidon_bn254.go:Write", "common/utils/poseidon_bn254.go:Reset", "common/utils/poseidon_bn254.go:Sum"])
p("C69", "Memory effects of Pad101Bytes",
  "For every input slice with any spare capacity, Pad101Bytes returns the padded bytes; of the memory that existed it changes only the spare capacity directly after the input, so the input slice and every array other than its own keep their contents, and if capacity equals length nothing that existed changes; the result shares the caller's array exactly when the padding fits the capacity. Not guaranteed (refuted): a slice of the same array placed after the input is overwritten, always, when the padding fits.",
  "every memory, every slice and every growth policy of append",
  "Aliasing depends on capacities that tests do not vary.",
  ["circuits/gadgets/keccak/periphery.go:Pad101Bytes", "common/circuits/keccak.go:Pad101Bytes"])
p("C70", "Ed25519 field arithmetic on 51-bit limbs",
  "In every program over the field package (Zero, One, SetBytes, Add, Subtract, Negate, Multiply, Square, Mult32, Invert, Pow22523, Select, Swap, Absolute, SqrtRatio, nested in any way and applied to any 32-byte inputs) no 64-bit or 128-bit operation overflows in a way that changes the result: the Element obtained denotes the field element of p = 2^255-19 that the same expression denotes mathematically, and its limbs stay below 2^51 + 2^38. The documented bound on inputs (limbs below 2^52) is enough for Add, Multiply, Square and Invert. Not guaranteed (refuted): the documented bound is not enough for the second operand of Subtract or the operand of Negate; no program over the API can produce such an Element.",
  "every expression over the package's operations, of any depth, and every 32-byte input",
  "Carry bugs appear on a vanishing fraction of the 2^255 inputs; the bound on limbs is an invariant over all histories of operations.",
  ["circuits/gadgets/ed25519/test/field/fe.go:Add", "circuits/gadgets/ed25519/test/field/fe.go:Subtract", "circuits/gadgets/ed25519/test/field/fe_generic.go:feMulGeneric", "circuits/gadgets/ed25519/test/field/fe_generic.go:feSquareGeneric", "circuits/gadgets/ed25519/test/field/fe_generic.go:carryPropagateGeneric"])
p("C71", "Ed25519 field encodings",
  "Bytes gives, for any limbs whatever (each a uint64), the 32-byte little-endian encoding of the canonical integer below p; Bytes of two Elements are equal exactly if they denote the same field element, and Equal says so. SetBytes accepts exactly the 32-byte strings and gives the number of the low 255 bits; SetBytes after Bytes gives the same field element, and Bytes after SetBytes the same string exactly for numbers below p. IsNegative is the parity of the canonical integer. Not guaranteed (refuted): encodings are not unique, SetBytes accepts non-canonical ones.",
  "every Element with uint64 limbs and every byte string",
  "The reduction to the canonical integer is wrong only near multiples of p; the claim ranges over all 2^320 limb vectors.",
  ["circuits/gadgets/ed25519/test/field/fe.go:Bytes", "circuits/gadgets/ed25519/test/field/fe.go:SetBytes", "circuits/gadgets/ed25519/test/field/fe.go:Equal", "circuits/gadgets/ed25519/test/field/fe.go:IsNegative", "circuits/gadgets/ed25519/test/field/fe.go:reduce"])
p("C72", "Ed25519 field inverses and square roots",
  "Invert gives 0 for 0 and otherwise the inverse. SqrtRatio(u, v) reports whether some x has v x^2 = u; it returns a non-negative r with v r^2 = u if so, and otherwise, for v not 0, with v r^2 = i u for the fixed square root i of -1; r is 0 if v is 0. A non-negative root is unique.",
  "all field elements u, v in any reduced or unreduced representation the package produces",
  "Correctness rests on p being prime and on exponentiation chains for exponents of 254 bits, for every input.",
  ["circuits/gadgets/ed25519/test/field/fe.go:Invert", "circuits/gadgets/ed25519/test/field/fe.go:Pow22523", "circuits/gadgets/ed25519/test/field/fe.go:SqrtRatio"])
p("C73", "Scalar arithmetic modulo the group order",
  "Every program over the scalar type (NewScalar, SetUniformBytes, SetCanonicalBytes, SetBytesWithClamping, Add, Subtract, Negate, Multiply, MultiplyAdd, nested in any way) yields exactly the canonical 32-byte encoding of the integer the expression denotes, reduced modulo l = 2^252 + 27742317777372353535851937790883648493; no int64 operation overflows. MultiplyAdd is right for all 32-byte arrays, reduced or not.",
  "every expression over the package's operations, of any depth, and every byte input",
  "The reduction works on 21-bit limbs with hand-placed carries; a missing carry or a bound violated by one changes results only for rare inputs among 2^768.",
  ["circuits/gadgets/ed25519/test/scalar.go:scMulAdd", "circuits/gadgets/ed25519/test/scalar.go:scReduce", "circuits/gadgets/ed25519/test/scalar.go:Add", "circuits/gadgets/ed25519/test/scalar.go:Subtract", "circuits/gadgets/ed25519/test/scalar.go:Negate", "circuits/gadgets/ed25519/test/scalar.go:Multiply", "circuits/gadgets/ed25519/test/scalar.go:MultiplyAdd"])
p("C74", "Scalar encodings",
  "SetUniformBytes accepts exactly 64 bytes and gives the number modulo l. SetCanonicalBytes accepts exactly the 32-byte strings whose number is below l, unchanged, so that encodings are unique: two Scalars have equal Bytes (and are Equal) exactly if they are the same residue. SetBytesWithClamping accepts exactly 32 bytes and gives the number with bits 0, 1, 2, 255 cleared and bit 254 set, reduced modulo l. Not guaranteed (refuted, as the comment says): the result of clamping need not be a multiple of 8.",
  "every byte string of any length",
  "The acceptance boundary l-1 / l and the comparison byte by byte concern single values out of 2^256.",
  ["circuits/gadgets/ed25519/test/scalar.go:SetUniformBytes", "circuits/gadgets/ed25519/test/scalar.go:SetCanonicalBytes", "circuits/gadgets/ed25519/test/scalar.go:isReduced", "circuits/gadgets/ed25519/test/scalar.go:SetBytesWithClamping", "circuits/gadgets/ed25519/test/scalar.go:Equal"])
p("C75", "Signed digit forms of scalars",
  "For every Scalar and every width 2..8 nonAdjacentForm gives 256 digits of value equal to the Scalar (base 2), each zero or odd and below 2^(w-1) in absolute value, with at most one nonzero digit among any w consecutive ones; signedRadix16 gives 64 digits from -8 to 7, the last from 0 to 8, with the same value (base 16). They panic exactly for widths outside 2..8 or numbers from 2^255 on, which no Scalar of the package is.",
  "every 32-byte array and every width",
  "Carries across the 64-bit words and at the top of the number depend on long runs of ones in the input.",
  ["circuits/gadgets/ed25519/test/scalar.go:nonAdjacentForm", "circuits/gadgets/ed25519/test/scalar.go:signedRadix16"])
p("C76", "Edwards point arithmetic",
  "Every program over the Point type (identity, generator, SetBytes, Add, Subtract, Negate, ScalarMult, ScalarBaseMult, VarTimeDoubleScalarBaseMult, nested in any way) either yields a Point standing for exactly the curve point the expression means in the group of the twisted Edwards curve, with Z not 0 and T = XY/Z, or reports the error of a SetBytes that decodes no point. Equal decides equality of curve points whatever the representatives, PointAffine.FromExtended gives the affine coordinates, UnpackPoint projective ones, and every operation on the zero value of Point panics; on Points made with the package none does.",
  "every expression over the package's operations, of any depth, every byte input and every scalar",
  "The formulas run through four coordinate systems with five-limb arithmetic whose overflow bounds must hold along every chain of operations; completeness of the addition law holds for all pairs of points, including equal, opposite and small-order ones.",
  ["circuits/gadgets/ed25519/test/edwards25519.go:Add", "circuits/gadgets/ed25519/test/edwards25519.go:Subtract", "circuits/gadgets/ed25519/test/edwards25519.go:Negate", "circuits/gadgets/ed25519/test/edwards25519.go:Equal", "circuits/gadgets/ed25519/test/edwards25519.go:checkInitialized", "circuits/gadgets/ed25519/test/edwards25519.go:FromExtended"])
p("C77", "Edwards point encodings",
  "Bytes of a Point is the little-endian y with the parity of x in the top bit, so two Points have the same bytes exactly if they are the same curve point. SetBytes accepts exactly the 32-byte strings whose low 255 bits are the y of some curve point, gives the point with the parity asked for (for x = 0 the sign bit is ignored), and rejects everything else; Bytes followed by SetBytes gives the point back; SetBytes followed by Bytes gives the string back exactly if it was canonical (y below p, no sign bit for x = 0). Decoding is not unique: some points have several accepted strings.",
  "all byte strings of all lengths and all points made with the package",
  "Whether a root exists depends on the value; the exceptional strings (non-canonical y, x = 0 with the sign bit) are a handful among 2^256.",
  ["circuits/gadgets/ed25519/test/edwards25519.go:Bytes", "circuits/gadgets/ed25519/test/edwards25519.go:bytes", "circuits/gadgets/ed25519/test/edwards25519.go:SetBytes"])
p("C78", "Edwards scalar multiplication",
  "ScalarMult, ScalarBaseMult and VarTimeDoubleScalarBaseMult give the exact integer multiples sP, sB and sP + uB for every 32-byte scalar below 2^255 (reduced or not) and every point, and panic from 2^255; they agree with each other in Equal and Bytes. The base point has order l: ScalarBaseMult of two residues coincides exactly if they are congruent; it maps sums of scalars to sums of points and products to repeated multiplication. The bytes of VarTimeDoubleScalarBaseMult(k, -A, s) are those of R exactly if s = r + k a (mod l), for A = aB and R = rB.",
  "all 32-byte scalars, all points of any order made with the package, all integers a, r, k, s",
  "2^255 scalars times all points; precomputed tables, signed digits and constant-time selection go wrong only for particular digits.",
  ["circuits/gadgets/ed25519/test/scalarmult.go:ScalarMult", "circuits/gadgets/ed25519/test/scalarmult.go:ScalarBaseMult", "circuits/gadgets/ed25519/test/scalarmult.go:VarTimeDoubleScalarBaseMult", "circuits/gadgets/ed25519/test/tables.go:SelectInto", "circuits/gadgets/ed25519/test/tables.go:FromP3"])
p("C79", "DecodeTxLeafRlp decodes every transaction leaf that fits and nothing else",
  "For every leaf node RLP([path, type || RLP(transaction)]) of a transaction with an empty access list whose fields fit the declared sizes and whose whole encoding has at most 2176 bytes, padded with any nibbles, DecodeTxLeafRlp is satisfiable and returns the transaction's chain id, nonce, fees, gas limit, recipient and value as hex digits with their lengths, V as a number, R and S as two limbs and the signed transaction behind the type byte. Conversely, whenever it is satisfiable, the buffer holds two consecutive RLP items behind a header and behind the first byte of the second there are twelve consecutive items behind a header, whose contents are the outputs, or one of the two parses stopped at a byte 00. Not guaranteed (refuted): the type byte is not checked.",
  "every transaction, path, type byte and padding; every nibble buffer of at least 4352 nibbles; every field above 2^248",
  "Twelve variable-length fields are located by chained rotations of the whole buffer; soundness is about adversarial buffers.",
  ["circuits/gadgets/rlp/rlp.go:DecodeTxLeafRlp,TxLeafArrayRlpParams,SignedTxArrayCheckParams,RlpNestArrayCheck"])
p("C80", "The fixed-key-length MPT inclusion gadget accepts every trie path",
  "For every Merkle-Patricia path of 2 up to maxDepth (at most 10) RLP nodes - branches of sixteen children without a value, extensions, all linked by 32-byte digests - from the root to the leaf of a 64-digit key with a nonempty remainder, holding a value that is a prefix of the claimed value, CheckMPTInclusionFixedKeyLength (isStorageProof = false) is satisfiable on the honest inputs (fragment starts, flag lengths, node types, unused layers filled with zero nodes of type 1), outputs 1 and returns the value's length; in particular when the nodes are Keccak-256 hashed and padded as the circuits expect.",
  "every key, every path of branches and extensions up to the compiled depth, every node content, value (66 <= maxValue <= 255 digits), padding and buffer size",
  "Completeness over all tries and all node shapes; a test exercises a few proofs.",
  ["circuits/gadgets/mpt/mpt.go:MptCheck.CheckMPTInclusionFixedKeyLength", "circuits/gadgets/mpt/mpt_util.go", "circuits/gadgets/rlp/util.go:Keccak256AsNibbles"])
p("C81", "Honest account, storage and combined Ethereum proofs are accepted",
  "For every header, account and slot that are on-chain consistent - a header RLP whose hash is the given block hash and whose number has 1 to 4 bytes, a trie path of the account under the header's state root, a trie path of the slot under the account's storage root - CheckEthAccountProof, CheckEthStorageProof and CheckEthAddressStorageProof are satisfiable on the honest inputs, output 1 and return the account's nonce, balance, storage root and code hash, the slot's value and the block number. The storage proof's absence tests (nonexistence in branch, extension and leaf) stay satisfiable on an inclusion proof whose leaf buffer holds at least fifteen padding bytes, each at most 0x80.",
  "every header, account, slot value of 1 to 32 bytes, key, path of branches and extensions up to the compiled depths, node contents, padding and buffer size",
  "Completeness over all accounts, tries and slot values; tests exercise a few recorded proofs.",
  ["circuits/gadgets/mpt/eth_proof.go:CheckEthStorageProof", "circuits/gadgets/mpt/eth_proof.go:CheckEthAccountProof", "circuits/gadgets/mpt/eth_proof.go:CheckEthAddressStorageProof", "circuits/gadgets/mpt/mpt.go:MptCheck.CheckMPTInclusionFixedKeyLength"])
p("C82", "Honest proofs of absent slots are accepted; the absence test constrains nothing about the value and accepts proofs of present slots cut short",
  "For every walk of linked trie nodes below the storage root that ends in a padded leaf of another key, CheckEthStorageProof with the claimed value 0x80 (zero-padded) and the leaf's own flag length is satisfiable, outputs 1 and returns slot value 0. For every walk of n nodes followed by a branch that has no child at digit number n of the key (below branches only: the key's next digit, so the key is absent), CheckEthStorageProof is satisfiable and outputs 1 for EVERY claimed value of 1 to 32 bytes, which it returns as the slot's value: the absence test does not look at the value. The same holds for walks ending in a padded extension whose digits are not all that is left of the key, even if they are a prefix of it; so for every key that IS in the trie below an extension other than the root, cutting its proof at that extension makes CheckEthStorageProof accept every claimed value. Likewise for every key in the trie whose path goes through a branch without a child at digit number n (n the number of nodes above it): below an extension that is not the digit the branch is read at. CheckEthAddressStorageProof inherits this: with an honest header and account proof it accepts whatever its storage part accepts.",
  "every key, every walk of nodes up to the compiled depth, node contents, padding, buffer size and claimed value",
  "Ranges over all tries and all claimed values; tests exercise a few recorded proofs.",
  ["circuits/gadgets/mpt/eth_proof.go:CheckEthStorageProof", "circuits/gadgets/mpt/mpt.go:MptCheck.CheckMPTInclusionFixedKeyLength", "circuits/gadgets/mpt/mpt_util.go:CheckBranchForNonExistence"])
if __name__ == "__main__":
    out = os.path.join(os.path.dirname(os.path.abspath(__file__)), "..", "properties.jsonl")
    with open(out, "w") as f:
        for r in P: f.write(json.dumps(r) + "\n")
    print(len(P))