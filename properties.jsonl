{"id": "C01", "title": "Multiplex selects exactly the requested column or is unsatisfiable", "statement": "For every table of wIn rows of nIn field elements and every selector, mux.Multiplex (and rlp.Multiplexer) has a satisfying assignment iff the selector is one of 0..nIn-1, and then row i of the output is the selector-th entry of row i of the table.", "quantifier": "every field with modulus larger than nIn, every nIn, wIn, every table content, every selector field element (including ones >= nIn)", "why_tests_cant": "A test tries a handful of selectors; soundness is about all ~2^254 selector values and every table size.", "anchors": ["circuits/gadgets/mux/multiplexer.go:Multiplex,decode,dotProduct,isEqual", "circuits/gadgets/rlp/util.go:Multiplexer,Decoder,EscalarProduct"]}
{"id": "C02", "title": "Equality and comparison gadgets return exact 0/1 answers", "statement": "rlp.Equal(a,b) is 1 iff a = b and otherwise 0; rlp.LessThan(a,b) is 1 iff the canonical integer of a is smaller than that of b and otherwise 0.", "quantifier": "every pair of field elements", "why_tests_cant": "Wrap-around near the modulus cannot be enumerated.", "anchors": ["circuits/gadgets/rlp/util.go:Equal,LessThan"]}
{"id": "C03", "title": "ArrayEqual decides prefix equality", "statement": "rlp.ArrayEqual(a,b,maxLength,targetLength) is satisfiable iff maxLength fits both arrays and 0 <= targetLength <= maxLength, and returns 1 iff the first targetLength entries of a and b agree, else 0.", "quantifier": "every pair of arrays, every maxLength and every targetLength field element", "why_tests_cant": "The gadget counts matches instead of and-ing them; that the count trick never confuses different prefixes has to hold for all arrays.", "anchors": ["circuits/gadgets/rlp/util.go:ArrayEqual"]}
{"id": "C04", "title": "SubArray returns the requested slice and rejects bad ranges", "statement": "SubArray(in,from,end) is unsatisfiable unless from <= end <= nIn and end-from <= maxSelect; when satisfiable the reported length is end-from and output k is in[from+k] for every k < end-from (beyond that it wraps cyclically).", "quantifier": "every input array, every nIn < 2^nInBits, every maxSelect <= nIn, every from/end field element", "why_tests_cant": "The barrel shifter mixes all positions; off-by-one errors show up only at particular bit patterns of from.", "anchors": ["circuits/gadgets/rlp/util.go:SubArray.SubArray,NewSubArray,LogCeil"]}
{"id": "C05", "title": "ShiftLeft rotates left by the requested amount", "statement": "rlp.ShiftLeft with shift in [minShift, maxShift] returns the input array rotated left by shift positions; amounts whose offset from minShift does not fit the LogCeil bit width are rejected.", "quantifier": "every array, every length, every min/max shift and every shift value in range", "why_tests_cant": "All shift amounts and lengths, including the modulo wrap-around of negative shifts.", "anchors": ["circuits/gadgets/rlp/rlp.go:ShiftLeft"]}
{"id": "C06", "title": "ShiftRight moves the array right filling with zeros", "statement": "rlp.ShiftRight(in,shift) returns an array of the same length whose entry i is in[i-shift] for i >= shift and 0 below, for every shift that fits LogCeil(maxIn) bits; larger shifts are rejected.", "quantifier": "every array, every length, every shift field element", "why_tests_cant": "All shift amounts and lengths.", "anchors": ["circuits/gadgets/rlp/rlp.go:ShiftRight"]}
{"id": "C07", "title": "RLP prefix decoders agree with the RLP specification", "statement": "RlpFieldPrefix/RlpArrayPrefix classify the first byte of an item as the RLP specification does (literal byte, short/long string, short/long list), and the announced length equals the specification's. The validity flag of RlpFieldPrefix is 1 for every byte except 0xc0, where it is 2 (so the stronger reading 'all flags are boolean' is refuted).", "quantifier": "every pair of nibbles (all 256 first bytes)", "why_tests_cant": "Users rely on the flags being boolean for the sum-of-flags tricks of the callers; tests sample a few bytes.", "anchors": ["circuits/gadgets/rlp/rlp.go:RlpFieldPrefix,RlpArrayPrefix"]}
{"id": "C08", "title": "RlpArrayCheck accepts exactly well-formed RLP lists within the declared bounds", "statement": "If RlpArrayCheck returns 1 for a nibble string and the fixed-size fields have their declared size then the string starts with the returned fields, in order, with the returned lengths, and, unless one of the fields is the empty list 0xc0, header and fields form one well-formed RLP list of the returned total length. Every well-formed list that satisfies the declared bounds, has no 0xc0 field and whose length prefixes fit the shifters is accepted. Each restriction is necessary: the unrestricted claim is refuted in each of the excluded cases.", "quantifier": "every nibble string, every number of fields, every declared min/max field length and prefix table", "why_tests_cant": "Soundness must hold for adversarial witnesses, i.e. all inputs.", "anchors": ["circuits/gadgets/rlp/rlp.go:ArrayCheck.RlpArrayCheck,NewArrayCheck"]}
{"id": "C09", "title": "RlpNestArrayCheck verifies the total list length", "statement": "If RlpNestArrayCheck accepts then the fields are consecutive RLP items and, unless one of them is the empty list or the parse stopped at a byte 00, the announced list payload length equals the sum of the encoded lengths of the returned fields. Conversely, on every well-formed list whose members fit the declared bounds and shifters and are not the byte 00 it is satisfiable, returns the members' contents and lengths and the total length, and reports success exactly if at most one member is the empty list. Refuted: with an empty list among the fields the announced length is not verified; a byte 00 is read twice.", "quantifier": "every nibble string, every field table", "why_tests_cant": "Soundness for adversarial witnesses.", "anchors": ["circuits/gadgets/rlp/rlp.go:ArrayCheck.RlpNestArrayCheck"]}
{"id": "C10", "title": "MPT leaf check binds the value to the key", "statement": "If CheckLeaf reports full success for a leaf node then the leaf's hex-prefix encoded key remainder equals the key nibbles from keyFrom on (with parity/terminator flag correct) and its value field equals the claimed value. Conversely every RLP leaf node that fits the buffers, whose path starts the key part and whose value starts the claimed value, gets full success.", "quantifier": "every leaf nibble string, key, key length, start offset, claimed value", "why_tests_cant": "Adversarial witnesses.", "anchors": ["circuits/gadgets/mpt/mpt_util.go:MptCheck.CheckLeaf", "circuits/gadgets/mpt/mpt.go"]}
{"id": "C11", "title": "MPT extension check binds the shared nibbles and child hash", "statement": "If CheckExtension reports full success then the extension's path equals the key nibbles in [keyFrom, keyFrom+n) and its child reference equals the claimed child hash. Conversely every RLP extension node that fits, with that path and reference, gets full success.", "quantifier": "every extension node nibble string, key and offsets", "why_tests_cant": "Adversarial witnesses.", "anchors": ["circuits/gadgets/mpt/mpt_util.go:MptCheck.CheckExtension"]}
{"id": "C12", "title": "MPT branch check binds the child selected by the key nibble", "statement": "If CheckBranch reports full success then the node is a 17-item RLP list and the child at the given key nibble equals the claimed child reference. Conversely every branch node of sixteen children of at most 32 bytes without a value gets full success for the selected child.", "quantifier": "every branch node nibble string, nibble and claimed child", "why_tests_cant": "Adversarial witnesses.", "anchors": ["circuits/gadgets/mpt/mpt_util.go:MptCheck.CheckBranch"]}
{"id": "C13", "title": "Fixed-key-length MPT inclusion proof forces a connected path of hashed nodes", "statement": "CheckMPTInclusionFixedKeyLength (isStorageProof = false) returns 1 for depth >= 2 only if the first node hashes to the root, every node is a branch or extension whose child reference along the key is the reference of the next node, the key digits from keyFragmentStarts[0] on are consumed exactly and the last node is the leaf of the key with the claimed value (or a leaf of another key, for the empty value). Depth 1 and a nonzero keyFragmentStarts[0] are accepted without such a path (refutations).", "quantifier": "every depth, every vector of per-layer check results and witnesses", "why_tests_cant": "The code sums flags and compares the total with 4*depth+2; that no combination of partial successes reaches the total is a for-all statement.", "anchors": ["circuits/gadgets/mpt/mpt.go:CheckMPTInclusionFixedKeyLength"]}
{"id": "C14", "title": "Score and path rule of the no-branch-termination variant", "statement": "CheckMPTInclusionNoBranchTermination answers 1 exactly when its score is one point short of the maximum, so it rejects every fully valid proof and accepts a wrong root hash; its path rule forces extensions, not branches, to consume a single digit, unlike the fixed-key-length variant. (The intended reading - same rule as the fixed variant - is refuted.)", "quantifier": "every node type flag and every key fragment length", "why_tests_cant": "The two variants share tests only for single-nibble paths.", "anchors": ["circuits/gadgets/mpt/mpt.go:CheckMPTInclusionNoBranchTermination"]}
{"id": "C15", "title": "Pad101Bytes is the Keccak multi-rate padding", "statement": "keccak.Pad101Bytes(m) returns m followed by the Keccak pad10*1 with domain byte 0x01, its length is the smallest multiple of 136 larger than |m|, and m can be recovered from it (padding is injective).", "quantifier": "every byte string of every length", "why_tests_cant": "The one-byte case and the exact-multiple case are two of 136 residues; tests hit a few lengths.", "anchors": ["circuits/gadgets/keccak/pad.go:Pad101Bytes"]}
{"id": "C16", "title": "Bit-level padding and round index agree with the byte-level padding", "statement": "For a message of n bytes, Pad101Bits and PadBits101 give the bit expansion of Pad101Bytes of that message (followed by zeros), and GetRoundIndex(8n)+1 is the number of 136-byte blocks of the padded message, exactly when n mod 136 is not 135; for n mod 136 = 135 both are wrong (one block too many), so the digest computed from them is not Keccak-256 of the message. Pad101Bits is satisfiable exactly for in-range digits and lengths between its bounds that are whole bytes.", "quantifier": "every message length", "why_tests_cant": "Only one residue class modulo 136 is wrong.", "anchors": ["circuits/gadgets/keccak/pad.go:Pad101Bits,PadBits101,GetRoundIndex"]}
{"id": "C17", "title": "The in-circuit permutation is Keccak-f[1600]", "statement": "keccakf.Permute maps every 25-lane state to the Keccak-f[1600] permutation of FIPS 202 of that state.", "quantifier": "every state of 25 64-bit words", "why_tests_cant": "2^1600 states.", "anchors": ["circuits/gadgets/keccak/keccakf/keccakf.go:permute", "circuits/gadgets/keccak/keccakf/uint64api.go"]}
{"id": "C18", "title": "The block gadget returns the sponge state after roundIndex+1 blocks", "statement": "keccak.Keccak256(blocks, roundIndex) returns the first four lanes of the sponge after absorbing blocks[0..roundIndex]; blocks after roundIndex have no influence; roundIndex out of range is unsatisfiable.", "quantifier": "every block contents and every roundIndex field element", "why_tests_cant": "Independence from trailing blocks is a for-all statement.", "anchors": ["circuits/gadgets/keccak/keccak256.go:Keccak256", "circuits/gadgets/keccak/keccak256_bits.go"]}
{"id": "C19", "title": "Byte/nibble/word packing conventions round-trip", "statement": "Bytes2Blocks, byte2Bits, NibblesToU64Array and RecomposeHexToKeccakU64s put byte k of the message at bits 8(k mod 8).. of little-endian word k div 8, so that unpacking the words restores the bytes.", "quantifier": "every byte string", "why_tests_cant": "Endianness errors are invisible on symmetric data.", "anchors": ["circuits/gadgets/keccak/periphery.go"]}
{"id": "C20", "title": "SHA-256 gadget is insensitive to how the message is split into writes", "statement": "For the sha256 and sha512 gadgets, any sequence of Write calls whose concatenation is m leaves the same digest as a single Write(m); Sum does not change the state, so Sum;Sum and Write;Sum;Write;Sum behave as on the concatenation; Reset forgets all history.", "quantifier": "every sequence of Write/Sum/Reset calls (histories of any length)", "why_tests_cant": "Interleavings with the 64-byte buffer are unbounded.", "anchors": ["circuits/gadgets/sha256/sha256.go", "circuits/gadgets/sha512/sha512.go"]}
{"id": "C21", "title": "SHA-256/512 gadgets compute FIPS 180-4", "statement": "sha256.Sum / sha512.Sum after writing m is the FIPS 180-4 SHA-256/SHA-512 digest of m for every message m.", "quantifier": "every message of every length (below 2^61 bytes)", "why_tests_cant": "Padding boundary cases at all residues; compression for all words.", "anchors": ["circuits/gadgets/sha256/sha256.go", "circuits/gadgets/sha256/sha256block.go", "circuits/gadgets/sha512/sha512.go", "circuits/gadgets/sha512/sha512block.go"]}
{"id": "C22", "title": "Multi-operand word addition never loses or fabricates carries", "statement": "The sha gadgets' add(in...) returns the sum of its operands modulo 2^32 (2^64) and is satisfiable for every tuple of word operands used by the code.", "quantifier": "every tuple of 32-bit (64-bit) words, every arity used", "why_tests_cant": "Carry widths: the worst case is a single point among 2^160 inputs.", "anchors": ["circuits/gadgets/sha256/uint32api.go:add", "circuits/gadgets/sha512/uint64api.go:add"]}
{"id": "C23", "title": "Merge inverts Split for every prover; Split is the digit decomposition for an honest one", "statement": "For every hint output that satisfies the constraints, Merge of the limbs returned by limbs.API.Split is the value; the honest hint returns the base-2^k digits; and the limbs are unique as soon as they are range-checked. Split itself does not range-check its limbs, so uniqueness without the check is refuted by a concrete second witness.", "quantifier": "every value, limb size and limb count, and every witness a malicious prover may choose for the hint outputs", "why_tests_cant": "Hint outputs are chosen by the prover; only a proof can range over them.", "anchors": ["circuits/gadgets/limbs/limbapi.go:Split,Merge", "circuits/gadgets/limbs/utils.go"]}
{"id": "C24", "title": "LrotMerge is bit rotation", "statement": "limbs LrotMerge(limbs, r) equals the left rotation by r bits of the merged word for the honest hint, and for every prover when r is a multiple of the limb size; for other amounts a dishonest hint output is accepted (refuted), and amounts beyond the word are rejected.", "quantifier": "every limb vector with in-range limbs, every rotation amount", "why_tests_cant": "All words and rotation amounts.", "anchors": ["circuits/gadgets/limbs/limbapi.go:LrotMerge"]}
{"id": "C25", "title": "Slice helpers are involutions / permutations that preserve content", "statement": "Flip, FlipSubSlice, FlipByGroups and Reverse reverse exactly the documented ranges, are involutions, and panic exactly on the documented lengths; with distinct keys, Partition puts into the group of a key, in order, exactly the values its predicate accepts, so that the groups are a permutation of the values when each value matches one key (with repeated keys values are duplicated: refuted); Contains decides membership.", "quantifier": "every slice, every index range, every key function", "why_tests_cant": "For-all over slices.", "anchors": ["circuits/gadgets/utils/slice.go", "common/utils/utils.go", "common/utils/binary.go"]}
{"id": "C26", "title": "Hex codec round trip and malformed input", "statement": "Hex2Bytes(Bytes2Hex(b)) = b for every b, with or without 0x prefix; odd-length input is treated as left-padded with one zero digit; Hex2Addr/Hex2Hash keep the last 20/32 bytes and left-pad with zeros; a malformed digit silently truncates the result; IsValidTxHash accepts exactly the strings of 64 hex digits with an optional 0x or 0X prefix; Hex2BigInt is the base-16 value.", "quantifier": "every byte string and every character string", "why_tests_cant": "For-all over strings, including malformed ones.", "anchors": ["common/utils/hex.go"]}
{"id": "C27", "title": "Bit/field packing round-trips", "statement": "Splitting a 32-byte word at any bit between 3 and 253 and recomposing it, in or out of circuit, gives the word back (outside of that range the word is lost: refuted); PackBitsToInt is injective on bit strings of equal length and agrees with PackBitsToFr; DecomposeBits(x,n) are the n bits of x and panics if x has more; the nibble recompositions give the hex digits from the left.", "quantifier": "every 32-byte word, bit string, and width", "why_tests_cant": "For-all over 2^256 words.", "anchors": ["common/utils/compose.go", "common/utils/binary.go", "common/utils/poseidon_bn254.go"]}
{"id": "C28", "title": "BitsToFrBigInt yields the bits' value in the field", "statement": "The result of BitsToFrBigInt is congruent to the bits' value, lies between 0 and the modulus inclusive, and is exact and canonical for up to 253 bits (it is not canonical for the bits of the modulus itself: refuted).", "quantifier": "every bit string of up to 254 bits", "why_tests_cant": "The failing value is a single point in 2^254.", "anchors": ["common/utils/compose.go:BitsToFrBigInt"]}
{"id": "C29", "title": "Chain start-block table is consistent", "statement": "GetStartBlockInfo returns InitialIndex = floor(BlockNumber / 128) for every chain id and zeros for an unknown one; BlockNumber = 128 * InitialIndex holds for chains 42161 and 10 (and is refuted for 97 and 56).", "quantifier": "every chain id (64-bit)", "why_tests_cant": "Default branch ranges over all ids; arithmetic relation is asserted nowhere.", "anchors": ["common/utils/const.go:GetStartBlockInfo"]}
{"id": "C30", "title": "Chunk-proof ABI encoding is faithful", "statement": "EncodeABI of a proof is the concatenation of 32-byte big-endian words, one per field in order, and is injective, for coordinates of at most 32 bytes and block numbers below 2^63; a coordinate of more than 32 bytes panics; a block number n >= 2^63 is encoded as 2^64 - n (so faithfulness for all uint64 values is refuted).", "quantifier": "every field value including all uint64 values", "why_tests_cant": "Only values >= 2^63 are mis-encoded.", "anchors": ["common/proof/types.go:ChunkProof.EncodeABI"]}
{"id": "C31", "title": "Query ids encode their parameters injectively", "statement": "The byte strings hashed for receipt, storage and transaction query ids have fixed size and place every parameter at a fixed offset with fixed width, so two different well-formed parameter tuples of the same kind have different pre-images (equal ids exhibit a Keccak collision); receipts with more than the maximal number of log fields are rejected. Not guaranteed (refuted by examples): negative numeric texts alias their absolute value, and pre-images of different kinds may coincide.", "quantifier": "every tuple of query parameters", "why_tests_cant": "Injectivity is a for-all-pairs statement.", "anchors": ["common/proof/query_id.go"]}
{"id": "C32", "title": "Sender recovery passes the right recovery id", "statement": "RecoverTransactionSignerAddress recovers from the EIP-155 signing hash with recovery id v-35-2*chainId for legacy transactions (every chain id), from the EIP-1559 signing hash with recovery id v for dynamic-fee transactions, and errors on every other type; signature values above 32 bytes and unprotected (v = 27/28) transactions never yield an address. The signed payload binds the transaction fields. v is not validated: a v congruent to a valid one modulo 2^64 is accepted (refuted by example).", "quantifier": "every v, chain id and transaction type", "why_tests_cant": "64-bit wrap-around.", "anchors": ["common/proof/util.go:RecoverTransactionSignerAddress"]}
{"id": "C33", "title": "S3 object keys are unambiguous", "statement": "Two different (prefix, block number) pairs never yield the same object key; the sub-proof paths of a batch are listed in the order of the batch.", "quantifier": "every pair of names", "why_tests_cant": "For-all-pairs.", "anchors": ["common/s3api/utils.go"]}
{"id": "C34", "title": "MiMC Merkle path gadgets recompute the root of the specified tree and are binding", "statement": "The Merkle path gadgets are satisfiable iff every direction is 0 or 1 and the path fits, and then return the root obtained by hashing along the path with the sibling on the side told by the direction; two accepted leaves with the same directions and root are equal unless two different inputs among those actually hashed collide; for a full tree of 2^d leaves the path of leaf i recomputes the tree root. The whole-tree roots (emulated MiMC, fabric MiMC, Keccak) equal the specified binary tree root for exactly 2^d leaves and fail for every other count, and two equal-sized leaf lists with the same root are equal unless the hashed inputs collide.", "quantifier": "every tree depth, leaf, path and index; every hash function", "why_tests_cant": "Binding is a for-all-pairs statement.", "anchors": ["circuits/gadgets/merkle/mimc_root.go", "circuits/gadgets/merkle/emulated_mimc_root.go", "circuits/gadgets/smt/smt.go", "circuits/fabric/smt/utils.go"]}
{"id": "C35", "title": "Sparse-Merkle inclusion gadget is sound", "statement": "The sparse-Merkle inclusion gadget is satisfiable only with 0/1 directions and returns 1 iff hashing the leaf up along the given directions yields the given root, else 0; two different leaves accepted for the same directions and root exhibit a hash collision among the hashed inputs; the configured maximum depth has no effect on the answer.", "quantifier": "every depth, sibling vector, bit vector (boolean or not), leaf and root", "why_tests_cant": "Adversarial witness.", "anchors": ["circuits/gadgets/smt/smt.go"]}
{"id": "C36", "title": "Emulated MiMC hasher is history independent after Hash", "statement": "Whatever calls came before, Hash(xs...) returns the Miyaguchi-Preneel hash of exactly xs, and Write calls accumulate: Reset, Write.. , Sum hashes the concatenation of the written elements. A second Sum without Reset absorbs the same elements again, so Sum is NOT idempotent (refuted by example).", "quantifier": "every history of Write/Sum/Reset/Hash calls", "why_tests_cant": "Histories are unbounded.", "anchors": ["circuits/gadgets/emulated/mimc/mimc.go", "circuits/gadgets/emulated/mimc/encrypt.go"]}
{"id": "C37", "title": "Transaction/receipt index key is the RLP of the index", "statement": "CalTxOrReceiptIndexRlp(index) returns the nibbles of RLP(index) (padded, with its length) for every index below 2^16, and is unsatisfiable for larger ones; different indices give different keys.", "quantifier": "every index field element", "why_tests_cant": "65536 accepted values and 2^254 rejected ones.", "anchors": ["circuits/gadgets/index-proof/core/circuit_index_mpt.go"]}
{"id": "C38", "title": "Ed25519 point formulas implement the edwards25519 group law", "statement": "The curve constants of the ed25519 gadget are those of RFC 8032 (q = 2^255-19 and L prime, d = -121665/121666 a non-square, base point of order exactly L). For every pair of points on the curve the constraints of Add determine exactly the affine twisted Edwards sum (no exceptional pair, no freedom left by the division hints), likewise Double, Neg, AssertIsOnCurve and AssertQ; the sum is again on the curve and the operations form an abelian group. Off the curve a doubling is not determined (refuted).", "quantifier": "every pair (triple) of curve points and every hint value", "why_tests_cant": "For-all over 2^510 pairs and all prover-chosen quotients.", "anchors": ["circuits/gadgets/ed25519/point.go:add,double,neg,assertIsOnCurve,assertQ", "circuits/gadgets/ed25519/twistededwards.go:newEdCurve", "circuits/gadgets/ed25519/params.go"]}
{"id": "C39", "title": "Ed25519 scalar multiplication computes the scalar multiple", "statement": "ScalarMul constrains its result to [s]P and DoubleBaseScalarMul to [s1]P1+[s2]P2, for every scalar of the native field and every representative of the emulated scalar below the native modulus; a native field wider than 255 bits is rejected at construction.", "quantifier": "every scalar, every curve point, every native field", "why_tests_cant": "Exponentially many scalars.", "anchors": ["circuits/gadgets/ed25519/point.go:scalarMul,doubleBaseScalarMul", "circuits/gadgets/ed25519/curve.go:ScalarMul,DoubleBaseScalarMul"]}
{"id": "C40", "title": "Extension-tower arithmetic is the ring arithmetic of Fp2/Fp6/Fp12", "statement": "E2/E6/E12 Add, Sub, Mul, Square, Conjugate, MulByNonResidue, Inverse and the sparse multiplications equal the operations of Fp[u]/(u^2+1), Fp2[v]/(v^3-(1+u)), Fp6[w]/(w^2-v).", "quantifier": "every tuple of field elements", "why_tests_cant": "Polynomial identities over infinite domains.", "anchors": ["circuits/gadgets/pairing_bls12381/tower.go"]}
{"id": "C41", "title": "Hash-to-curve sign function follows RFC 9380", "statement": "g2Sgn0 returns the RFC 9380 sgn0 of every Fp2 element. True with honest hints unless the real part is zero and the imaginary part odd (refuted there), and for any prover when the real part is at least 2^381-p; below that bound a prover can have either sign (refuted).", "quantifier": "every pair of base-field elements", "why_tests_cant": "Fails only on a measure-zero set (real part zero).", "anchors": ["circuits/gadgets/pairing_bls12381/hash2curve.go:g2Sgn0"]}
{"id": "C42", "title": "Bit-to-byte conversion helpers group bits in the documented order", "statement": "conv.Bits2Bytes / Bits2Bytes2 / Bits2BytesArray / Bits2Uint128s give the numbers whose bits are the consecutive groups of 8/128 bits in the documented order, panic on a partial group and reject non-bits; Bits2Nibbles fails on every non-empty input (refuted).", "quantifier": "every bit vector whose length is a multiple of the group size", "why_tests_cant": "For-all over bit vectors.", "anchors": ["circuits/gadgets/conv/bits.go"]}
{"id": "C43", "title": "Header chain encoding rejects inconsistent input", "statement": "EncodeHeaders returns, for every header with admitted field widths and at most 32 bytes of extra data, exactly 5*1088 bits and the round index for which the Keccak circuit computes Keccak-256 of the header's RLP; the encoding is injective; a too wide or negative numeric field is an error; a header without base fee panics; over-long extra data is NOT rejected and gives more bits (refuted by example). GenHeaders returns max(1,count) headers with consecutive numbers, each on top of its predecessor's hash, all accepted by EncodeHeaders. NewHash splits 32 bytes into two 128-bit halves injectively; MimcHashBytes32 is collision-free up to MiMC.", "quantifier": "every list of headers", "why_tests_cant": "For-all over header lists.", "anchors": ["circuits/fabric/smt/utils.go"]}
{"id": "C44", "title": "Contract calldata codec", "statement": "EncodeCalldata returns the selector followed by the packed arguments and, whatever calls happened before or after, neither changes the selectors nor earlier results; decoding the bytes after the selector gives back the arguments; unknown methods, a wrong number of targets and non-pointer targets are errors. Not guaranteed (refuted by examples): DecodeCalldata of the full EncodeCalldata result decodes a wrong value without error, and the result for a method without arguments aliases the ABI's selector.", "quantifier": "every method name, every argument list, every history of calls", "why_tests_cant": "Aliasing depends on call history.", "anchors": ["common/utils/contract_codec.go"]}
{"id": "C45", "title": "Transaction leaf split", "statement": "For every proof the transaction/receipt proof generator returns, leafRlpPrefix ++ leaf value is the last proof node; for an index stored in the trie that node is the leaf holding its value, the first node is the root, and inner nodes below 32 bytes are omitted; a header root mismatch is an error; an empty block panics; an index absent from the trie is NOT rejected (refuted by example).", "quantifier": "every proof node and key", "why_tests_cant": "For-all over proofs.", "anchors": ["common/proof/tx_merkel_proof.go"]}
{"id": "C46", "title": "Storage-proof variant of the MPT inclusion check", "statement": "CheckMPTInclusionFixedKeyLength with isStorageProof = true returns 1 for depth >= 2 only if the nodes form a connected hashed path along the key from keyFragmentStarts[0] and the last node is the leaf of the key, or a leaf of another key (empty value), or a well-formed 17-item branch without child at key digit depth-1, or an extension whose path differs from the remaining key.", "quantifier": "every depth, node list, key, value and witness", "why_tests_cant": "Adversarial witnesses.", "anchors": ["circuits/gadgets/mpt/mpt.go:CheckMPTInclusionFixedKeyLength", "circuits/gadgets/mpt/mpt_util.go:CheckBranchForNonExistence,checkExtensionNodeNonExistence"]}
{"id": "C47", "title": "Ed25519 signature verification", "statement": "For a public key and an R on the curve, Verify is satisfiable exactly when the two key variables hold the RFC 8032 encoding of A, the five message variables are in range and 8[S]B = 8R + 8[h]A for a challenge h congruent modulo L to the little-endian SHA-512 of enc(R) || enc(A) || message; the key bytes determine A up to sign (completely for canonical x). The intended unforgeability fails: R is never asserted to be on the curve and an explicit forgery for the RFC 8032 test key is accepted (refuted); S is not range checked, so S+L is accepted with S (refuted).", "quantifier": "every native field of 254-255 bits, key, signature, message and every hint value", "why_tests_cant": "Adversarial witnesses; for-all over messages, keys and signatures.", "anchors": ["circuits/gadgets/ed25519/ed25519.go:Verify,bytes,copyFieldElement,recomposeMsg,recomposePbKey"]}
{"id": "C48", "title": "Frobenius maps of Fp12", "statement": "Frobenius(x) = x^p, FrobeniusSquare(x) = x^(p^2), Conjugate(x) = x^(p^6) for every x of Fp12, Conjugate is the p-th power on Fp2. FrobeniusCube is NOT x^(p^3): it equals Frobenius (refuted by the element w).", "quantifier": "every element of Fp12", "why_tests_cant": "The coefficient tables are ten-odd 381-bit constants; an error in one shows only on inputs using that coefficient.", "anchors": ["circuits/gadgets/pairing_bls12381/tower.go:Frobenius,FrobeniusSquare,FrobeniusCube,Conjugate"]}
{"id": "C49", "title": "Cyclotomic arithmetic and exponentiation by the curve parameter", "statement": "On the cyclotomic subgroup (x^(p^4-p^2+1) = 1) Conjugate is the inverse, CyclotomicSquare squares, n compressed squarings followed by DecompressKarabina give x^(2^n), ExptHalf gives x^(x0/2) and Expt x^x0, for every satisfying assignment of the hints; assignments exist exactly when the coefficient C1.B0 of the decompressed powers is non-zero, so the identity is rejected.", "quantifier": "every element of the cyclotomic subgroup, every hint value", "why_tests_cant": "A subgroup of about 2^1524 elements and adversarial hints.", "anchors": ["circuits/gadgets/pairing_bls12381/tower.go:CyclotomicSquare,CyclotomicSquareCompressed,DecompressKarabina,NSquare,NSquareCompressed,ExptHalf,Expt"]}
{"id": "C50", "title": "Final exponentiation", "statement": "Every result FinalExponentiation(e) can be made to return is e^(3(p^12-1)/r), of order dividing r; a result exists exactly when e <> 0 and the five cyclotomic exponentiations are decompressible; no result exists for any e in Fp6 (0 and 1 included).", "quantifier": "every element of Fp12, every hint value", "why_tests_cant": "Adversarial hints; 2^4572 elements.", "anchors": ["circuits/gadgets/pairing_bls12381/pairing.go:FinalExponentiation"]}
{"id": "C51", "title": "Miller loop and pairing", "statement": "For points Q_k of the twist whose Miller values exist, MillerLoop has exactly one result, the conjugate of the product of the values of Miller's algorithm (affine chord-and-tangent over Fp12) times a factor killed by the final exponentiation; every result of Pair is z with z * (prod f_k)^(3(p^12-1)/r) = 1; empty or unequal slices are an error. Pair([P,-P],[Q,Q]), whose pairing is 1, has no satisfying assignment.", "quantifier": "every number of pairs, every points P_k and Q_k, every hint value", "why_tests_cant": "For-all over lists of points and prover-chosen quotients.", "anchors": ["circuits/gadgets/pairing_bls12381/pairing.go:MillerLoop,Pair,DoubleStep,AddStep,Mul014By014,MulBy014"]}
{"id": "C52", "title": "HashToField follows RFC 9380", "statement": "For a 32-element message the HashToField circuit with count = 2n (n = 2 for HashToG2, 1 for EncodeToG2) is satisfiable exactly when the message consists of bytes, and returns hash_to_field of RFC 9380 (expand_message_xmd, SHA-256, the library's DST). Beyond n = 63, where the RFC aborts, it does not abort.", "quantifier": "every native field above 2^70, every message, every count", "why_tests_cant": "For-all over 2^256 messages and all fields.", "anchors": ["circuits/gadgets/pairing_bls12381/hash2curve.go:HashToField,ExpandMsgXmd"]}
{"id": "C53", "title": "Comparisons of Fp2 elements", "statement": "With honest hints E2NotZero, E2NotEqual and E2NotOne are exact; whatever the hints the answer 0 is right. Not guaranteed (refuted): a prover can have 'not zero' and 'not one' answered 1 for every element, and 'not equal' for equal elements exactly when a coordinate is below 2^381-p.", "quantifier": "every pair of Fp2 elements, every hint value", "why_tests_cant": "Adversarial hints.", "anchors": ["circuits/gadgets/pairing_bls12381/hash2curve.go:E2NotZero,E2NotEqual,E2NotOne,G1NotZero,G1NotEqual,G1NotEqualOne"]}
{"id": "C54", "title": "G2 point operations compute the group law", "statement": "Jacobian double, neg, add, sub, Psi and affine add, sub, double, DoubleAndAdd, neg compute the chord-and-tangent group law of y^2 = x^3 + 4(1+u) (psi with the RFC 9380 constants). Jacobian add/sub are total and exact with honest hints for all points including infinity, equal and opposite ones; for any prover when the operands are finite and distinct; infinity + G can be accepted as infinity (refuted). Affine operations accept exactly the sum and reject equal abscissae. Jacobian-to-affine accepts exactly the affine coordinates and rejects infinity; affine-to-Jacobian is exact on the curve.", "quantifier": "every point of the curve, every Jacobian representation, every hint value", "why_tests_cant": "About 2^762 points; exceptional cases are never hit by random tests.", "anchors": ["circuits/gadgets/pairing_bls12381/g2.go", "circuits/gadgets/pairing_bls12381/hash2curve.go:GetG2JacFromG2Affine,GetG2AffineFromG2Jac"]}
{"id": "C55", "title": "Multiplication by the curve parameter and cofactor clearing", "statement": "G2JacobianConstScalarMul, G2ConstScalarMulV2 and G2ConstScalarMul return [|x0|]P for |x0| = 0xd201000000010000: the first for every point with honest hints and for any prover on points without small order (all of G2), the affine ones for every point and prover (V2 satisfiable on all of G2). ClearCofactor with honest hints is satisfiable and equals RFC 9380's clear_cofactor_bls12381_g2 for every point of the curve; G2ClearCofactor is sound.", "quantifier": "every point of the curve, every hint value", "why_tests_cant": "For-all over points; adversarial hints.", "anchors": ["circuits/gadgets/pairing_bls12381/g2.go:G2JacobianConstScalarMul,G2ConstScalarMulV2,G2ConstScalarMul,G2ClearCofactor", "circuits/gadgets/pairing_bls12381/hash2curve.go:ClearCofactor"]}
{"id": "C56", "title": "sqrt_ratio and the simplified SWU map follow RFC 9380", "statement": "With honest hints g2SqrtRatio returns a square root of u/v or of Z*u/v and a flag telling which, and MapElementToCurve2 is satisfiable exactly when Z^2 u^4 + Z u^2 <> 0 and returns the RFC's abscissa and a point of the curve; it is the RFC's point whenever the sign is decided by first coordinates. Not guaranteed (refuted): u = 0 is unsatisfiable, u with first coordinate 0 and odd second coordinate gets the opposite point, a dishonest prover can have a point off the curve (u = 1) and choose the sign whenever the first coordinate of u is below 2^381-p.", "quantifier": "every u, v in Fp2, every hint value", "why_tests_cant": "About 2^762 inputs, exceptional cases of measure zero, adversarial hints.", "anchors": ["circuits/gadgets/pairing_bls12381/hash2curve.go:g2SqrtRatio,MapElementToCurve2,G2Sgn0"]}
{"id": "C57", "title": "The isogeny maps the SWU curve to G2's curve", "statement": "G2Isogeny accepts exactly the image under the 3-isogeny with the constants of RFC 9380 appendix E.3, whatever the prover, and rejects what the isogeny sends to infinity; it is satisfiable on every point of the SWU curve and its result lies on y^2 = x^3 + 4(1+u).", "quantifier": "every point, every hint value", "why_tests_cant": "Polynomial identity over a 762-bit field.", "anchors": ["circuits/gadgets/pairing_bls12381/hash2curve.go:G2Isogeny"]}
{"id": "C58", "title": "Encoding and hashing to G2 give the points of RFC 9380", "statement": "For every 32-element message whose field elements are ordinary for the SWU map (all but a fraction of about 2^-380), EncodeToG2OnJac and HashToG2OnJac run by an honest prover are satisfied exactly by byte messages and the point encode_to_curve / hash_to_curve of RFC 9380 (suite BLS12381G2_XMD:SHA-256_SSWU with the package's DST), on the curve, and satisfiable unless that point is infinity; EncodeToG2 and HashToG2 return the same point when satisfied. Not guaranteed (refuted): for about a quarter (a sixteenth) of the messages another prover can have the negated point accepted.", "quantifier": "every message, every native field above 2^70, every hint value", "why_tests_cant": "2^256 messages, adversarial hints.", "anchors": ["circuits/gadgets/pairing_bls12381/hash2curve.go:EncodeToG2OnJac,HashToG2OnJac,EncodeToG2,HashToG2"]}
{"id": "C59", "title": "Hexadecimal digits become numbers", "statement": "HexToDecimal returns the value of the first realLen digits (modulo the field) for 1 <= realLen <= maxLen and 0 for an empty string; Hex64To2Fr splits a string of up to 64 digits into (value, 0) when it has at most 62 digits and into (rest, first byte) when it has 63 or 64, and is unsatisfiable beyond. Not guaranteed (refuted): HexToDecimal with a length above maxLen + 1 silently truncates to maxLen digits.", "quantifier": "every digit string, every declared length, every field", "why_tests_cant": "16^64 strings and all field elements as lengths.", "anchors": ["circuits/gadgets/rlp/rlp.go:HexToDecimal,Hex64To2Fr"]}
{"id": "C60", "title": "Header RLP check with absent trailing fields", "statement": "If BlkHeaderRlpCheck answers 1 for fieldNum = k the buffer starts with a list header and min(k, n) RLP items, whose lengths and contents are reported, followed only by the header digits of the unused fields, all of them counted by the list header; with k >= n, or when the byte behind the items is below 0x80, it is exactly one RLP list of k items. Lists of the first k fields followed by a byte below 0x80 are accepted. An entry that is not the last and whose minimum is positive and below its maximum must be in use. Not guaranteed (refuted): with unused fields 0xc2 05 85, no RLP list, is accepted, and 0xc1 05 followed by 0x81 is rejected.", "quantifier": "every parameter table, every digit string, every number of fields, every field above 2^200", "why_tests_cant": "For-all over tables and 16^M buffers; the accepted malformed buffers are what tests miss.", "anchors": ["circuits/gadgets/rlp/rlp.go:BlkHeaderRlpCheck"]}
{"id": "C61", "title": "Block header gadget reports the header's fields", "statement": "Whenever CheckEthBlockHash is satisfied, whatever its verdict and the claimed number of fields (which must be at least 15), the reported hash is the digest of the whole buffer and, if the buffer starts with the RLP of a 15- to 17-field Ethereum header, the reported state, transactions and receipts roots, number, number length and time are those of that header. Such a header followed (unless it has 17 fields) by a padding byte below 0x80 is accepted with Output 1.", "quantifier": "every buffer, every number of fields, every header, every digest gadget that range-checks its input", "why_tests_cant": "For-all over headers and adversarial field counts.", "anchors": ["circuits/gadgets/mpt/eth_proof.go:CheckEthBlockHash"]}
{"id": "C62", "title": "Account proofs are sound", "statement": "If CheckEthAccountProof answers 1 with depth at least 2, the node buffers form a hash-linked trie path from stateRoot along addressHash (from digit keyFragmentStarts[0]) to a leaf holding a prefix of addressRlp; if that prefix is the RLP of an account, the reported nonce, balance, storage root and code hash, with their lengths, are that account's. Absence can not be claimed: the zero value is rejected.", "quantifier": "every path, key, buffer and hint, every digest gadget that range-checks its input", "why_tests_cant": "Adversarial proofs of any shape.", "anchors": ["circuits/gadgets/mpt/eth_proof.go:CheckEthAccountProof"]}
{"id": "C63", "title": "Storage proofs and the slot value", "statement": "If CheckEthStorageProof answers 1 with depth at least 2, the buffers form a hash-linked path from storageRoot along slotHash to a leaf of the slot holding a prefix of slotValueRlp, or to a node that passes one of the absence tests. If slotValueRlp starts with the RLP of a 1- to 32-byte string, SlotValue is its value modulo 2^248 and divided by 2^248; the zero value reads 0. Not guaranteed (refuted): a proof cut off at an extension node that agrees with the key is accepted with an arbitrary value, and after the prefix 0x80 the value reported is the following byte.", "quantifier": "every path, key, buffer and value", "why_tests_cant": "Adversarial proofs of any shape.", "anchors": ["circuits/gadgets/mpt/eth_proof.go:CheckEthStorageProof"]}
{"id": "C64", "title": "Combined block, account and storage proof", "statement": "If CheckEthAddressStorageProof answers 1 (depths at least 2) for a buffer starting with the RLP of a header, then blockHash is the digest of that buffer, BlockNumber is the header's number (1 to 4 bytes; others are unsatisfiable), the account path starts at the header's state root, the storage path at the storage root of the account found, and SlotValue is the value encoded in slotValueRlp.", "quantifier": "every header, account, slot, path and hint", "why_tests_cant": "Adversarial proofs; the composition of three gadgets.", "anchors": ["circuits/gadgets/mpt/eth_proof.go:CheckEthAddressStorageProof"]}
{"id": "C65", "title": "Digit strings and emulated field elements", "statement": "When digits of s bits fill the limbs exactly, any element ToElement returns denotes the number written by the digits, whatever the prover's hints, and every number of at most the modulus' bit length is accepted by an honest prover; ToElements needs no hints, succeeds exactly when each group of digits has at most that bit length and returns their elements in order. FromElement with an honest prover yields the big-endian base-2^k digits of the integer its limbs denote and inverts ToElement; with any prover it does so if the digits are range-checked. Not guaranteed (refuted): FromElement's digits are not forced without such checks; ToElement accepts unreduced numbers; ToElements ignores digits beyond a whole limb and denotes another number if s does not divide the limb size.", "quantifier": "every native modulus, every emulated field, limb size and digit size, every digit string and every hint", "why_tests_cant": "For-all over field sizes and malicious hints; unit tests run the honest prover on one field.", "anchors": ["circuits/gadgets/emulated/element.go:FromElement", "circuits/gadgets/emulated/element.go:ToElement", "circuits/gadgets/emulated/element.go:ToElements"]}
{"id": "C66", "title": "String and time conversions of common/utils", "statement": "Str2Int of a non-empty decimal numeral, with or without sign, is the number whenever it fits in int64, and every malformed string of at most 20 characters gives 0; Str2Uint64 of an unsigned numeral is the smaller of its value and 2^63-1, and of a negative one is the two's complement. TsMilli is the number of milliseconds for every time from 1970 to 2262; TsMilliToTime is exact iff the product with 10^6 is below 2^63, and TsMilli inverts it iff the product is below 2^64; TsSecToTime is exact below 2^63. Not guaranteed (refuted): Str2Uint64 does not read back uint64 values from 2^63 up, errors are indistinguishable from 0, and times before 1970 are read as far in the future.", "quantifier": "every string of bytes and every time", "why_tests_cant": "The claims range over strings of any length and over all 64-bit values, including the overflow boundaries.", "anchors": ["common/utils/string.go:Str2Int", "common/utils/string.go:Str2Uint64", "common/utils/time.go:TsMilli", "common/utils/time.go:TsMilliToTime", "common/utils/time.go:TsSecToTime"]}
{"id": "C67", "title": "What the verifying-key digests cover", "statement": "The bytes that CalculateAppVkHashFor761 feeds its hasher exist for every key whose numbers fit 48 bytes, are whole 48-byte blocks, and determine the number of public inputs, the coset shift, the KZG key, the permutation commitments and the five selector commitments: two keys with equal input agree on all of these. CalculateAppVkHashFrom761To254 splits a 48-byte digest into two blocks that denote its high and low 192 bits, both below the BN254 modulus, injectively. Not guaranteed (refuted): keys that differ in domain size, generator or commitment (Qcp) data have the same digest; inputs longer than 48 bytes lose bytes.", "quantifier": "every verifying key and every digest", "why_tests_cant": "Injectivity ranges over all pairs of keys.", "anchors": ["common/utils/plonk_util.go:CalculateAppVkHashFor761", "common/utils/plonk_util.go:CalculateAppVkHashFrom761To254"]}
{"id": "C68", "title": "Poseidon hasher histories", "statement": "After any history of Write, Reset and changes to the numbers written, Sum is the Poseidon digest of the numbers written since the last Reset, in order, with the values they have when Sum is called; nothing before a Reset matters; if the numbers are not changed after being written it is the digest of the values written. Not guaranteed (refuted): Write does not copy its argument.", "quantifier": "every sequence of operations, every heap and every hash function", "why_tests_cant": "For-all over operation histories and aliasing.", "anchors": ["common/utils/poseidon_bn254.go:Write", "common/utils/poseidon_bn254.go:Reset", "common/utils/poseidon_bn254.go:Sum"]}
{"id": "C69", "title": "Memory effects of Pad101Bytes", "statement": "For every input slice with any spare capacity, Pad101Bytes returns the padded bytes; of the memory that existed it changes only the spare capacity directly after the input, so the input slice and every array other than its own keep their contents, and if capacity equals length nothing that existed changes; the result shares the caller's array exactly when the padding fits the capacity. Not guaranteed (refuted): a slice of the same array placed after the input is overwritten, always, when the padding fits.", "quantifier": "every memory, every slice and every growth policy of append", "why_tests_cant": "Aliasing depends on capacities that tests do not vary.", "anchors": ["circuits/gadgets/keccak/periphery.go:Pad101Bytes", "common/circuits/keccak.go:Pad101Bytes"]}
{"id": "C70", "title": "Ed25519 field arithmetic on 51-bit limbs", "statement": "In every program over the field package (Zero, One, SetBytes, Add, Subtract, Negate, Multiply, Square, Mult32, Invert, Pow22523, Select, Swap, Absolute, SqrtRatio, nested in any way and applied to any 32-byte inputs) no 64-bit or 128-bit operation overflows in a way that changes the result: the Element obtained denotes the field element of p = 2^255-19 that the same expression denotes mathematically, and its limbs stay below 2^51 + 2^38. The documented bound on inputs (limbs below 2^52) is enough for Add, Multiply, Square and Invert. Not guaranteed (refuted): the documented bound is not enough for the second operand of Subtract or the operand of Negate; no program over the API can produce such an Element.", "quantifier": "every expression over the package's operations, of any depth, and every 32-byte input", "why_tests_cant": "Carry bugs appear on a vanishing fraction of the 2^255 inputs; the bound on limbs is an invariant over all histories of operations.", "anchors": ["circuits/gadgets/ed25519/test/field/fe.go:Add", "circuits/gadgets/ed25519/test/field/fe.go:Subtract", "circuits/gadgets/ed25519/test/field/fe_generic.go:feMulGeneric", "circuits/gadgets/ed25519/test/field/fe_generic.go:feSquareGeneric", "circuits/gadgets/ed25519/test/field/fe_generic.go:carryPropagateGeneric"]}
{"id": "C71", "title": "Ed25519 field encodings", "statement": "Bytes gives, for any limbs whatever (each a uint64), the 32-byte little-endian encoding of the canonical integer below p; Bytes of two Elements are equal exactly if they denote the same field element, and Equal says so. SetBytes accepts exactly the 32-byte strings and gives the number of the low 255 bits; SetBytes after Bytes gives the same field element, and Bytes after SetBytes the same string exactly for numbers below p. IsNegative is the parity of the canonical integer. Not guaranteed (refuted): encodings are not unique, SetBytes accepts non-canonical ones.", "quantifier": "every Element with uint64 limbs and every byte string", "why_tests_cant": "The reduction to the canonical integer is wrong only near multiples of p; the claim ranges over all 2^320 limb vectors.", "anchors": ["circuits/gadgets/ed25519/test/field/fe.go:Bytes", "circuits/gadgets/ed25519/test/field/fe.go:SetBytes", "circuits/gadgets/ed25519/test/field/fe.go:Equal", "circuits/gadgets/ed25519/test/field/fe.go:IsNegative", "circuits/gadgets/ed25519/test/field/fe.go:reduce"]}
{"id": "C72", "title": "Ed25519 field inverses and square roots", "statement": "Invert gives 0 for 0 and otherwise the inverse. SqrtRatio(u, v) reports whether some x has v x^2 = u; it returns a non-negative r with v r^2 = u if so, and otherwise, for v not 0, with v r^2 = i u for the fixed square root i of -1; r is 0 if v is 0. A non-negative root is unique.", "quantifier": "all field elements u, v in any reduced or unreduced representation the package produces", "why_tests_cant": "Correctness rests on p being prime and on exponentiation chains for exponents of 254 bits, for every input.", "anchors": ["circuits/gadgets/ed25519/test/field/fe.go:Invert", "circuits/gadgets/ed25519/test/field/fe.go:Pow22523", "circuits/gadgets/ed25519/test/field/fe.go:SqrtRatio"]}
{"id": "C73", "title": "Scalar arithmetic modulo the group order", "statement": "Every program over the scalar type (NewScalar, SetUniformBytes, SetCanonicalBytes, SetBytesWithClamping, Add, Subtract, Negate, Multiply, MultiplyAdd, nested in any way) yields exactly the canonical 32-byte encoding of the integer the expression denotes, reduced modulo l = 2^252 + 27742317777372353535851937790883648493; no int64 operation overflows. MultiplyAdd is right for all 32-byte arrays, reduced or not.", "quantifier": "every expression over the package's operations, of any depth, and every byte input", "why_tests_cant": "The reduction works on 21-bit limbs with hand-placed carries; a missing carry or a bound violated by one changes results only for rare inputs among 2^768.", "anchors": ["circuits/gadgets/ed25519/test/scalar.go:scMulAdd", "circuits/gadgets/ed25519/test/scalar.go:scReduce", "circuits/gadgets/ed25519/test/scalar.go:Add", "circuits/gadgets/ed25519/test/scalar.go:Subtract", "circuits/gadgets/ed25519/test/scalar.go:Negate", "circuits/gadgets/ed25519/test/scalar.go:Multiply", "circuits/gadgets/ed25519/test/scalar.go:MultiplyAdd"]}
{"id": "C74", "title": "Scalar encodings", "statement": "SetUniformBytes accepts exactly 64 bytes and gives the number modulo l. SetCanonicalBytes accepts exactly the 32-byte strings whose number is below l, unchanged, so that encodings are unique: two Scalars have equal Bytes (and are Equal) exactly if they are the same residue. SetBytesWithClamping accepts exactly 32 bytes and gives the number with bits 0, 1, 2, 255 cleared and bit 254 set, reduced modulo l. Not guaranteed (refuted, as the comment says): the result of clamping need not be a multiple of 8.", "quantifier": "every byte string of any length", "why_tests_cant": "The acceptance boundary l-1 / l and the comparison byte by byte concern single values out of 2^256.", "anchors": ["circuits/gadgets/ed25519/test/scalar.go:SetUniformBytes", "circuits/gadgets/ed25519/test/scalar.go:SetCanonicalBytes", "circuits/gadgets/ed25519/test/scalar.go:isReduced", "circuits/gadgets/ed25519/test/scalar.go:SetBytesWithClamping", "circuits/gadgets/ed25519/test/scalar.go:Equal"]}
{"id": "C75", "title": "Signed digit forms of scalars", "statement": "For every Scalar and every width 2..8 nonAdjacentForm gives 256 digits of value equal to the Scalar (base 2), each zero or odd and below 2^(w-1) in absolute value, with at most one nonzero digit among any w consecutive ones; signedRadix16 gives 64 digits from -8 to 7, the last from 0 to 8, with the same value (base 16). They panic exactly for widths outside 2..8 or numbers from 2^255 on, which no Scalar of the package is.", "quantifier": "every 32-byte array and every width", "why_tests_cant": "Carries across the 64-bit words and at the top of the number depend on long runs of ones in the input.", "anchors": ["circuits/gadgets/ed25519/test/scalar.go:nonAdjacentForm", "circuits/gadgets/ed25519/test/scalar.go:signedRadix16"]}
{"id": "C76", "title": "Edwards point arithmetic", "statement": "Every program over the Point type (identity, generator, SetBytes, Add, Subtract, Negate, ScalarMult, ScalarBaseMult, VarTimeDoubleScalarBaseMult, nested in any way) either yields a Point standing for exactly the curve point the expression means in the group of the twisted Edwards curve, with Z not 0 and T = XY/Z, or reports the error of a SetBytes that decodes no point. Equal decides equality of curve points whatever the representatives, PointAffine.FromExtended gives the affine coordinates, UnpackPoint projective ones, and every operation on the zero value of Point panics; on Points made with the package none does.", "quantifier": "every expression over the package's operations, of any depth, every byte input and every scalar", "why_tests_cant": "The formulas run through four coordinate systems with five-limb arithmetic whose overflow bounds must hold along every chain of operations; completeness of the addition law holds for all pairs of points, including equal, opposite and small-order ones.", "anchors": ["circuits/gadgets/ed25519/test/edwards25519.go:Add", "circuits/gadgets/ed25519/test/edwards25519.go:Subtract", "circuits/gadgets/ed25519/test/edwards25519.go:Negate", "circuits/gadgets/ed25519/test/edwards25519.go:Equal", "circuits/gadgets/ed25519/test/edwards25519.go:checkInitialized", "circuits/gadgets/ed25519/test/edwards25519.go:FromExtended"]}
{"id": "C77", "title": "Edwards point encodings", "statement": "Bytes of a Point is the little-endian y with the parity of x in the top bit, so two Points have the same bytes exactly if they are the same curve point. SetBytes accepts exactly the 32-byte strings whose low 255 bits are the y of some curve point, gives the point with the parity asked for (for x = 0 the sign bit is ignored), and rejects everything else; Bytes followed by SetBytes gives the point back; SetBytes followed by Bytes gives the string back exactly if it was canonical (y below p, no sign bit for x = 0). Decoding is not unique: some points have several accepted strings.", "quantifier": "all byte strings of all lengths and all points made with the package", "why_tests_cant": "Whether a root exists depends on the value; the exceptional strings (non-canonical y, x = 0 with the sign bit) are a handful among 2^256.", "anchors": ["circuits/gadgets/ed25519/test/edwards25519.go:Bytes", "circuits/gadgets/ed25519/test/edwards25519.go:bytes", "circuits/gadgets/ed25519/test/edwards25519.go:SetBytes"]}
{"id": "C78", "title": "Edwards scalar multiplication", "statement": "ScalarMult, ScalarBaseMult and VarTimeDoubleScalarBaseMult give the exact integer multiples sP, sB and sP + uB for every 32-byte scalar below 2^255 (reduced or not) and every point, and panic from 2^255; they agree with each other in Equal and Bytes. The base point has order l: ScalarBaseMult of two residues coincides exactly if they are congruent; it maps sums of scalars to sums of points and products to repeated multiplication. The bytes of VarTimeDoubleScalarBaseMult(k, -A, s) are those of R exactly if s = r + k a (mod l), for A = aB and R = rB.", "quantifier": "all 32-byte scalars, all points of any order made with the package, all integers a, r, k, s", "why_tests_cant": "2^255 scalars times all points; precomputed tables, signed digits and constant-time selection go wrong only for particular digits.", "anchors": ["circuits/gadgets/ed25519/test/scalarmult.go:ScalarMult", "circuits/gadgets/ed25519/test/scalarmult.go:ScalarBaseMult", "circuits/gadgets/ed25519/test/scalarmult.go:VarTimeDoubleScalarBaseMult", "circuits/gadgets/ed25519/test/tables.go:SelectInto", "circuits/gadgets/ed25519/test/tables.go:FromP3"]}
{"id": "C79", "title": "DecodeTxLeafRlp decodes every transaction leaf that fits and nothing else", "statement": "For every leaf node RLP([path, type || RLP(transaction)]) of a transaction with an empty access list whose fields fit the declared sizes and whose whole encoding has at most 2176 bytes, padded with any nibbles, DecodeTxLeafRlp is satisfiable and returns the transaction's chain id, nonce, fees, gas limit, recipient and value as hex digits with their lengths, V as a number, R and S as two limbs and the signed transaction behind the type byte. Conversely, whenever it is satisfiable, the buffer holds two consecutive RLP items behind a header and behind the first byte of the second there are twelve consecutive items behind a header, whose contents are the outputs, or one of the two parses stopped at a byte 00. Not guaranteed (refuted): the type byte is not checked.", "quantifier": "every transaction, path, type byte and padding; every nibble buffer of at least 4352 nibbles; every field above 2^248", "why_tests_cant": "Twelve variable-length fields are located by chained rotations of the whole buffer; soundness is about adversarial buffers.", "anchors": ["circuits/gadgets/rlp/rlp.go:DecodeTxLeafRlp,TxLeafArrayRlpParams,SignedTxArrayCheckParams,RlpNestArrayCheck"]}
{"id": "C80", "title": "The fixed-key-length MPT inclusion gadget accepts every trie path", "statement": "For every Merkle-Patricia path of 2 up to maxDepth (at most 10) RLP nodes - branches of sixteen children without a value, extensions, all linked by 32-byte digests - from the root to the leaf of a 64-digit key with a nonempty remainder, holding a value that is a prefix of the claimed value, CheckMPTInclusionFixedKeyLength (isStorageProof = false) is satisfiable on the honest inputs (fragment starts, flag lengths, node types, unused layers filled with zero nodes of type 1), outputs 1 and returns the value's length; in particular when the nodes are Keccak-256 hashed and padded as the circuits expect.", "quantifier": "every key, every path of branches and extensions up to the compiled depth, every node content, value (66 <= maxValue <= 255 digits), padding and buffer size", "why_tests_cant": "Completeness over all tries and all node shapes; a test exercises a few proofs.", "anchors": ["circuits/gadgets/mpt/mpt.go:MptCheck.CheckMPTInclusionFixedKeyLength", "circuits/gadgets/mpt/mpt_util.go", "circuits/gadgets/rlp/util.go:Keccak256AsNibbles"]}
{"id": "C81", "title": "Honest account, storage and combined Ethereum proofs are accepted", "statement": "For every header, account and slot that are on-chain consistent - a header RLP whose hash is the given block hash and whose number has 1 to 4 bytes, a trie path of the account under the header's state root, a trie path of the slot under the account's storage root - CheckEthAccountProof, CheckEthStorageProof and CheckEthAddressStorageProof are satisfiable on the honest inputs, output 1 and return the account's nonce, balance, storage root and code hash, the slot's value and the block number. The storage proof's absence tests (nonexistence in branch, extension and leaf) stay satisfiable on an inclusion proof whose leaf buffer holds at least fifteen padding bytes, each at most 0x80.", "quantifier": "every header, account, slot value of 1 to 32 bytes, key, path of branches and extensions up to the compiled depths, node contents, padding and buffer size", "why_tests_cant": "Completeness over all accounts, tries and slot values; tests exercise a few recorded proofs.", "anchors": ["circuits/gadgets/mpt/eth_proof.go:CheckEthStorageProof", "circuits/gadgets/mpt/eth_proof.go:CheckEthAccountProof", "circuits/gadgets/mpt/eth_proof.go:CheckEthAddressStorageProof", "circuits/gadgets/mpt/mpt.go:MptCheck.CheckMPTInclusionFixedKeyLength"]}
{"id": "C82", "title": "Honest proofs of absent slots are accepted; the absence test constrains nothing about the value and accepts proofs of present slots cut short", "statement": "For every walk of linked trie nodes below the storage root that ends in a padded leaf of another key, CheckEthStorageProof with the claimed value 0x80 (zero-padded) and the leaf's own flag length is satisfiable, outputs 1 and returns slot value 0. For every walk of n nodes followed by a branch that has no child at digit number n of the key (below branches only: the key's next digit, so the key is absent), CheckEthStorageProof is satisfiable and outputs 1 for EVERY claimed value of 1 to 32 bytes, which it returns as the slot's value: the absence test does not look at the value. The same holds for walks ending in a padded extension whose digits are not all that is left of the key, even if they are a prefix of it; so for every key that IS in the trie below an extension other than the root, cutting its proof at that extension makes CheckEthStorageProof accept every claimed value. Likewise for every key in the trie whose path goes through a branch without a child at digit number n (n the number of nodes above it): below an extension that is not the digit the branch is read at. CheckEthAddressStorageProof inherits this: with an honest header and account proof it accepts whatever its storage part accepts.", "quantifier": "every key, every walk of nodes up to the compiled depth, node contents, padding, buffer size and claimed value", "why_tests_cant": "Ranges over all tries and all claimed values; tests exercise a few recorded proofs.", "anchors": ["circuits/gadgets/mpt/eth_proof.go:CheckEthStorageProof", "circuits/gadgets/mpt/mpt.go:MptCheck.CheckMPTInclusionFixedKeyLength", "circuits/gadgets/mpt/mpt_util.go:CheckBranchForNonExistence"]}
