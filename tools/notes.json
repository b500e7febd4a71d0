{
 "C05": {
  "note": "Rotation proved for every in-window shift, rejection for out-of-window shifts; a degenerate window (min = max) provably ignores the requested amount (C05_degenerate_window_ignores_shift), which is a gap in the code's enforcement."
 },
 "C07": {
  "note": "Agreement with the specification is proved for all bytes; the boolean-validity part of the claim is false of the code (flag is 2 for 0xc0) and refuted."
 },
 "C46": {
  "note": "The storage variant's last node is a leaf, a branch without the child at digit depth-1, or passes foreign_ext: all that the extension test establishes (first item a path other than the whole remaining key; RLP validity ignored). Refuted: C46_storage_absence_not_rlp_refuted, C46_storage_absence_wrong_digit_refuted, and C63_truncated_at_extension_refuted."
 },
 "C14": {
  "note": "The intended claim (same rule as the fixed variant) is false; the theorems give the exact score rule, the exact path rule and the refutations."
 },
 "C13": {
  "note": "Depth 1 and keyFragmentStarts[0] <> 0 are excluded by hypothesis/by the starting digit because the code accepts forged proofs there (two refutations). Also instantiated with the repository's Keccak256AsNibbles gadget (Props_MptKeccak.v)."
 },
 "C08": {
  "note": "Soundness and completeness with their exact side conditions; the unrestricted claim is refuted in each excluded case."
 },
 "C16": {
  "note": "Agreement proved for every length not 135 modulo 136; for every length that is 135 modulo 136 disagreement is proved (the *_refuted theorems), so the full agreement claim is false of the code."
 },
 "C47": {
  "note": "Exact acceptance condition for on-curve A and R; the unforgeability a user expects is refuted by a concrete accepted forgery with an off-curve R (C47_forgery_refuted) and by S malleability (C47_S_range_refuted). Emulated-field Div/ToBits/Reduce hints are modelled as relations (DESIGN.md)."
 },
 "C41": {
  "note": "The unrestricted claim is false of the code: exact result, the cases in which it is the RFC's sign, and refutations for the others."
 },
 "C53": {
  "note": "Exact with honest hints; exact description of what other hints can do, with refutations."
 },
 "C54": {
  "note": "C54_add_any_partial needs finite distinct operands; the excluded cases are refuted (C54_add_infinity_refuted)."
 },
 "C55": {
  "note": "C55_jac_mul_any_partial needs the absence of small order (proved for all of G2 in C55_jac_mul_subgroup); C55_clear_affine_partial is soundness only."
 },
 "C56": {
  "note": "Exact with honest hints; C56_map_any_partial bounds what other hints can do, and the claims that fail are refuted on concrete inputs."
 },
 "C58": {
  "note": "Jacobian variants exact with honest hints on ordinary field elements; affine variants: soundness only (_partial). C58_example checks the hypotheses on a computed message except that the resulting point is not infinity."
 },
 "C60": {
  "note": "params_ok bounds the table; fixed_lengths_hold: entries with min = max have that length (not checked by the gadget)."
 },
 "C61": {
  "note": "Output is the C60 verdict. The digest gadget is the variable hash with hash_ok (Props_MptKeccak.v proves it of the repository's gadget)."
 },
 "C62": {
  "note": "Restrictions (depth >= 2, start digit) as in C13, where the code is refuted without them."
 },
 "C63": {
  "note": "Two refutations in Props_EthCases.v; path restrictions as in C13/C46."
 },
 "C64": {
  "note": "The combined Output ignores the header RLP verdict; the header's form is a hypothesis, as its digest is a public input."
 },
 "C65": {
  "note": "gnark's NewElement range checks are trusted (ElementModel.v). Total limb size equal to the native field's bit length is excluded: the merged value may wrap."
 },
 "C66": {
  "note": "strconv.Atoi (fast path, ParseInt, ParseUint) is modelled from the standard library's source; int is 64 bits."
 },
 "C67": {
  "note": "The MiMC hashes themselves are gnark-crypto's and trusted; the coset shift is one number in gnark, here any list of numbers of 48 bytes."
 },
 "C68": {
  "note": "poseidon.Hash is a parameter."
 },
 "C69": {
  "note": "Go's append is modelled for any growth policy."
 },
 "C70": {
  "note": "The generic Go code; the amd64 and arm64 assembly variants are not modelled. bits.Mul64 and bits.Add64 have their documented meaning."
 },
 "C71": {
  "note": ""
 },
 "C72": {
  "note": "Primality of p is proved from a certificate."
 },
 "C73": {
  "note": "The straight-line code is represented by the list of its carry and fold steps, read off the source mechanically; a verified interval analysis shows that nothing overflows."
 },
 "C74": {
  "note": ""
 },
 "C75": {
  "note": ""
 },
 "C76": {
  "note": "Coordinates are Elements of FeModel.v; the group is that of EdSpec.v."
 },
 "C77": {
  "note": "Uniqueness of accepted strings is refuted (C77_unique_refuted), as the source comment says."
 },
 "C78": {
  "note": "Tables are built in the model as in tables.go; sync.Once is taken as: built before first use."
 },
 "C79": {
  "note": "Integers with the non-canonical encoding 00 are excluded from the completeness direction (they are rejected or misread, see C09). Prints are not modelled."
 },
 "C80": {
  "note": "Node-level completeness is C10-C12; the converse direction (soundness) is C13. Trie paths are specified in MptTrie.v at byte level with the RLP encoder of RlpEnc.v."
 },
 "C81": {
  "note": "Soundness of the same gadgets is C62-C64. Paths, honest inputs and size conditions as in C80."
 },
 "C82": {
  "note": "The parts about empty children and extensions are weaknesses of the code proved for all inputs (C82_present_key_any_value, C82_present_key_other_digit: a present slot below an extension can be proved to hold any value): a consumer must not trust es_slotValue unless the presented last node is known to be the key's leaf. Soundness side: C13, C63."
 }
}