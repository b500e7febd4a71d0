# Formal model of brevis-network/zk-utils in Coq 8.16.1

Contents: 1 how the code is modelled; 2 trusted base; 3 plan and result per property; 4 modelled / not modelled code;
5 Print Assumptions; 6 mutation testing.

## 1. How the code is modelled

The repository consists of (a) gnark circuit gadgets, i.e. Go functions that, given a `frontend.API`, emit arithmetic
constraints, and (b) plain Go helper code (hex codecs, packing, proof encoders, trie helpers).

* **Native gadgets.** A field element is an integer `0 <= x < p`; the modulus `p` is a parameter of the model (`Field.v`).
  Every `frontend.API` call is a function on such integers. Calls that add a constraint which may be unsatisfiable
  (`AssertIsEqual`, `AssertIsBoolean`, `AssertIsLessOrEqual`, `ToBinary(x,n)`, `Select`/`And`/`Or`/`Xor` on non-boolean inputs,
  `Div`, `selector.Mux` out of range) return `option`: `None` means *no assignment satisfies the constraints* or circuit
  construction panics. A gadget is a function to `option result`; soundness is "if the gadget returns `Some` then ...",
  completeness "under ... the gadget returns `Some`". The operations used have outputs uniquely determined by their inputs, so a
  function is the right model.
* **Gadgets with hints** (limbs.Split, the emulated-field gadgets: ed25519, the BLS12-381 tower, pairing, hash-to-curve) are
  *relations*: a computation is the set of results some satisfying assignment can give. `Div`, `Inverse`, `Reduce`, `ToBits`,
  square-root and comparison hints range over everything their constraints admit (section 2); "honest" variants fix the values the
  repository's hint functions return. Soundness theorems quantify over all results, completeness theorems exhibit one.
* **Plain Go code** is modelled as total functions on lists / `Z`, with 64-bit wrap-around written out where Go wraps, panics and
  errors as `None`, slices with a heap-level model (backing arrays) where `append` aliasing matters (C44).
* **Hash functions**: Keccak-256, SHA-256 and SHA-512 are modelled and proved equal to independently written specifications;
  MiMC and Poseidon (external tables) are universally quantified functions. The MPT theorems hold for every digest gadget that
  range-checks its input (`hash_ok`), which is proved of the repository's Keccak gadget. Collision freedom is a visible
  hypothesis of the binding theorems only.

Layout (`rocq/theories`): `*Model.v` holds the model (every definition cites file:lines and says where it simplifies), `*Spec.v`
an independent specification, `*Proofs.v` and others lemmas, and `Props_*.v` the final theorems, named after the property, with
concrete examples meeting the hypotheses and `_refuted` theorems for claims that are false of the code. A `_partial` suffix marks
theorems whose property is only partly proved; what is missing is said in their comment and in `MANIFEST.json`.

## 2. Trusted base

* Coq 8.16.1's kernel (including `vm_compute`). No axioms of our own, no functors, no disabled checks.
* Axioms: `Print Assumptions` answers "Closed under the global context" for every theorem (section 5). `coqchk` additionally lists
  the seven axiom-like fields of the standard library's ssreflect file that gets loaded, `Coq.ssr.ssrunder.Under_rel.Under_rel`,
  `.Under_rel_from_rel`, `.Under_relE`, `.under_rel_done`, `.over_rel`, `.over_rel_done`, `.Over_rel` (module-type fields of
  `ssrunder.v`, standard library); no theorem depends on them.
* The reading of Go in the model comments.
* gnark (v0.9.2-0.20231206193932, not in the sandbox), as given in `Field.v`: `Add/Sub/Mul/Neg` are field operations; `IsZero`, `Cmp`
  are sound and complete and compare canonical integers; `ToBinary(x)` without width is the canonical decomposition and
  `ToBinary(x,n)` is satisfiable iff `x < 2^n`; `FromBinary` constrains its inputs to bits; `Select`, `Lookup2`, `And/Or/Xor`
  constrain their selectors to bits; `DivUnchecked`/`Div` by the definition in the model; `selector.Mux` is unsatisfiable out of range.
* gnark's emulated field (`std/math/emulated`): elements are residues modulo the emulated prime; `Add/Sub/Neg/Mul/MulConst/Select/
  Lookup2/AssertIsEqual` are exact on residues; `Div(a,b)` and `Inverse(b)` return some `q` with `q*b = a` (so `b = 0` is possible
  only with `a = 0`, and then any `q`); `Reduce`/`ToBits` return the bits of *some* representative below `2^381` (not necessarily
  the canonical one; the honest prover's is canonical); `fp.Element` literals are read as Montgomery form where the code has them.
* External packages used by the plain Go code: encoding/hex, math/big, strconv, crypto Ecrecover, go-ethereum rlp / trie / types,
  abi packing — trusted to follow their documentation, with the facts used stated in the model comments.
* `keccak256` inner permutation `PermuteOld` used by one gadget lives in an external package; the theorems take it as any function
  `perm` with `perm_ok perm` ("it is Keccak-f on bits").
* Numerals such as curve constants, prime certificates (Pocklington style, checked in Coq by `PrimeTheory.v`) and hinted quotients
  were computed by scripts but are only *checked* by Coq; nothing rests on the scripts.

## 3. Plan and result per property

"Result" says what is proved and what is refuted; the English statements are in `properties.jsonl`, theorem names in `MANIFEST.json`.

| id | model | proof / result |
|----|-------|----------------|
| C01 | `RlpUtilModel.v`: Multiplex, decoder, dot product over lists of rows | induction on columns: the mask is one-hot; exact, unsatisfiable out of range |
| C02 | `Equal`, `LessThan` from `IsZero`, `Sub`, `Cmp` | case analysis; exact |
| C03 | `ArrayEqual` with prefix sums and C01 | count of matches = length iff equal; exact |
| C04 | barrel shifter of `SubArray` | invariant: after i levels entry j is in[(j + from mod 2^i) mod n] |
| C05,C06 | `ShiftLeft`, `ShiftRight` level by level | same invariant (rotation / zero fill); degenerate window ignores the amount |
| C07 | prefix decoders on two nibbles | sweep over the 256 nibble pairs, lifted; `_refuted` for the 0xc0 validity flag |
| C08,C09 | `RlpModel.v` `RlpArrayCheck`, `RlpNestArrayCheck` (field loop) | offset invariant of the loop; sound and complete; `_refuted` for c0 fields and fixed lengths |
| C10-C12 | `MptModel.v` leaf / extension / branch checks | from C08; full score means exactly such a node |
| C13,C46 | `CheckMPTInclusionFixedKeyLength`, both variants | score argument + induction over layers: connected hashed path; refuted for depth 1, free first start, wrong digit, invalid RLP |
| C14 | no-branch-termination variant | exact score rule; accepted wrong root (refuted) |
| C15,C16 | `pad.go` | lengths mod 136/1088; `_refuted` for residue 135 |
| C17-C19 | keccakf on bit lists and packing helpers | equality with an independent FIPS-202-style spec, sponge by induction on blocks |
| C20-C22 | sha256/sha512 digest state machine (`ShaModel.v`, parametric) | buffer invariant, histories by induction; equality with FIPS 180-4; p > 2^70, length < 2^61 |
| C23,C24 | limbs: relation for hint-based split | merge value, rotation; uniqueness refuted |
| C25-C29,C42 | slice / hex / compose / const / bit helpers | list induction, arithmetic, finite case analysis |
| C30-C33,C45 | proof encoders, query ids, object keys, signer, leaf split | injectivity of encodings |
| C34-C36 | Merkle / SMT / emulated MiMC with an abstract hash | induction on depth, histories |
| C37 | index RLP gadget | case analysis on length classes |
| C38,C39,C47 | ed25519: curve over `Z/q` (`EdCurve.v`, prime certificate), scalar loops, verification | `field`; loop invariants; exact acceptance rule; forgery with off-curve R refutes unforgeability |
| C40,C48,C49 | BLS12-381 tower over the proved field `Fq` | ring identities, Frobenius via characteristic p, Karabina compression |
| C41,C53 | sgn0 and comparisons on relational `ToBits` | exact with honest hints; refutations for others (C41 partial) |
| C43 | fabric header encoding | list lemmas |
| C44 | calldata codec with heap-level `append` | aliasing witness / invariant |
| C50,C51 | final exponentiation, Miller loop | exponent arithmetic by computation, affine Miller algorithm as specification, witness for a real pairing |
| C52 | expand_message_xmd, hash_to_field | equality with RFC 9380 on top of C21 |
| C54,C55 | G2 Jacobian / affine operations | group law of y^2 = x^3 + 4(1+u) proved (`WGroup.v`), representations; some cases partial |
| C56-C58 | SSWU map, isogeny, hash to G2 | polynomial identities; equality with RFC 9380 on ordinary inputs; refutations; affine variants partial |
| C59 | HexToDecimal, Hex64To2Fr | one-hot selection of prefix values |
| C60 | `BlkHeaderRlpCheck` | closed form, then as C08; malformed buffers with unused fields refuted |
| C61-C64 | `EthModel.v`: header, account, storage and combined proofs | from C60, C08 on field elements, C13/C46; two refutations for storage proofs |
| C65 | `ElementModel.v`: FromElement, ToElement, ToElements | from the limb lemmas of C23, for arbitrary hints; refutations for unchecked outputs, unreduced input, dropped digits |
| C66 | `HostModel.v`: strconv.Atoi, Str2Int/Str2Uint64, time.go | induction on the digits; interval arithmetic with wrap-around |
| C67 | `HostModel.v`: the bytes hashed by plonk_util.go | injectivity of fixed-width encodings; refutations for what is left out |
| C68 | `HostModel.v`: hasher with pointers into a heap | induction on the history |
| C69 | `HostModel.v`: append and Pad101Bytes on backing arrays | invariant over the appends, for any growth policy |
| C70 | `FeModel.v`: Elements as five uint64 limbs, every wrap modelled | induction over programs of the package with the limb bound as invariant, against F_p |
| C71 | `FeModel.v`: reduce, Bytes, SetBytes, Equal, IsNegative | value of the limbs and base-256 digits |
| C72 | `FeModel.v`: the exponentiation chains and SqrtRatio | Fermat and Euler's criterion in F_p |
| C73 | `ScModel.v`: scMulAdd and scReduce as instruction lists on 24 int64 limbs, loads and stores byte by byte | verified interval analysis (no overflow), invariant of the limb value modulo l, induction over programs |
| C74 | `ScModel.v`: the setters, isReduced, Equal | comparison from the top byte, bit identities for clamping |
| C75 | `ScModel.v`: nonAdjacentForm and signedRadix16 loops on int8/uint64 | loop invariants |
| C76 | `PtModel.v`: Point, projP1xP1, projP2, cached forms over Elements | representation relations for each coordinate system against the group of `EdSpec.v`; induction over programs |
| C77 | `PtModel.v`: Bytes, SetBytes | SqrtRatio (C72), parity of roots, base-256 digits |
| C78 | `PtModel.v`: lookup tables, selection, the three multiplication loops | loop invariants in integer multiples; order of the base point |
| C79   | DecodeTxLeafRlp (TxLeafModel.v) over the nested RLP check; completeness from RlpNestComplete.v against the encoder of RlpEnc.v, soundness from RlpNestSound.v twice | Props_TxLeaf.v |
| C80   | forward evaluation of the loop and score of mpt.go (MptZero.v, MptPathComplete*.v) on the honest inputs of a byte-level trie path (MptTrie.v); Keccak instance | Props_MptPathComplete.v |
| C81   | C80 with the storage proof's absence tests evaluated forwards on a padded leaf (MptStorage.v), RLP decode completeness of the account, header acceptance (C61) | Props_EthComplete.v |
| C82   | the gadget's layer loop (C80) with leaf check and absence tests evaluated forwards on a leaf of another key, on a branch without the child and on an extension (MptAbsence.v) | Props_EthAbsence.v |
| C83-   | see `properties.jsonl` and `MANIFEST.json` | added as the model grows |

Not expressible here (no property): anything that depends on the network (S3, Ethereum RPC), the file system, proving keys, gnark's
backend, wall-clock time or log output would need a model of those systems.

## 4. Modelled and not modelled code

`tools/coverage.py` lists, for every Go file, the functions whose lines are cited by a definition of the model.

Modelled: `circuits/gadgets/`: `conv`, `ed25519` (all but constructors), `emulated/mimc`, `index-proof/core`, `keccak`, `limbs`, `merkle`,
`mpt`, `mux`, `pairing_bls12381`, `rlp`, `sha256`, `sha512` (by the parametric model of sha256, whose differences are the table
`sha_code`), `smt`, `utils/slice.go`; `circuits/fabric/smt/utils.go`; `common/proof`; `common/s3api/utils.go`;
`emulated/element.go`; `common/utils`: `binary.go`, `compose.go`, `const.go`, `contract_codec.go`, `hex.go`, `utils.go`, `string.go`, `time.go`,
`plonk_util.go` (the hashed bytes), `poseidon_bn254.go`; `circuits/gadgets/ed25519/test` (a copy of filippo.io/edwards25519 used to
prepare test inputs): `field` (generic code), `scalar.go`, `edwards25519.go`, `tables.go`, `scalarmult.go` (sync.Once taken as: tables
built before use).

Not modelled: generated contract bindings (`common/*/bindings*.go`), mocks, `*_test.go`, `main` programs and benchmarks,
the assembly in `circuits/gadgets/ed25519/test`, `common/eth` (RPC client, pretty printers), `common/s3api/client.go`, `common/utils/pk-vk-utils.go` and other file I/O,
`common/bsc`, printing helpers, and gnark itself.

## 5. Print Assumptions

`ASSUMPTIONS.txt` (written by `tools/assumptions.py`) holds the answer for every theorem of `Props_*.v`: all of them are
"Closed under the global context".

## 6. Mutation testing

`seeded/LOG.jsonl`: each line is one realistic bug put into a scratch copy of the model, the claim it breaks, the theorems that no
longer compile, and the theorems tightened because of it. Lemma proofs that merely fail are not counted: the driver admits broken
lemmas and looks at which property theorems then fail, or re-proves.
