(** * EthSpec.v — Ethereum headers, accounts and storage values as RLP digit strings (yellow paper, sections 4.1, 4.3 and
    appendix B), independent of the model.  A byte is two hexadecimal digits, most significant first. *)
From Coq Require Import ZArith List Lia Bool Arith.
From Verif Require Import RlpSpec.
Import ListNotations.
Open Scope Z_scope.

(** number of bytes of a digit string *)
Definition nbytes (d : list Z) : Z := Z.of_nat (length d) / 2.
(** header of an RLP item of [n] < 65536 payload bytes; [base] is 0x80 for strings and 0xc0 for lists *)
Definition rlp_hdr (base n : Z) : list Z :=
  if n <? 56 then byte_nibbles (base + n)
  else if n <? 256 then byte_nibbles (base + 56) ++ byte_nibbles n
  else byte_nibbles (base + 57) ++ byte_nibbles (n / 256) ++ byte_nibbles (n mod 256).
(** the RLP item of a byte string *)
Definition str (d : list Z) : item :=
  if Nat.eqb (length d) 2 && (hexval d <? 128) then ([], d) else (rlp_hdr 0x80 (nbytes d), d).
(** the RLP encoding of a list of byte strings *)
Definition list_of (ds : list (list Z)) : list Z :=
  let pl := encs (map str ds) in rlp_hdr 0xc0 (nbytes pl) ++ pl.

(** a byte string of between lo and hi bytes *)
Definition bytes_between (lo hi : nat) (d : list Z) : Prop :=
  Forall nibble d /\ Nat.Even (length d) /\ (2 * lo <= length d <= 2 * hi)%nat.
(** parentHash, ommersHash, beneficiary, stateRoot, transactionsRoot, receiptsRoot, logsBloom, difficulty, number, gasLimit,
    gasUsed, timestamp, extraData, mixHash, nonce; baseFee (London) ; withdrawalsRoot (Shanghai) *)
Definition header_sizes : list (nat * nat) :=
  [(32, 32); (32, 32); (20, 20); (32, 32); (32, 32); (32, 32); (256, 256); (0, 7); (0, 8); (0, 4); (0, 4); (0, 4); (0, 1000); (32, 32); (8, 8);
   (0, 8); (32, 32)]%nat.
Definition eth_header (fields : list (list Z)) : Prop :=
  (15 <= length fields <= 17)%nat /\ Forall2 (fun s d => bytes_between (fst s) (snd s) d) (firstn (length fields) header_sizes) fields.
(** nonce, balance, storageRoot, codeHash; the balance has at most 12 bytes *)
Definition eth_account (fields : list (list Z)) : Prop :=
  Forall2 (fun s d => bytes_between (fst s) (snd s) d) [(0, 32); (0, 12); (32, 32); (32, 32)]%nat fields.
