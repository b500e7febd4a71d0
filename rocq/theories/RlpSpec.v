(** * RlpSpec.v — independent specification of RLP (Ethereum yellow paper, appendix B) on nibble strings.
    Structural RLP only: minimality of length fields is not required. *)
From Coq Require Import ZArith List Lia Bool.
Import ListNotations.
Open Scope Z_scope.

(** A hexadecimal digit. *)
Definition nibble (x : Z) : Prop := 0 <= x < 16.

(** Big-endian value of a nibble string. *)
Definition hexval (l : list Z) : Z := fold_left (fun acc d => 16 * acc + d) l 0.

(** The two nibbles of a byte. *)
Definition byte_nibbles (b : Z) : list Z := [b / 16; b mod 16].

(** The first byte of an RLP item. *)
Inductive rlp_head : Type :=
| HLiteral                 (* 0x00-0x7f: the byte is its own payload *)
| HShortString (len : Z)   (* 0x80-0xb7: payload of len bytes follows *)
| HLongString (lenlen : Z) (* 0xb8-0xbf: lenlen bytes of length follow *)
| HShortList (len : Z)     (* 0xc0-0xf7 *)
| HLongList (lenlen : Z).  (* 0xf8-0xff *)

Definition classify (b : Z) : rlp_head :=
  if b <=? 0x7f then HLiteral
  else if b <=? 0xb7 then HShortString (b - 0x80)
  else if b <=? 0xbf then HLongString (b - 0xb7)
  else if b <=? 0xf7 then HShortList (b - 0xc0)
  else HLongList (b - 0xf7).

Definition is_list_head (h : rlp_head) : bool :=
  match h with HShortList _ | HLongList _ => true | _ => false end.

(** [rlp_item enc hdr payload]: the nibble string [enc] is one RLP item: header [hdr] followed by [payload]
    (payload of a list item = its concatenated members). *)
Inductive rlp_item : list Z -> list Z -> list Z -> Prop :=
| item_literal : forall b, 0 <= b < 128 -> rlp_item (byte_nibbles b) [] (byte_nibbles b)
| item_short : forall b len payload,
    classify b = HShortString len \/ classify b = HShortList len -> 0 <= b < 256 ->
    Z.of_nat (length payload) = 2 * len ->
    rlp_item (byte_nibbles b ++ payload) (byte_nibbles b) payload
| item_long : forall b lenlen ln payload,
    classify b = HLongString lenlen \/ classify b = HLongList lenlen -> 0 <= b < 256 ->
    Z.of_nat (length ln) = 2 * lenlen -> Forall nibble ln ->
    Z.of_nat (length payload) = 2 * hexval ln ->
    rlp_item (byte_nibbles b ++ ln ++ payload) (byte_nibbles b ++ ln) payload.

(** An item whose header announces a list. *)
Definition list_header (hdr : list Z) : Prop :=
  exists b rest, hdr = byte_nibbles b ++ rest /\ 0 <= b < 256 /\ is_list_head (classify b) = true.

(** An item as the pair (header nibbles, payload nibbles). *)
Definition item : Type := (list Z * list Z)%type.
Definition enc (it : item) : list Z := fst it ++ snd it.
Definition hdr (it : item) : list Z := fst it.
Definition payload (it : item) : list Z := snd it.
Definition is_item (it : item) : Prop := rlp_item (enc it) (hdr it) (payload it).
Definition encs (its : list item) : list Z := concat (map enc its).

(** The two nibbles 0xc0: the encoding of the empty list. *)
Definition empty_list_enc : list Z := [12; 0].

(** [s] is what one reads from [buf] starting at its front, wrapping around at its end.  When [s] is not
    longer than [buf] this is just "buf starts with s" (lemma reads_prefix). *)
Definition reads (buf s : list Z) : Prop :=
  forall k, (k < length s)%nat -> nth k s 0 = nth (k mod length buf) buf 0.
