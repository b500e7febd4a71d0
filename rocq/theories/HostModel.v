(** * HostModel.v — models common/utils/{string,time,plonk_util,poseidon_bn254}.go and the memory effects of Pad101Bytes
    (circuits/gadgets/keccak/periphery.go, common/circuits/keccak.go)

    Go strings and byte slices are lists of byte values; uint64 and int64 values are the integers they denote. *)
From Coq Require Import ZArith List Bool Arith.
From Verif Require Import Field RlpEnc KeccakModel GoUtilModel.
Import ListNotations.
Open Scope Z_scope.
Open Scope circ_scope.

Definition u64 (x : Z) : Z := x mod 2 ^ 64.
(** int64(x) *)
Definition i64 (x : Z) : Z := (x + 2 ^ 63) mod 2 ^ 64 - 2 ^ 63.

(** ** string.go *)
(** strconv, trusted, as used by Atoi: result of the digit loop *)
Inductive parsed := Val (n : Z) | SyntaxErr | RangeErr.
(** strconv.ParseUint(s, 10, 64) on a non-empty string: the first bad character or the first overflow ends the loop *)
Fixpoint parse_digits (n : Z) (s : list Z) : parsed :=
  match s with
  | [] => Val n
  | c :: r => if (48 <=? c) && (c <=? 57) then
                if (2 ^ 64 - 1) / 10 + 1 <=? n then RangeErr
                else let n1 := n * 10 + (c - 48) in if 2 ^ 64 <=? n1 then RangeErr else parse_digits n1 r
              else SyntaxErr
  end.
Definition parse_uint (s : list Z) : parsed := match s with [] => SyntaxErr | _ => parse_digits 0 s end.
(** strconv.ParseInt(s, 10, 64), value only *)
Definition parse_int (s : list Z) : Z :=
  match s with
  | [] => 0
  | c :: r => let neg := c =? 45 in
              let t := if (c =? 43) || neg then r else s in
              let un := match parse_uint t with Val n => Some n | RangeErr => Some (2 ^ 64 - 1) | SyntaxErr => None end in
              match un with
              | None => 0
              | Some n => if neg then (if 2 ^ 63 <? n then - 2 ^ 63 else - n) else (if 2 ^ 63 <=? n then 2 ^ 63 - 1 else n)
              end
  end.
(** strconv.Atoi, value only: fast path for fewer than 19 characters *)
Fixpoint atoi_fast (n : Z) (s : list Z) : option Z :=
  match s with [] => Some n | c :: r => if (48 <=? c) && (c <=? 57) then atoi_fast (n * 10 + (c - 48)) r else None end.
Definition atoi (s : list Z) : Z :=
  if (Nat.ltb 0 (length s) && Nat.ltb (length s) 19)%bool then
    match s with
    | [] => 0
    | c :: r => let neg := c =? 45 in
                let t := if (c =? 43) || neg then r else s in
                match t with [] => 0 | _ => match atoi_fast 0 t with Some n => if neg then - n else n | None => 0 end end
    end
  else parse_int s.
(** string.go:14-17 Str2Int: the error is dropped; int is int64 *)
Definition str2int (s : list Z) : Z := atoi s.
(** string.go:19-21 Str2Uint64 *)
Definition str2uint64 (s : list Z) : Z := u64 (str2int s).

(** ** time.go — a time.Time is its number of nanoseconds since 1970 (any integer) *)
(** time.go:9-12 TsMilli; Time.UnixNano wraps to int64 *)
Definition ts_milli (t : Z) : Z := u64 (i64 t) / 1000000.
(** time.go:14-16 TsMilliToTime: the product is a uint64 *)
Definition ts_milli_to_time (ts : Z) : Z := i64 (u64 (ts * 1000000)).
(** time.go:18-20 TsSecToTime *)
Definition ts_sec_to_time (ts : Z) : Z := i64 ts * 1000000000.

(** ** plonk_util.go *)
(** an affine point over BW6-761's scalar field: coordinates are canonical field elements *)
Record g1p := G1P { gx : Z; gy : Z }.
Record g2p := G2P { ax0 : Z; ax1 : Z; ay0 : Z; ay1 : Z }.
(** gnark std/recursion/plonk VerifyingKey.  Fields the function does not read are kept: Size, SizeInv, Generator, Qcp,
    CommitmentConstraintIndexes. *)
Record plonk_vk := VK {
  vk_nb_public : Z; vk_coset : list Z; vk_kzg_g1 : g1p; vk_kzg_g2 : list g2p; vk_s : list g1p;
  vk_ql : g1p; vk_qr : g1p; vk_qm : g1p; vk_qo : g1p; vk_qk : g1p;
  vk_size : Z; vk_size_inv : Z; vk_generator : Z; vk_qcp : list g1p; vk_indexes : list Z }.
(** big.Int.FillBytes into 48 bytes: panics if the number does not fit.  fr_761.Element.Bytes: 48 bytes, big-endian *)
Definition fill48 (x : Z) : option (list Z) :=
  guard (x <? 256 ^ 48) ;; let b := be_bytes x in Some (repeat 0 (48 - length b) ++ b).
Definition g1_words (p : g1p) : list Z := [gx p; gy p].
Definition g2_words (p : g2p) : list Z := [ax0 p; ax1 p; ay0 p; ay1 p].
(** plonk_util.go:17-93: the numbers serialised, in order *)
Definition vk_words (v : plonk_vk) : list Z :=
  [vk_nb_public v] ++ vk_coset v ++ g1_words (vk_kzg_g1 v) ++ flat_map g2_words (vk_kzg_g2 v) ++ flat_map g1_words (vk_s v) ++
  g1_words (vk_ql v) ++ g1_words (vk_qr v) ++ g1_words (vk_qm v) ++ g1_words (vk_qo v) ++ g1_words (vk_qk v).
(** plonk_util.go:13-98 CalculateAppVkHashFor761: the bytes given to the hasher *)
Definition vk_preimage (v : plonk_vk) : option (list Z) := let* ws := omap fill48 (vk_words v) in Some (concat ws).
(** plonk_util.go:100-110 CalculateAppVkHashFrom761To254: the two blocks given to BN254's MiMC; fewer than 24 bytes panic *)
Definition app_vk_blocks (h : list Z) : option (list Z * list Z) :=
  guard (Nat.leb 24 (length h)) ;; Some (mimc_block_pad0 (firstn 24 h) 32, mimc_block_pad0 (skipn 24 h) 32).

(** ** poseidon_bn254.go — the hasher keeps pointers: a heap maps addresses to the current big integers *)
Definition heap := nat -> Z.
Definition hstore (h : heap) (a : nat) (v : Z) : heap := fun b => if Nat.eqb b a then v else h b.
(** what a program can do: write a pointer, reset, or change a number it holds a pointer to *)
Inductive pop := PWrite (a : nat) | PReset | PStore (a : nat) (v : Z).
(** poseidon_bn254.go:16-18 Write, 20-22 Reset *)
Definition pstep (s : list nat * heap) (o : pop) : list nat * heap :=
  match o with PWrite a => (fst s ++ [a], snd s) | PReset => ([], snd s) | PStore a v => (fst s, hstore (snd s) a v) end.
(** poseidon_bn254.go:12-14 NewPoseidonBn254 followed by the operations *)
Definition prun (h : heap) (ops : list pop) : list nat * heap := fold_left pstep ops ([], h).
(** poseidon_bn254.go:24-26 Sum: go-iden3-crypto's poseidon.Hash on the numbers the pointers now point to *)
Definition psum (poseidon : list Z -> option Z) (s : list nat * heap) : option Z := poseidon (map (snd s) (fst s)).

(** ** Go slices in memory, for Pad101Bytes *)
(** backing arrays by address; a slice is an array, an offset, a length and a capacity *)
Definition mem := nat -> list Z.
Record slice := Slice { s_arr : nat; s_off : nat; s_len : nat; s_cap : nat }.
Definition contents (m : mem) (s : slice) : list Z := firstn (s_len s) (skipn (s_off s) (m (s_arr s))).
Definition mem_upd (m : mem) (a : nat) (l : list Z) : mem := fun b => if Nat.eqb b a then l else m b.
(** next: the next unused address; [grow] is the runtime's growth policy (any capacity larger than the length) *)
Record gstate := GState { g_mem : mem; g_next : nat }.
Section G.
Variable grow : nat -> nat.
(** append(s, x) *)
Definition go_append (st : gstate) (s : slice) (x : Z) : gstate * slice :=
  if Nat.ltb (s_len s) (s_cap s) then
    (GState (mem_upd (g_mem st) (s_arr s) (upd (s_off s + s_len s) x (g_mem st (s_arr s)))) (g_next st),
     Slice (s_arr s) (s_off s) (S (s_len s)) (s_cap s))
  else
    let cap := Nat.max (S (s_len s)) (grow (s_len s)) in
    (GState (mem_upd (g_mem st) (g_next st) (contents (g_mem st) s ++ [x] ++ repeat 0 (cap - S (s_len s)))) (S (g_next st)),
     Slice (g_next st) 0 (S (s_len s)) cap).
(** s[i] ^= v *)
Definition go_xor_at (st : gstate) (s : slice) (i : nat) (v : Z) : gstate :=
  let l := g_mem st (s_arr s) in
  GState (mem_upd (g_mem st) (s_arr s) (upd (s_off s + i) (Z.lxor (nth (s_off s + i) l 0) v) l)) (g_next st).
(** periphery.go:22-33 and common/circuits/keccak.go:7-18 Pad101Bytes *)
Definition pad101_mem (st : gstate) (s : slice) : gstate * slice :=
  let miss := if Nat.eqb (s_len s mod 136) 0 then 136%nat else (136 - s_len s mod 136)%nat in
  let '(st1, d) := go_append st s 1 in
  let '(st2, d) := fold_left (fun '(st, d) _ => go_append st d 0) (seq 0 (miss - 1)) (st1, d) in
  (go_xor_at st2 d (s_len d - 1) 0x80, d).
End G.
