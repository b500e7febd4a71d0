(** * H2CSpec.v — RFC 9380 hash_to_field for the suite with expand_message_xmd, H = SHA-256, m = 2, L = 64, and the constants of
    BLS12381G2_XMD:SHA-256_SSWU_RO_ (specification; nothing here is taken from the code) *)
From Coq Require Import ZArith List Bool Arith String Ascii.
From Verif Require Import FieldZ PrimeBls TowerModel ShaSpec.
Import ListNotations.
Open Scope Z_scope.

(** ** RFC 9380 section 5.3.1, 5.2 (octet strings are lists of Z) *)
(** the ASCII bytes of a string *)
Definition ascii_bytes (s : string) : list Z := map (fun c => Z.of_nat (nat_of_ascii c)) (list_ascii_of_string s).
(** I2OSP(x, n), OS2IP, strxor *)
Definition I2OSP (x : Z) (n : nat) : list Z := be_bytes n x.
Definition OS2IP (s : list Z) : Z := fold_left (fun a b => 256 * a + b) s 0.
Definition strxor (a b : list Z) : list Z := map (fun ab => Z.lxor (fst ab) (snd ab)) (combine a b).
(** the domain separation tag used by the package *)
Definition dst : list Z := ascii_bytes "BLS_SIG_BLS12381G2_XMD:SHA-256_SSWU_RO_POP_".
Definition dst_prime : list Z := dst ++ I2OSP (Z.of_nat (List.length dst)) 1.
(** step 6: msg_prime *)
Definition msg_prime (msg : list Z) (len : nat) : list Z := I2OSP 0 64 ++ msg ++ I2OSP (Z.of_nat len) 2 ++ I2OSP 0 1 ++ dst_prime.
(** steps 7-9: b_0 and b_(k+1), k >= 0 *)
Definition b_0 (msg : list Z) (len : nat) : list Z := sha256 (msg_prime msg len).
Fixpoint b_S (msg : list Z) (len k : nat) : list Z :=
  match k with
  | O => sha256 (b_0 msg len ++ I2OSP 1 1 ++ dst_prime)
  | S j => sha256 (strxor (b_0 msg len) (b_S msg len j) ++ I2OSP (Z.of_nat (k + 1)) 1 ++ dst_prime)
  end.
(** steps 1, 10-12; ell = ceil(len / 32) *)
Definition expand_message_xmd (msg : list Z) (len : nat) : list Z :=
  firstn len (flat_map (b_S msg len) (seq 0 ((len + 31) / 32))).
(** section 5.2, with m = 2 and L = 64 *)
Definition hash_to_field_spec (msg : list Z) (count : nat) : list E2 :=
  let uniform := expand_message_xmd msg (count * 2 * 64) in
  map (fun i => let e j := fc (OS2IP (firstn 64 (skipn (64 * (j + i * 2)) uniform))) in mkE2 (e 0%nat) (e 1%nat)) (seq 0 count).

(** ** RFC 9380 section 8.8.2 and appendix E.3 *)
(** an element a + b*I of F_p^2, by integers *)
Definition cx (a b : Z) : E2 := mkE2 (fc a) (fc b).
(** section 4.1: sgn0 for F_p^2 *)
Definition sgn0 (u : E2) : bool :=
  let sign_0 := Z.odd (fval (A0 u)) in
  let zero_0 := fval (A0 u) =? 0 in
  let sign_1 := Z.odd (fval (A1 u)) in
  sign_0 || (zero_0 && sign_1).
