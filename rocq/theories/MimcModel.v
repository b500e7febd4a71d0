(** * MimcModel.v — models circuits/gadgets/emulated/mimc/{mimc,encrypt}.go

    An emulated element is its value modulo [q] (the modulus of the emulated field); gnark's emulated arithmetic is trusted. *)
From Coq Require Import ZArith List Bool.
Import ListNotations.
Open Scope Z_scope.

(** gnark-crypto's ecc.ID; every curve other than the three named ones behaves alike *)
Inductive curve := BLS12_377 | BN254 | BW6_761 | OtherCurve.
(** mimc.go:14-20 *)
Record mimc_state := Mimc { params : list Z; mh : Z; mdata : list Z; mecc : curve }.

Section M.
Variable q : Z.
(** gnark-crypto's GetConstants of the three curves: not modelled, any lists *)
Variable constants : curve -> list Z.

Definition eadd (a b : Z) : Z := (a + b) mod q.
Definition emul (a b : Z) : Z := (a * b) mod q.
(** mimc.go:22-42 NewMiMC *)
Definition new_mimc (id : curve) : mimc_state :=
  Mimc (match id with BLS12_377 => constants BLS12_377 | BN254 => constants BN254 | BW6_761 => constants BW6_761 | OtherCurve => constants BLS12_377 end) 0 [] id.
(** encrypt.go:7-13 encryptPow17 *)
Definition pow17 (x : Z) : Z := let r := emul x x in let r := emul r r in let r := emul r r in let r := emul r r in emul r x.
(** encrypt.go:15-19 encryptPow5 *)
Definition pow5 (x : Z) : Z := let r := emul x x in let s := emul r r in emul s x.
(** mimc.go:50-68 encrypt *)
Definition encrypt (s : mimc_state) (m : Z) : Z :=
  eadd (fold_left (fun x c => let tmp := eadd (eadd x (mh s)) c in
                              match mecc s with BLS12_377 => pow17 tmp | BN254 | BW6_761 => pow5 tmp | OtherCurve => pow17 tmp end) (params s) m) (mh s).
(** mimc.go:70-72 Write *)
Definition m_write (s : mimc_state) (xs : list Z) : mimc_state := Mimc (params s) (mh s) (mdata s ++ xs) (mecc s).
(** mimc.go:74-77 Reset *)
Definition m_reset (s : mimc_state) : mimc_state := Mimc (params s) 0 [] (mecc s).
(** mimc.go:79-86 Sum: h.data is kept *)
Definition m_sum (s : mimc_state) : mimc_state * Z :=
  let h := fold_left (fun h m => let r := encrypt (Mimc (params s) h (mdata s) (mecc s)) m in eadd (eadd h r) m) (mdata s) (mh s) in
  (Mimc (params s) h (mdata s) (mecc s), h mod q).
(** mimc.go:44-48 Hash *)
Definition m_hash (s : mimc_state) (xs : list Z) : mimc_state * Z := m_sum (m_write (m_reset s) xs).

(** the exported methods, as a history of calls *)
Inductive call := Write (xs : list Z) | Reset | Sum | Hash (xs : list Z).
Definition step (s : mimc_state) (c : call) : mimc_state * list Z :=
  match c with
  | Write xs => (m_write s xs, [])
  | Reset => (m_reset s, [])
  | Sum => let '(s', r) := m_sum s in (s', [r])
  | Hash xs => let '(s', r) := m_hash s xs in (s', [r])
  end.
Fixpoint run (s : mimc_state) (cs : list call) : mimc_state * list Z :=
  match cs with [] => (s, []) | c :: r => let '(s1, o1) := step s c in let '(s2, o2) := run s1 r in (s2, o1 ++ o2) end.
End M.
