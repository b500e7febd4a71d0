(** * ShaFast.v — evaluating the reference SHA-512 on concrete messages with the round constants tabulated (the table is the one of
    the Go code, proved equal to the FIPS 180-4 constants in Props_Sha.agree512) *)
From Coq Require Import ZArith List Lia.
From Verif Require Import ShaSpec ShaModel ShaWords Props_Sha.
Import ListNotations.
Open Scope Z_scope.

Section S.
Variables (c : sha2) (tab : list Z) (init : list Z).
Let w := sp_w c.
Definition round_t (ws : list Z) (t : nat) (st : list Z) : list Z :=
  match st with
  | [a; b; cc; d; e; f; g; h] =>
      let T1 := (h + Sigma c (sp_S1 c) e + Ch c e f g + nth t tab 0 + nth t ws 0) mod 2 ^ w in
      let T2 := (Sigma c (sp_S0 c) a + Maj a b cc) mod 2 ^ w in
      [(T1 + T2) mod 2 ^ w; a; b; cc; (d + T1) mod 2 ^ w; e; f; g]
  | _ => st
  end.
Fixpoint rounds_t (n : nat) (ws st : list Z) : list Z := match n with O => st | S k => round_t ws k (rounds_t k ws st) end.
Definition compress_t (h blk : list Z) : list Z :=
  let ws := schedule c (sp_rounds c - 16) (words_of c blk) in
  let st := rounds_t (sp_rounds c) ws h in
  map (fun ab => (fst ab + snd ab) mod 2 ^ w) (combine h st).
Definition sha_t (m : list Z) : list Z :=
  flat_map (be_bytes (wbytes c)) (fold_left compress_t (blocks c (length (pad c m) / block_bytes c) (pad c m)) init).
Hypothesis HK : forall t, (t < sp_rounds c)%nat -> nth t tab 0 = ShaSpec.K c t.
Hypothesis HI : init = H0 c.
Lemma rounds_t_ok : forall n ws st, (n <= sp_rounds c)%nat -> rounds_t n ws st = rounds c n ws st.
Proof.
  induction n as [| n IH]; intros ws st Hn; [reflexivity |]. cbn [rounds_t rounds]. rewrite IH by lia. unfold round_t, round. rewrite HK by lia. reflexivity.
Qed.
Lemma compress_t_ok : forall h blk, compress_t h blk = compress c h blk.
Proof. intros. unfold compress_t, compress. rewrite rounds_t_ok by lia. reflexivity. Qed.
Lemma sha_t_ok : forall m, sha_t m = sha c m.
Proof.
  intros m. unfold sha_t, sha, hash_words. rewrite HI. f_equal. generalize (H0 c) as h. induction (blocks c _ _) as [| b l IH]; intros h; [reflexivity |].
  cbn [fold_left]. rewrite compress_t_ok. apply IH.
Qed.
End S.
Definition sha512_t (m : list Z) : list Z := sha_t sha512p (cK sha512_code) (cInit sha512_code) m.
Lemma sha512_t_ok : forall m, sha512_t m = sha512 m.
Proof.
  intros m. pose proof agree512 as A. apply sha_t_ok.
  - intros t Ht. apply (ag_K _ _ A). exact Ht.
  - apply (ag_init _ _ A).
Qed.

(** bytes of a number by shifting instead of dividing *)
Fixpoint le_fast (n : nat) (x : Z) : list Z := match n with O => [] | S k => Z.land x 255 :: le_fast k (Z.shiftr x 8) end.
Lemma le_fast_ok : forall n x, le_fast n x = map (fun i => (x / 2 ^ (8 * Z.of_nat i)) mod 256) (seq 0 n).
Proof.
  induction n as [| n IH]; intros x; [reflexivity |]. cbn [le_fast]. rewrite IH. rewrite <- cons_seq, <- seq_shift. cbn [map]. rewrite map_map. apply f_equal2.
  - change 255 with (Z.ones 8). rewrite Z.land_ones by lia. change (8 * Z.of_nat 0) with 0. rewrite Z.pow_0_r, Z.div_1_r. reflexivity.
  - apply map_ext. intros i. rewrite Z.shiftr_div_pow2 by lia. rewrite Z.div_div by (try apply Z.pow_pos_nonneg; lia). rewrite <- Z.pow_add_r by lia. do 3 f_equal. lia.
Qed.
Lemma be_fast_ok : forall n x, rev (le_fast n x) = be_bytes n x.
Proof.
  intros n x. rewrite le_fast_ok. unfold be_bytes. rewrite <- map_rev. 
  assert (R : forall k, rev (seq 0 k) = map (fun i => (k - 1 - i)%nat) (seq 0 k)).
  { intros k. apply (nth_ext _ _ 0%nat 0%nat); [rewrite rev_length, map_length; reflexivity |]. intros i Hi. rewrite rev_length, seq_length in Hi.
    rewrite rev_nth by (rewrite seq_length; exact Hi). rewrite seq_length, seq_nth by lia.
    rewrite (nth_indep _ 0%nat ((fun i => (k - 1 - i)%nat) 0%nat)) by (rewrite map_length, seq_length; exact Hi). rewrite (map_nth (fun i => (k - 1 - i)%nat)), seq_nth by exact Hi. lia. }
  rewrite R, map_map. reflexivity.
Qed.
