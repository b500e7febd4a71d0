(** * Props_Sha.v — properties C20, C21 and C22 of circuits/gadgets/sha256 and circuits/gadgets/sha512

    [run p code ops] is what a client that creates a hasher with New and then makes the calls ops obtains: None when some
    constraint is unsatisfiable (or the code panics), otherwise the final state and the outputs of its Sum calls in order.
    [sha256], [sha512] are the FIPS 180-4 functions of ShaSpec.v.  The only fact used about the field is 2^70 < p, which
    the scalar field of BN254 satisfies. *)
From Coq Require Import ZArith List Bool Arith Lia.
From Verif Require Import Field FieldLemmas KeccakModel KeccakWords ShaModel ShaSpec ShaWords ShaBlock ShaStream.
Import ListNotations.
Open Scope Z_scope.
Open Scope circ_scope.

(** ** Specification of a history: the digests of the bytes written since the last Reset *)
Fixpoint digests (H : list Z -> list Z) (m : list Z) (ops : list op) : list (list Z) :=
  match ops with
  | [] => []
  | OpWrite vs :: r => digests H (m ++ vs) r
  | OpReset :: r => digests H [] r
  | OpSum :: r => H m :: digests H m r
  end.
(** every value written is a field element; every value written is a byte; number of values written *)
Definition felts (p : Z) (ops : list op) : Prop := forall vs, In (OpWrite vs) ops -> forall v, In v vs -> 0 <= v < p.
Definition bytes (ops : list op) : Prop := forall vs, In (OpWrite vs) ops -> forall v, In v vs -> 0 <= v < 256.
Definition total (ops : list op) : nat := list_sum (map (fun o => match o with OpWrite vs => length vs | _ => 0%nat end) ops).
Definition outputs (p : Z) (c : sha_code) (ops : list op) : option (list (list Z)) := let* r := run p c ops in Some (snd r).

Lemma agree256 : agree sha256_code sha256p.
Proof.
  constructor.
  - reflexivity.
  - exists 4%nat. split; [reflexivity|lia].
  - reflexivity.
  - reflexivity.
  - cbn [cRounds sha256_code]. lia.
  - cbn [cRounds cWArr sha256_code]. lia.
  - intros t Ht. change (cRounds sha256_code) with 64%nat in Ht.
    assert (E : map (fun t => nth t (cK sha256_code) 0) (seq 0 64) = map (ShaSpec.K sha256p) (seq 0 64)) by (vm_compute; reflexivity).
    pose proof (f_equal (fun l => nth t l 0) E) as E'. cbv beta in E'. rewrite !nth_map_seq in E' by exact Ht. exact E'.
  - vm_compute. reflexivity.
  - split; [reflexivity|]. cbn [cE cA cV1 cV2 cW sha256_code]. lia.
  - split; [reflexivity|]. cbn [cE cA cV1 cV2 cW sha256_code]. lia.
  - split; [reflexivity|]. cbn [cE cA cV1 cV2 cW sha256_code]. lia.
  - split; [reflexivity|]. cbn [cE cA cV1 cV2 cW sha256_code]. lia.
  - intros n Hn. destruct n as [|[|[|[|n]]]]; [| | | |lia]; (split; [cbn [cAddDigits cW sha256_code]; lia|]); apply Z.leb_le; vm_compute; reflexivity.
  - reflexivity.
  - cbn [sp_lenbytes sha256p]. lia.
  - cbn [sp_lenbytes sha256p cChunk sha256_code]. lia.
Qed.
Lemma agree512 : agree sha512_code sha512p.
Proof.
  constructor.
  - reflexivity.
  - exists 8%nat. split; [reflexivity|lia].
  - reflexivity.
  - reflexivity.
  - cbn [cRounds sha512_code]. lia.
  - cbn [cRounds cWArr sha512_code]. lia.
  - intros t Ht. change (cRounds sha512_code) with 80%nat in Ht.
    assert (E : map (fun t => nth t (cK sha512_code) 0) (seq 0 80) = map (ShaSpec.K sha512p) (seq 0 80)) by (vm_compute; reflexivity).
    pose proof (f_equal (fun l => nth t l 0) E) as E'. cbv beta in E'. rewrite !nth_map_seq in E' by exact Ht. exact E'.
  - vm_compute. reflexivity.
  - split; [reflexivity|]. cbn [cE cA cV1 cV2 cW sha512_code]. lia.
  - split; [reflexivity|]. cbn [cE cA cV1 cV2 cW sha512_code]. lia.
  - split; [reflexivity|]. cbn [cE cA cV1 cV2 cW sha512_code]. lia.
  - split; [reflexivity|]. cbn [cE cA cV1 cV2 cW sha512_code]. lia.
  - intros n Hn. destruct n as [|[|[|[|n]]]]; [| | | |lia]; (split; [cbn [cAddDigits cW sha512_code]; lia|]); apply Z.leb_le; vm_compute; reflexivity.
  - reflexivity.
  - cbn [sp_lenbytes sha512p]. lia.
  - cbn [sp_lenbytes sha512p cChunk sha512_code]. lia.
Qed.

Lemma digests_spec s : forall ops m outs, snd (fold_left (spec_step s) ops (m, outs)) = outs ++ digests (sha s) m ops.
Proof.
  induction ops as [|[vs| |] ops IH]; intros m outs; cbn [fold_left spec_step digests]; [symmetry; apply app_nil_r|apply IH|apply IH|].
  rewrite IH, <- app_assoc. reflexivity.
Qed.
Lemma Forall_felts p ops : felts p ops <-> Forall (op_felts p) ops.
Proof.
  unfold felts. rewrite Forall_forall. split; intros H o.
  - intros Ho. destruct o; cbn; auto. apply Forall_forall. intros v Hv. exact (H _ Ho v Hv).
  - intros Ho v Hv. specialize (H _ Ho). cbn in H. rewrite Forall_forall in H. apply H. auto.
Qed.
Lemma Forall_bytes ops : bytes ops <-> Forall op_bytes ops.
Proof.
  unfold bytes. rewrite Forall_forall. split; intros H o.
  - intros Ho. destruct o; cbn; auto. apply Forall_forall. intros v Hv. exact (H _ Ho v Hv).
  - intros Ho v Hv. specialize (H _ Ho). cbn in H. rewrite Forall_forall in H. apply H. auto.
Qed.
Lemma total_written ops : fold_right (fun o n => written o + n)%nat 0%nat ops = total ops.
Proof. induction ops as [|o ops IH]; [reflexivity|]. unfold total in *. cbn [fold_right map list_sum]. rewrite IH. reflexivity. Qed.

Lemma history p c s : 2 ^ 70 < p -> agree c s -> forall ops outs, felts p ops -> Z.of_nat (total ops) < 2 ^ 61 ->
  outputs p c ops = Some outs <-> bytes ops /\ outs = digests (sha s) [] ops.
Proof.
  intros Hp Hag ops outs Hf Ht. rewrite Forall_felts in Hf. rewrite Forall_bytes.
  destruct (run_ok p Hp c s Hag ops (new c) [] [] (new_ok c s Hag) Hf) as [G1 G2]; [rewrite total_written; cbn [length]; lia|].
  unfold outputs, run. split.
  - intros H. apply obind_Some in H. destruct H as [rr [H1 H2]]. pose proof (G2 _ H1) as Fb. split; [exact Fb|].
    destruct (G1 Fb) as (d' & E & _). rewrite E in H1. injection H1 as <-. injection H2 as <-. cbn [snd]. rewrite digests_spec. reflexivity.
  - intros [Fb ->]. destruct (G1 Fb) as (d' & E & _). rewrite E. cbn [obind snd]. rewrite digests_spec. reflexivity.
Qed.

(** ** C20: histories *)
(** For every history of Write, Sum and Reset calls on field elements, the calls are satisfiable exactly when everything
    written is a byte, and then each Sum returns the digest of the concatenation of the writes since the last Reset. *)
Theorem C20_sha256_history : forall p ops outs, 2 ^ 70 < p -> felts p ops -> Z.of_nat (total ops) < 2 ^ 61 ->
  outputs p sha256_code ops = Some outs <-> bytes ops /\ outs = digests sha256 [] ops.
Proof. intros. apply (history p sha256_code sha256p); auto using agree256. Qed.
Theorem C20_sha512_history : forall p ops outs, 2 ^ 70 < p -> felts p ops -> Z.of_nat (total ops) < 2 ^ 61 ->
  outputs p sha512_code ops = Some outs <-> bytes ops /\ outs = digests sha512 [] ops.
Proof. intros. apply (history p sha512_code sha512p); auto using agree512. Qed.

Definition writes (ws : list (list Z)) : list op := map OpWrite ws.
Lemma digests_writes H : forall ws m r, digests H m (writes ws ++ r) = digests H (m ++ concat ws) r.
Proof.
  induction ws as [|w ws IH]; intros m r; cbn [writes map app digests concat]; [rewrite app_nil_r; reflexivity|]. rewrite app_assoc. apply IH.
Qed.
Lemma total_writes ws r : total (writes ws ++ r) = (length (concat ws) + total r)%nat.
Proof.
  unfold total, writes. rewrite map_app, list_sum_app. f_equal. rewrite map_map. induction ws as [|w ws IH]; [reflexivity|].
  cbn [map list_sum fold_right concat]. rewrite app_length. unfold list_sum in *. cbn [fold_right]. lia.
Qed.
Lemma writes_In ws r vs : (forall w, ~ In (OpWrite w) r) -> In (OpWrite vs) (writes ws ++ r) <-> In vs ws.
Proof.
  intros Hr. rewrite in_app_iff. unfold writes. rewrite in_map_iff. split.
  - intros [[w [E Hw]]|H]; [injection E as ->; auto|destruct (Hr _ H)].
  - intros H. left. exists vs. auto.
Qed.

Lemma split_gen p c s : 2 ^ 70 < p -> agree c s -> forall ws, (forall b, In b (concat ws) -> 0 <= b < 256) -> Z.of_nat (length (concat ws)) < 2 ^ 61 ->
  outputs p c (writes ws ++ [OpSum]) = Some [sha s (concat ws)].
Proof.
  intros Hp Hag ws Hb Hl. assert (H256 : 256 < 2 ^ 70) by reflexivity.
  assert (By : bytes (writes ws ++ [OpSum])).
  { intros vs Hvs v Hv. apply writes_In in Hvs; [|intros w [E|[]]; discriminate]. apply Hb. apply in_concat. eauto. }
  apply (history p c s Hp Hag).
  - intros vs Hvs v Hv. specialize (By vs Hvs v Hv). lia.
  - rewrite total_writes. unfold total. cbn [map list_sum fold_right]. lia.
  - split; [exact By|]. rewrite digests_writes. reflexivity.
Qed.

(** Splitting: however a byte string is cut into Writes, Sum is the same. *)
Theorem C20_split_independent : forall p ws ws', 2 ^ 70 < p -> concat ws = concat ws' ->
  (forall b, In b (concat ws) -> 0 <= b < 256) -> Z.of_nat (length (concat ws)) < 2 ^ 61 ->
  outputs p sha256_code (writes ws ++ [OpSum]) = outputs p sha256_code (writes ws' ++ [OpSum]) /\
  outputs p sha512_code (writes ws ++ [OpSum]) = outputs p sha512_code (writes ws' ++ [OpSum]) /\
  outputs p sha256_code (writes ws ++ [OpSum]) <> None.
Proof.
  intros p ws ws' Hp E Hb Hl. rewrite (split_gen p _ _ Hp agree256 ws), (split_gen p _ _ Hp agree512 ws) by auto. rewrite E in *.
  rewrite (split_gen p _ _ Hp agree256 ws'), (split_gen p _ _ Hp agree512 ws') by auto. repeat split. discriminate.
Qed.

(** ** C21: the digest is the FIPS 180-4 digest *)
Theorem C21_sha256_fips : forall p m, 2 ^ 70 < p -> (forall b, In b m -> 0 <= b < 256) -> Z.of_nat (length m) < 2 ^ 61 ->
  outputs p sha256_code [OpWrite m; OpSum] = Some [sha256 m].
Proof.
  intros p m Hp Hb Hl. pose proof (split_gen p _ _ Hp agree256 [m]) as G. cbn [concat] in G. rewrite app_nil_r in G. exact (G Hb Hl).
Qed.
Theorem C21_sha512_fips : forall p m, 2 ^ 70 < p -> (forall b, In b m -> 0 <= b < 256) -> Z.of_nat (length m) < 2 ^ 61 ->
  outputs p sha512_code [OpWrite m; OpSum] = Some [sha512 m].
Proof.
  intros p m Hp Hb Hl. pose proof (split_gen p _ _ Hp agree512 [m]) as G. cbn [concat] in G. rewrite app_nil_r in G. exact (G Hb Hl).
Qed.
(** A written value that is not a byte makes the circuit unsatisfiable: nothing outside the standard's domain is hashed. *)
Theorem C21_non_byte_rejected : forall p m, 2 ^ 70 < p -> (forall b, In b m -> 0 <= b < p) -> Z.of_nat (length m) < 2 ^ 61 -> (exists b, In b m /\ 256 <= b) ->
  outputs p sha256_code [OpWrite m; OpSum] = None /\ outputs p sha512_code [OpWrite m; OpSum] = None.
Proof.
  intros p m Hp Hf Hl [b [Hb Hge]].
  assert (F : felts p [OpWrite m; OpSum]) by (intros vs [E|[E|[]]]; [injection E as <-; auto|discriminate]).
  assert (T : Z.of_nat (total [OpWrite m; OpSum]) < 2 ^ 61) by (unfold total; cbn [map list_sum fold_right]; lia).
  assert (N : ~ bytes [OpWrite m; OpSum]) by (intros By; specialize (By m (or_introl eq_refl) b Hb); lia).
  split.
  - destruct (outputs p sha256_code [OpWrite m; OpSum]) eqn:E; [|reflexivity]. apply (history p _ _ Hp agree256) in E; auto. tauto.
  - destruct (outputs p sha512_code [OpWrite m; OpSum]) eqn:E; [|reflexivity]. apply (history p _ _ Hp agree512) in E; auto. tauto.
Qed.

(** ** C22: word addition *)
(** On words in binary, add returns the binary sum modulo 2^32 and is satisfiable, for every number of operands. *)
Theorem C22_add32 : forall p ws, 2 ^ 70 < p -> (forall w, In w ws -> 0 <= w < 2 ^ 32) -> (2 <= length ws)%nat -> Z.of_nat (length ws) <= 2 ^ 38 ->
  w_add p sha256_code (map (bits_le 32) ws) = Some (bits_le 32 (fold_right Z.add 0 ws mod 2 ^ 32)).
Proof.
  intros p ws Hp Hw Hn Hm.
  assert (E : fold_right Z.add 0 ws = sumZ ws) by (unfold sumZ; symmetry; apply fold_symmetric; intros; lia). rewrite E.
  apply (w_add_gen p Hp sha256_code sha256p agree256).
  - apply Forall_forall. intros x Hx. apply Hw. auto.
  - destruct ws; [cbn in Hn; lia|congruence].
  - cbn [cAddDigits sha256_code cW]. lia.
  - cbn [cAddDigits sha256_code cW]. change (Z.of_nat 32) with 32.
    assert (G : forall k, Z.of_nat (k + 2) * 2 ^ 32 <= 2 ^ Z.of_nat (33 + k)).
    { induction k as [|k IH]; [vm_compute; congruence|]. replace (Z.of_nat (33 + S k)) with (Z.succ (Z.of_nat (33 + k))) by lia. rewrite Z.pow_succ_r by lia.
      replace (Z.of_nat (S k + 2)) with (Z.of_nat (k + 2) + 1) by lia. assert (1 * 2 ^ 32 <= Z.of_nat (k + 2) * 2 ^ 32) by (apply Z.mul_le_mono_nonneg_r; lia). lia. }
    specialize (G (length ws - 2)%nat). replace (length ws - 2 + 2)%nat with (length ws) in G by lia. exact G.
  - cbn [cW sha256_code]. change (Z.of_nat 32) with 32. assert (2 ^ 38 * 2 ^ 32 = 2 ^ 70) by reflexivity.
    assert (Z.of_nat (length ws) * 2 ^ 32 <= 2 ^ 38 * 2 ^ 32) by (apply Z.mul_le_mono_nonneg_r; lia). lia.
Qed.
(** The 64-bit add always allots 68 digits: it is right for up to 16 operands. *)
Theorem C22_add64 : forall p ws, 2 ^ 70 < p -> (forall w, In w ws -> 0 <= w < 2 ^ 64) -> (1 <= length ws <= 16)%nat ->
  w_add p sha512_code (map (bits_le 64) ws) = Some (bits_le 64 (fold_right Z.add 0 ws mod 2 ^ 64)).
Proof.
  intros p ws Hp Hw Hn.
  assert (E : fold_right Z.add 0 ws = sumZ ws) by (unfold sumZ; symmetry; apply fold_symmetric; intros; lia). rewrite E.
  assert (P : Z.of_nat (length ws) * 2 ^ 64 <= 16 * 2 ^ 64) by (apply Z.mul_le_mono_nonneg_r; lia).
  assert (16 * 2 ^ 64 = 2 ^ 68) by reflexivity. assert (2 ^ 68 < 2 ^ 70) by reflexivity.
  apply (w_add_gen p Hp sha512_code sha512p agree512).
  - apply Forall_forall. intros x Hx. apply Hw. auto.
  - destruct ws; [cbn in Hn; lia|congruence].
  - cbn [cAddDigits sha512_code cW]. lia.
  - cbn [cAddDigits sha512_code cW]. change (Z.of_nat 64) with 64. change (Z.of_nat 68) with 68. lia.
  - cbn [cW sha512_code]. change (Z.of_nat 64) with 64. lia.
Qed.
(** With 17 operands it is not: 17 maximal words make it unsatisfiable (the repository never calls it with more than 5). *)
Theorem C22_add64_17_refuted : exists ws, length ws = 17%nat /\ (forall w, In w ws -> 0 <= w < 2 ^ 64) /\
  w_add 21888242871839275222246405745257275088548364400416034343698204186575808495617 sha512_code (map (bits_le 64) ws) = None.
Proof.
  exists (repeat (2 ^ 64 - 1) 17). split; [reflexivity|]. split.
  - intros w Hw. apply repeat_spec in Hw. subst w. split; vm_compute; congruence.
  - vm_compute. reflexivity.
Qed.

(** Non-trivial instances of the hypotheses *)
Definition r_bn254 : Z := 21888242871839275222246405745257275088548364400416034343698204186575808495617.
Example C20_example : 2 ^ 70 < r_bn254 /\
  (let ops := [OpWrite [97; 98]; OpSum; OpWrite [99]; OpSum; OpReset; OpSum] in felts r_bn254 ops /\ bytes ops /\ total ops = 3%nat /\
   digests sha256 [] ops = [sha256 [97; 98]; sha256 [97; 98; 99]; sha256 []]).
Proof.
  split; [reflexivity|]. cbv zeta. assert (B : bytes [OpWrite [97; 98]; OpSum; OpWrite [99]; OpSum; OpReset; OpSum]).
  { intros vs Hvs v Hv. cbn in Hvs. decompose [or] Hvs; try discriminate; try contradiction; match goal with H : OpWrite _ = _ |- _ => injection H as <- end; cbn in Hv; lia. }
  split; [|split; [exact B|split; reflexivity]]. intros vs Hvs v Hv. specialize (B vs Hvs v Hv). unfold r_bn254. lia.
Qed.
(** a value above 255 is a witness for C21_non_byte_rejected; five maximal words for C22 *)
Example C21_example : exists b, In b [1; 256] /\ 256 <= b. Proof. exists 256. cbn. lia. Qed.
Example C22_example : w_add r_bn254 sha256_code (map (bits_le 32) (repeat (2 ^ 32 - 1) 5)) = Some (bits_le 32 ((5 * (2 ^ 32 - 1)) mod 2 ^ 32)).
Proof. vm_compute. reflexivity. Qed.
