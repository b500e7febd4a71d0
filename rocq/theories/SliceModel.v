(** * SliceModel.v — models circuits/gadgets/utils/slice.go *)
From Coq Require Import ZArith List Bool Arith Lia.
From Verif Require Import Field FieldLemmas KeccakModel.
Import ListNotations.

(** slice.go:7-16 Flip: a copy with res[i] and res[len-1-i] exchanged for i < len/2 *)
Definition flip {A : Type} (d : A) (l : list A) : list A :=
  fold_left (fun res i => upd (length res - 1 - i) (nth i res d) (upd i (nth (length res - 1 - i) res d) res))
            (seq 0 (length l / 2)) l.
(** slice.go:18-27 FlipSubSlice: [None] is the panic *)
Fixpoint flip_chunks {A : Type} (d : A) (n chunk : nat) (l : list A) : list A :=
  match n with O => [] | S k => flip d (firstn chunk l) ++ flip_chunks d k chunk (skipn chunk l) end.
Definition flip_sub {A : Type} (d : A) (l : list A) (chunk : nat) : option (list A) :=
  if Nat.eqb chunk 0 then None (* division by zero *)
  else if Nat.eqb (length l mod chunk) 0 then Some (flip_chunks d (length l / chunk) chunk l) else None.

(** ** Flip is list reversal *)
Lemma upd_length {A} i (x : A) l : (i < length l)%nat -> length (upd i x l) = length l.
Proof. intros H. unfold upd. rewrite app_length, firstn_length. cbn [length]. rewrite skipn_length. lia. Qed.
Lemma upd_nth {A} i j (x : A) l d : (i < length l)%nat -> nth j (upd i x l) d = if Nat.eqb j i then x else nth j l d.
Proof.
  intros H. unfold upd. destruct (Nat.eqb_spec j i) as [->|Hne].
  - rewrite app_nth2; rewrite firstn_length, Nat.min_l by lia; [|lia]. rewrite Nat.sub_diag. reflexivity.
  - destruct (Nat.lt_ge_cases j i).
    + rewrite app_nth1 by (rewrite firstn_length; lia). apply nth_firstn'. auto.
    + rewrite app_nth2 by (rewrite firstn_length; lia). rewrite firstn_length, Nat.min_l by lia.
      destruct (j - i)%nat as [|k] eqn:E; [lia|]. cbn [nth]. rewrite nth_skipn'. f_equal. lia.
Qed.

Lemma flip_spec : forall (A : Type) (d : A) l, flip d l = rev l.
Proof.
  intros A d l. unfold flip.
  set (n := length l).
  assert (Inv : forall k, (k <= n / 2)%nat -> let r := fold_left (fun res i => upd (length res - 1 - i) (nth i res d) (upd i (nth (length res - 1 - i) res d) res)) (seq 0 k) l in
     length r = n /\ forall j, (j < n)%nat -> nth j r d = if (Nat.ltb j k || Nat.leb (n - k) j)%bool then nth (n - 1 - j) l d else nth j l d).
  { pose proof (Nat.div_mod n 2 ltac:(lia)) as Hd.
    induction k as [|k IH]; intros Hk r.
    - split; [reflexivity|]. intros j Hj. cbn [Nat.ltb]. replace (Nat.leb (n - 0) j) with false by (symmetry; apply Nat.leb_gt; lia). reflexivity.
    - destruct IH as [L H]; [lia|]. unfold r. replace (S k) with (k + 1)%nat by lia. rewrite seq_app, fold_left_app. cbn [seq fold_left Nat.add].
      set (r0 := fold_left _ (seq 0 k) l) in *. rewrite L.
      split; [rewrite !upd_length; rewrite ?upd_length; lia|].
      intros j Hj. rewrite upd_nth by (rewrite upd_length; lia). rewrite upd_nth by lia.
      destruct (Nat.eqb_spec j (n - 1 - k)) as [E1|E1].
      { rewrite H by lia. replace (Nat.ltb k k) with false by (symmetry; apply Nat.ltb_ge; lia).
        replace (Nat.leb (n - k) k) with false by (symmetry; apply Nat.leb_gt; lia). cbn [orb].
        replace (Nat.leb (n - (k + 1)) j) with true by (symmetry; apply Nat.leb_le; lia). rewrite orb_true_r. f_equal. lia. }
      destruct (Nat.eqb_spec j k) as [E2|E2].
      { rewrite H by lia. replace (Nat.ltb (n - 1 - k) k) with false by (symmetry; apply Nat.ltb_ge; lia).
        replace (Nat.leb (n - k) (n - 1 - k)) with false by (symmetry; apply Nat.leb_gt; lia). cbn [orb].
        replace (Nat.ltb j (k + 1)) with true by (symmetry; apply Nat.ltb_lt; lia). cbn [orb]. f_equal. lia. }
      rewrite H by lia. 
      replace (Nat.ltb j (k + 1)) with (Nat.ltb j k) by (destruct (Nat.ltb_spec j k), (Nat.ltb_spec j (k + 1)); auto; lia).
      replace (Nat.leb (n - (k + 1)) j) with (Nat.leb (n - k) j) by (destruct (Nat.leb_spec (n - k) j), (Nat.leb_spec (n - (k + 1)) j); auto; lia).
      reflexivity. }
  destruct (Inv (n / 2)%nat (le_n _)) as [L H]. apply nth_ext' with (d := d).
  - rewrite L, rev_length. reflexivity.
  - intros j Hj. rewrite L in Hj. rewrite H by auto. rewrite rev_nth by auto. fold n.
    pose proof (Nat.div_mod n 2 ltac:(lia)) as Hd. pose proof (Nat.mod_upper_bound n 2 ltac:(lia)) as Hm.
    destruct (Nat.ltb_spec j (n / 2)); cbn [orb]; [f_equal; lia|].
    destruct (Nat.leb_spec (n - n / 2) j); [f_equal; lia|]. f_equal. lia.
Qed.

(** chunks of a list *)
Fixpoint chunks {A : Type} (n c : nat) (l : list A) : list (list A) :=
  match n with O => [] | S k => firstn c l :: chunks k c (skipn c l) end.
Lemma flip_chunks_spec : forall (A : Type) (d : A) n c l, flip_chunks d n c l = flat_map (@rev A) (chunks n c l).
Proof. intros A d n c. induction n as [|n IH]; intros l; [reflexivity|]. cbn [flip_chunks chunks flat_map]. rewrite flip_spec, IH. reflexivity. Qed.
Lemma flip_sub_spec : forall (A : Type) (d : A) n c l, (0 < c)%nat -> length l = (n * c)%nat ->
  flip_sub d l c = Some (flat_map (@rev A) (chunks n c l)).
Proof.
  intros A d n c l Hc Hl. unfold flip_sub. replace (Nat.eqb c 0) with false by (symmetry; apply Nat.eqb_neq; lia).
  rewrite Hl, Nat.mod_mul, Nat.div_mul by lia. cbn [Nat.eqb]. rewrite flip_chunks_spec. reflexivity.
Qed.
Lemma chunks_concat : forall (A : Type) n c (l : list A), length l = (n * c)%nat -> concat (chunks n c l) = l.
Proof.
  intros A n c. induction n as [|n IH]; intros l Hl; [destruct l; [reflexivity|cbn in Hl; lia]|]. cbn [chunks concat].
  rewrite IH by (rewrite skipn_length; lia). apply firstn_skipn.
Qed.
Lemma chunks_app : forall (A : Type) n m c (a b : list A), length a = (n * c)%nat -> chunks (n + m) c (a ++ b) = chunks n c a ++ chunks m c b.
Proof.
  intros A n m c. induction n as [|n IH]; intros a b Hl.
  - destruct a; [reflexivity|cbn in Hl; lia].
  - cbn [Nat.add chunks app]. rewrite firstn_app, skipn_app. replace (c - length a)%nat with 0%nat by lia.
    cbn [firstn skipn]. rewrite app_nil_r. f_equal. apply IH. rewrite skipn_length. lia.
Qed.
