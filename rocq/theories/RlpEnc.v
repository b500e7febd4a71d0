(** * RlpEnc.v — RLP encoding of trees of byte strings (yellow paper, appendix B), and its injectivity.
    Used as the meaning of go-ethereum's rlp.EncodeToBytes / rlp.AppendUint64 and as specification. *)
From Coq Require Import ZArith List Lia Bool Arith.
Import ListNotations.
Open Scope Z_scope.

Definition is_byte (x : Z) : Prop := 0 <= x < 256.
(** big-endian bytes of a natural number without leading zeros (big.Int.Bytes for the absolute value) *)
Fixpoint be_fuel (fuel : nat) (n : Z) : list Z :=
  match fuel with
  | O => []
  | S f => if n =? 0 then [] else be_fuel f (n / 256) ++ [n mod 256]
  end.
Definition be_bytes (n : Z) : list Z := be_fuel (S (Z.to_nat (Z.log2 n))) n.
(** value of a big-endian byte string *)
Definition be_value (l : list Z) : Z := fold_left (fun a b => 256 * a + b) l 0.

Inductive rtree : Type := RStr (s : list Z) | RList (l : list rtree).

Definition rlp_head_bytes (base : Z) (len : nat) : list Z :=
  if Nat.ltb len 56 then [base + Z.of_nat len]
  else let b := be_bytes (Z.of_nat len) in (base + 55 + Z.of_nat (length b)) :: b.
Definition rlp_str (s : list Z) : list Z :=
  match s with
  | [b] => if b <? 128 then [b] else rlp_head_bytes 0x80 1 ++ [b]
  | _ => rlp_head_bytes 0x80 (length s) ++ s
  end.
Fixpoint rlp (t : rtree) : list Z :=
  match t with
  | RStr s => rlp_str s
  | RList l => let pl := concat (map rlp l) in rlp_head_bytes 0xc0 (length pl) ++ pl
  end.
(** RLP of a natural number *)
Definition rlp_uint (n : Z) : list Z := rlp (RStr (be_bytes n)).

(** well-formed: bytes, and payloads shorter than 2^64 *)
Definition small (n : nat) : Prop := Z.of_nat n < 2 ^ 64.
Fixpoint wf (t : rtree) : Prop :=
  match t with
  | RStr s => Forall is_byte s /\ small (length s)
  | RList l => (fix all (l : list rtree) : Prop := match l with [] => True | x :: r => wf x /\ all r end) l /\ small (length (concat (map rlp l)))
  end.
Lemma wf_list : forall l, wf (RList l) <-> Forall wf l /\ small (length (concat (map rlp l))).
Proof.
  intros l. cbn [wf]. generalize (small (length (concat (map rlp l)))). intros P.
  assert (E : ((fix all (l0 : list rtree) : Prop := match l0 with [] => True | x :: r => wf x /\ all r end) l) <-> Forall wf l).
  { induction l as [| x l IH]; [split; auto |]. rewrite Forall_cons_iff. tauto. }
  tauto.
Qed.

Section RInd.
Variable P : rtree -> Prop.
Hypothesis HS : forall s, P (RStr s).
Hypothesis HL : forall l, Forall P l -> P (RList l).
Fixpoint rtree_ind' (t : rtree) : P t :=
  match t with
  | RStr s => HS s
  | RList l => HL l ((fix go (l : list rtree) : Forall P l := match l with [] => Forall_nil P | x :: r => Forall_cons x (rtree_ind' x) (go r) end) l)
  end.
End RInd.

(** ** Numbers *)
Lemma be_fold : forall l a, fold_left (fun a b => 256 * a + b) l a = a * 256 ^ Z.of_nat (length l) + be_value l.
Proof.
  induction l as [| x l IH]; intros a.
  - cbn [fold_left length be_value]. unfold be_value. cbn [fold_left]. change (256 ^ Z.of_nat 0) with 1. lia.
  - cbn [fold_left length]. unfold be_value. cbn [fold_left]. rewrite (IH (256 * a + x)), (IH (256 * 0 + x)).
    rewrite Nat2Z.inj_succ, Z.pow_succ_r by lia. lia.
Qed.
Lemma be_value_app : forall a b, be_value (a ++ b) = be_value a * 256 ^ Z.of_nat (length b) + be_value b.
Proof. intros a b. unfold be_value at 1. rewrite fold_left_app. rewrite be_fold. reflexivity. Qed.
Lemma be_value_range : forall l, Forall is_byte l -> 0 <= be_value l < 256 ^ Z.of_nat (length l).
Proof.
  induction l as [| x l IH]; intros F.
  - cbn [length be_value]. unfold be_value. cbn. lia.
  - apply Forall_cons_iff in F as [Hx F]. specialize (IH F). unfold be_value. cbn [fold_left length]. rewrite be_fold.
    rewrite Nat2Z.inj_succ, Z.pow_succ_r by lia. unfold is_byte in Hx. nia.
Qed.
Lemma be_fuel_value : forall f n, 0 <= n < 256 ^ Z.of_nat f -> be_value (be_fuel f n) = n.
Proof.
  induction f as [| f IH]; intros n Hn.
  - change (256 ^ Z.of_nat 0) with 1 in Hn. cbn. unfold be_value. cbn. lia.
  - cbn [be_fuel]. destruct (Z.eqb_spec n 0) as [-> | N]; [reflexivity |].
    rewrite be_value_app. rewrite IH.
    + cbn [length]. change (256 ^ Z.of_nat 1) with 256. unfold be_value. cbn [fold_left]. pose proof (Z.div_mod n 256). lia.
    + rewrite Nat2Z.inj_succ, Z.pow_succ_r in Hn by lia. split; [apply Z.div_pos; lia | apply Z.div_lt_upper_bound; lia].
Qed.
Lemma be_bytes_fuel_ok : forall n, 0 <= n -> n < 256 ^ Z.of_nat (S (Z.to_nat (Z.log2 n))).
Proof.
  intros n Hn. destruct (Z.eq_dec n 0) as [-> | N]; [reflexivity |].
  pose proof (Z.log2_spec n ltac:(lia)) as [_ H]. pose proof (Z.log2_nonneg n).
  eapply Z.lt_le_trans; [exact H |]. replace (Z.of_nat (S (Z.to_nat (Z.log2 n)))) with (Z.succ (Z.log2 n)) by lia.
  apply Z.pow_le_mono_l. lia.
Qed.
Lemma be_bytes_value : forall n, 0 <= n -> be_value (be_bytes n) = n.
Proof. intros n Hn. apply be_fuel_value. split; [lia |]. apply be_bytes_fuel_ok; auto. Qed.
Lemma be_fuel_bytes : forall f n, 0 <= n -> Forall is_byte (be_fuel f n).
Proof.
  induction f as [| f IH]; intros n Hn; [apply Forall_nil |]. cbn [be_fuel]. destruct (n =? 0); [apply Forall_nil |].
  apply Forall_app. split; [apply IH; apply Z.div_pos; lia |].
  apply Forall_cons; [| apply Forall_nil]. unfold is_byte. apply Z.mod_pos_bound. lia.
Qed.
Lemma be_bytes_bytes : forall n, 0 <= n -> Forall is_byte (be_bytes n).
Proof. intros. apply be_fuel_bytes. auto. Qed.
Lemma be_fuel_length : forall f n k, 0 <= n < 256 ^ Z.of_nat k -> (length (be_fuel f n) <= k)%nat.
Proof.
  induction f as [| f IH]; intros n k Hn; [cbn; lia |]. cbn [be_fuel]. destruct (Z.eqb_spec n 0) as [-> | N]; [cbn; lia |].
  rewrite app_length. cbn [length].
  destruct k as [| k]; [change (256 ^ Z.of_nat 0) with 1 in Hn; lia |].
  assert (length (be_fuel f (n / 256)) <= k)%nat; [| lia].
  apply IH. rewrite Nat2Z.inj_succ, Z.pow_succ_r in Hn by lia. split; [apply Z.div_pos; lia | apply Z.div_lt_upper_bound; lia].
Qed.
Lemma be_bytes_length : forall n k, 0 <= n < 256 ^ Z.of_nat k -> (length (be_bytes n) <= k)%nat.
Proof. intros. apply be_fuel_length. auto. Qed.
Lemma be_bytes_nonempty : forall n, 0 < n -> (1 <= length (be_bytes n))%nat.
Proof. intros n Hn. unfold be_bytes. cbn [be_fuel]. destruct (Z.eqb_spec n 0); [lia |]. rewrite app_length. cbn [length]. lia. Qed.
Lemma be_bytes_inj : forall a b, 0 <= a -> 0 <= b -> be_bytes a = be_bytes b -> a = b.
Proof. intros a b Ha Hb E. rewrite <- (be_bytes_value a), <- (be_bytes_value b) by auto. rewrite E. reflexivity. Qed.
(** a byte string is determined by its length and its value *)
Lemma be_value_inj : forall l1 l2, Forall is_byte l1 -> Forall is_byte l2 -> length l1 = length l2 -> be_value l1 = be_value l2 -> l1 = l2.
Proof.
  induction l1 as [| x l1 IH]; intros [| y l2] F1 F2 L E; try discriminate; [reflexivity |].
  apply Forall_cons_iff in F1 as [Hx F1]. apply Forall_cons_iff in F2 as [Hy F2].
  assert (L' : length l1 = length l2) by (cbn in L; lia).
  change (x :: l1) with ([x] ++ l1) in E. change (y :: l2) with ([y] ++ l2) in E. rewrite !be_value_app in E.
  unfold be_value in E at 1 3. cbn [fold_left] in E. rewrite <- L' in E.
  pose proof (be_value_range l1 F1) as R1. pose proof (be_value_range l2 F2) as R2. rewrite <- L' in R2.
  assert (x = y) by nia. subst y. f_equal. apply IH; auto. nia.
Qed.
(** stripping leading zeros gives back the minimal string *)
Lemma be_bytes_pad : forall n k, 0 <= n < 256 ^ Z.of_nat k ->
  repeat 0 (k - length (be_bytes n)) ++ be_bytes n = map (fun i => (n / 256 ^ Z.of_nat (k - 1 - i)) mod 256) (seq 0 k).
Proof.
  intros n k Hn. apply be_value_inj.
  - apply Forall_app. split; [| apply be_bytes_bytes; lia]. apply Forall_forall. intros x Hx. apply repeat_spec in Hx. subst. unfold is_byte. lia.
  - apply Forall_forall. intros x Hx. apply in_map_iff in Hx as (i & <- & _). unfold is_byte. apply Z.mod_pos_bound. lia.
  - rewrite app_length, repeat_length, map_length, seq_length. pose proof (be_bytes_length n k Hn). lia.
  - rewrite be_value_app, be_bytes_value by lia.
    assert (Z0 : forall m, be_value (repeat 0 m) = 0).
    { induction m as [| m IH]; [reflexivity |]. cbn [repeat]. unfold be_value in *. cbn [fold_left]. exact IH. }
    rewrite Z0. cbn [Z.mul Z.add].
    assert (G : forall j, (j <= k)%nat -> be_value (map (fun i => (n / 256 ^ Z.of_nat (k - 1 - i)) mod 256) (seq 0 j)) = n / 256 ^ Z.of_nat (k - j)).
    { induction j as [| j IH]; intros Hj.
      - cbn. rewrite Nat.sub_0_r. symmetry. apply Z.div_small. exact Hn.
      - rewrite seq_S, map_app, be_value_app, IH by lia. cbn [map length Nat.add]. change (256 ^ Z.of_nat 1) with 256.
        unfold be_value. cbn [fold_left].
        replace (k - 1 - j)%nat with (k - S j)%nat by lia.
        assert (E : n / 256 ^ Z.of_nat (k - j) = n / 256 ^ Z.of_nat (k - S j) / 256).
        { rewrite Z.div_div by (try lia; apply Z.pow_pos_nonneg; lia). f_equal.
          replace (Z.of_nat (k - j)) with (Z.succ (Z.of_nat (k - S j))) by lia. rewrite Z.pow_succ_r by lia. lia. }
        rewrite E. pose proof (Z.div_mod (n / 256 ^ Z.of_nat (k - S j)) 256). lia. }
    rewrite (G k) by lia. rewrite Nat.sub_diag. change (256 ^ Z.of_nat 0) with 1. rewrite Z.div_1_r. reflexivity.
Qed.

(** ** Prefix freeness *)
Lemma app_len_inj : forall (A : Type) (a b c d : list A), length a = length c -> a ++ b = c ++ d -> a = c /\ b = d.
Proof.
  induction a as [| x a IH]; intros b [| y c] d L E; try discriminate; [auto |].
  cbn in E. injection E as -> E. destruct (IH b c d) as [-> ->]; auto.
Qed.

Lemma len_bytes : forall n, small n -> (length (be_bytes (Z.of_nat n)) <= 8)%nat.
Proof. intros n H. apply be_bytes_length. unfold small in H. change (256 ^ Z.of_nat 8) with (2 ^ 64). lia. Qed.

Lemma head_first : forall base n, (base = 0x80 \/ base = 0xc0) -> small n -> exists b t, rlp_head_bytes base n = b :: t /\ base <= b < base + 64.
Proof.
  intros base n Hb Hn. unfold rlp_head_bytes. destruct (Nat.ltb_spec n 56).
  - eexists _, _. split; [reflexivity |]. lia.
  - eexists _, _. split; [reflexivity |]. pose proof (len_bytes n Hn). lia.
Qed.

Lemma head_inj : forall b1 b2 n1 n2 r1 r2, (b1 = 0x80 \/ b1 = 0xc0) -> (b2 = 0x80 \/ b2 = 0xc0) -> small n1 -> small n2 ->
  rlp_head_bytes b1 n1 ++ r1 = rlp_head_bytes b2 n2 ++ r2 -> b1 = b2 /\ n1 = n2 /\ r1 = r2.
Proof.
  intros b1 b2 n1 n2 r1 r2 H1 H2 S1 S2 E.
  assert (B : b1 = b2).
  { destruct (head_first b1 n1 H1 S1) as (x & t & E1 & R1). destruct (head_first b2 n2 H2 S2) as (y & u & E2 & R2).
    rewrite E1, E2 in E. cbn in E. injection E as E _. lia. }
  subst b2. split; [reflexivity |].
  unfold rlp_head_bytes in E. destruct (Nat.ltb_spec n1 56) as [L1 | L1], (Nat.ltb_spec n2 56) as [L2 | L2].
  - cbn in E. injection E as E E'. split; [lia | auto].
  - exfalso. cbv zeta in E. cbn [app] in E. apply (f_equal (hd 0)) in E. cbn [hd] in E. pose proof (be_bytes_nonempty (Z.of_nat n2) ltac:(lia)). lia.
  - exfalso. cbv zeta in E. cbn [app] in E. apply (f_equal (hd 0)) in E. cbn [hd] in E. pose proof (be_bytes_nonempty (Z.of_nat n1) ltac:(lia)). lia.
  - cbv zeta in E. cbn [app] in E.
    assert (E1 : b1 + 55 + Z.of_nat (length (be_bytes (Z.of_nat n1))) = b1 + 55 + Z.of_nat (length (be_bytes (Z.of_nat n2)))) by congruence.
    assert (E2 : be_bytes (Z.of_nat n1) ++ r1 = be_bytes (Z.of_nat n2) ++ r2) by congruence.
    apply app_len_inj in E2 as [E2 E3]; [| lia]. split; [| auto]. apply be_bytes_inj in E2; lia.
Qed.

Lemma head_nonempty : forall base n, rlp_head_bytes base n <> [].
Proof. intros. unfold rlp_head_bytes. destruct (Nat.ltb n 56); discriminate. Qed.

Lemma rlp_nonempty : forall t, rlp t <> [].
Proof.
  intros [s | l]; cbn [rlp].
  - unfold rlp_str. destruct s as [| b [| c s]].
    + intros H. apply app_eq_nil in H as [H _]. apply head_nonempty in H. exact H.
    + destruct (b <? 128); [discriminate |]. intros H. apply app_eq_nil in H as [H _]. apply head_nonempty in H. exact H.
    + intros H. apply app_eq_nil in H as [H _]. apply head_nonempty in H. exact H.
  - cbv zeta. intros H. apply app_eq_nil in H as [H _]. apply head_nonempty in H. exact H.
Qed.

(** every encoding is a literal byte or a header followed by the payload *)
Lemma str_shape : forall s, Forall is_byte s -> small (length s) ->
  (exists b, s = [b] /\ 0 <= b < 128 /\ rlp_str s = [b]) \/
  (rlp_str s = rlp_head_bytes 0x80 (length s) ++ s /\ forall b, s = [b] -> 128 <= b).
Proof.
  intros s F S. unfold rlp_str. destruct s as [| b [| c s]].
  - right. split; [reflexivity | discriminate].
  - apply Forall_cons_iff in F as [Hb _]. unfold is_byte in Hb. destruct (Z.ltb_spec b 128).
    + left. exists b. split; [reflexivity |]. split; [lia | reflexivity].
    + right. split; [reflexivity |]. intros b' E. injection E as <-. lia.
  - right. split; [reflexivity | discriminate].
Qed.

Lemma rlp_prefix_free : forall t1 t2 r1 r2, wf t1 -> wf t2 -> rlp t1 ++ r1 = rlp t2 ++ r2 -> t1 = t2 /\ r1 = r2.
Proof.
  induction t1 as [s1 | l1 IH] using rtree_ind'; intros [s2 | l2] r1 r2 W1 W2 E.
  - destruct W1 as [F1 S1], W2 as [F2 S2]. cbn [rlp] in E.
    destruct (str_shape s1 F1 S1) as [(b1 & Eq1 & B1 & X1) | [X1 N1]], (str_shape s2 F2 S2) as [(b2 & Eq2 & B2 & X2) | [X2 N2]]; rewrite X1, X2 in E.
    + cbn in E. injection E as -> ->. subst. auto.
    + exfalso. destruct (head_first 0x80 (length s2) ltac:(auto) S2) as (y & u & E2 & R2). rewrite E2 in E. cbn in E. injection E as E _. lia.
    + exfalso. destruct (head_first 0x80 (length s1) ltac:(auto) S1) as (y & u & E2 & R2). rewrite E2 in E. cbn in E. injection E as E _. lia.
    + rewrite <- !app_assoc in E. apply head_inj in E as (_ & L & E); auto. apply app_len_inj in E as [-> ->]; auto.
  - exfalso. destruct W1 as [F1 S1]. apply wf_list in W2 as [F2 S2]. cbn [rlp] in E. cbv zeta in E.
    destruct (str_shape s1 F1 S1) as [(b1 & Eq1 & B1 & X1) | [X1 N1]]; rewrite X1 in E.
    + destruct (head_first 0xc0 _ ltac:(auto) S2) as (y & u & E2 & R2). rewrite E2 in E. cbn in E. injection E as E _. lia.
    + rewrite <- !app_assoc in E. apply head_inj in E as (B & _ & _); auto; lia.
  - exfalso. destruct W2 as [F1 S1]. apply wf_list in W1 as [F2 S2]. cbn [rlp] in E. cbv zeta in E.
    destruct (str_shape s2 F1 S1) as [(b1 & Eq1 & B1 & X1) | [X1 N1]]; rewrite X1 in E.
    + destruct (head_first 0xc0 _ ltac:(auto) S2) as (y & u & E2 & R2). rewrite E2 in E. cbn in E. injection E as E _. lia.
    + rewrite <- !app_assoc in E. apply head_inj in E as (B & _ & _); auto; lia.
  - apply wf_list in W1 as [F1 S1]. apply wf_list in W2 as [F2 S2]. cbn [rlp] in E. cbv zeta in E. rewrite <- !app_assoc in E.
    apply head_inj in E as (_ & L & E); auto. apply app_len_inj in E as [E ->]; auto. split; [| reflexivity]. f_equal.
    clear L S1 S2. revert l2 F2 E. induction IH as [| t l1 H IH IHl]; intros [| u l2] F2 E.
    + reflexivity.
    + exfalso. cbn [map concat] in E. symmetry in E. apply app_eq_nil in E as [E _]. exact (rlp_nonempty _ E).
    + exfalso. cbn [map concat] in E. apply app_eq_nil in E as [E _]. exact (rlp_nonempty _ E).
    + cbn [map concat] in E. apply Forall_cons_iff in F1 as [W1 F1]. apply Forall_cons_iff in F2 as [W2 F2].
      apply H in E as [-> E]; auto. f_equal. apply IHl; auto.
Qed.

(** RLP encoding is injective *)
Theorem rlp_injective : forall t1 t2, wf t1 -> wf t2 -> rlp t1 = rlp t2 -> t1 = t2.
Proof. intros t1 t2 W1 W2 E. apply (rlp_prefix_free t1 t2 [] []); auto. rewrite !app_nil_r. exact E. Qed.

(** the content of a byte string is the tail of its encoding *)
Lemma rlp_str_suffix : forall s, exists pre, rlp_str s = pre ++ s.
Proof.
  intros s. unfold rlp_str. destruct s as [| b [| c s]].
  - exists (rlp_head_bytes 0x80 0). reflexivity.
  - destruct (b <? 128); [exists []; reflexivity |]. exists (rlp_head_bytes 0x80 1). reflexivity.
  - eexists. reflexivity.
Qed.
