(** * Props_Mimc.v — C36: the emulated MiMC hasher *)
From Coq Require Import ZArith List Bool Lia.
From Verif Require Import ModNorm MimcModel.
Import ListNotations.
Open Scope Z_scope.

(** ** Specification: the MiMC block cipher E_k(m) with exponent e and round constants cs, and the Miyaguchi-Preneel hash *)
Definition exponent (id : curve) : Z := match id with BN254 | BW6_761 => 5 | _ => 17 end.
Definition cipher (q e : Z) (cs : list Z) (k m : Z) : Z := (fold_left (fun x c => (x + k + c) ^ e mod q) cs m + k) mod q.
Definition mp_hash (q e : Z) (cs : list Z) (ms : list Z) : Z := fold_left (fun h m => (cipher q e cs h m + h + m) mod q) ms 0.
(** What a history of calls is expected to return: the elements absorbed so far and those in the buffer *)
Fixpoint expected (q e : Z) (cs absorbed buffer : list Z) (h : list call) : list Z :=
  match h with
  | [] => []
  | Write xs :: r => expected q e cs absorbed (buffer ++ xs) r
  | Reset :: r => expected q e cs [] [] r
  | Sum :: r => mp_hash q e cs (absorbed ++ buffer) :: expected q e cs (absorbed ++ buffer) buffer r
  | Hash xs :: r => mp_hash q e cs xs :: expected q e cs xs xs r
  end.
Definition curve_constants (constants : curve -> list Z) (id : curve) : list Z := match id with OtherCurve => constants BLS12_377 | _ => constants id end.

(** ** Proofs *)
Lemma pow17_ok q x : pow17 q x = x ^ 17 mod q.
Proof.
  unfold pow17, emul. cbv zeta. mnorm_lhs q. f_equal. ring.
Qed.
Lemma pow5_ok q x : pow5 q x = x ^ 5 mod q.
Proof. unfold pow5, emul. cbv zeta. mnorm_lhs q. f_equal. ring. Qed.
Lemma pow_mod q x y e : 0 < q -> 0 <= e -> x mod q = y mod q -> x ^ e mod q = y ^ e mod q.
Proof.
  intros Hq He H. revert e He. apply (natlike_ind (fun e => x ^ e mod q = y ^ e mod q)); [reflexivity|]. intros e He IH. rewrite !Z.pow_succ_r by lia.
  rewrite Z.mul_mod, IH, H, <- Z.mul_mod by lia. reflexivity.
Qed.
Lemma encrypt_ok q s m : 0 < q -> encrypt q s m = cipher q (exponent (mecc s)) (params s) (mh s) m.
Proof.
  intros Hq. unfold encrypt, cipher, eadd. f_equal. f_equal. generalize (params s). intros cs. revert m. induction cs as [|c cs IH]; intros m; [reflexivity|]. cbn [fold_left]. rewrite IH. f_equal.
  assert (E : ((m + mh s) mod q + c) mod q mod q = (m + mh s + c) mod q) by (rewrite Zmod_mod, Zplus_mod_idemp_l; reflexivity).
  destruct (mecc s); cbn [exponent]; rewrite ?pow17_ok, ?pow5_ok; apply pow_mod; lia.
Qed.
Lemma mp_hash_app q e cs a b : mp_hash q e cs (a ++ b) = fold_left (fun h m => (cipher q e cs h m + h + m) mod q) b (mp_hash q e cs a).
Proof. unfold mp_hash. apply fold_left_app. Qed.
Lemma mp_hash_mod q e cs a : 0 < q -> mp_hash q e cs a mod q = mp_hash q e cs a.
Proof.
  intros Hq. unfold mp_hash. destruct a as [|x a] using rev_ind; [reflexivity|]. rewrite fold_left_app. cbn [fold_left]. apply Zmod_mod.
Qed.
Lemma m_sum_ok q s absorbed : 0 < q -> mh s = mp_hash q (exponent (mecc s)) (params s) absorbed ->
  let r := mp_hash q (exponent (mecc s)) (params s) (absorbed ++ mdata s) in m_sum q s = (Mimc (params s) r (mdata s) (mecc s), r).
Proof.
  intros Hq Hh r. unfold m_sum. assert (E : fold_left (fun h m => let r := encrypt q (Mimc (params s) h (mdata s) (mecc s)) m in eadd q (eadd q h r) m) (mdata s) (mh s) = r).
  { unfold r. rewrite mp_hash_app, <- Hh. generalize (mh s). generalize (mdata s) at 2 3. intros l. induction l as [|m l IH]; intros h; [reflexivity|]. cbn [fold_left]. rewrite IH. f_equal.
    cbv zeta. rewrite encrypt_ok by auto. cbn [mecc params mh]. unfold eadd. rewrite Zplus_mod_idemp_l. f_equal. lia. }
  cbv zeta in *. rewrite E. f_equal. unfold r. apply mp_hash_mod; auto.
Qed.
Lemma run_ok q (constants : curve -> list Z) cs : 0 < q -> forall s absorbed, mh s = mp_hash q (exponent (mecc s)) (params s) absorbed ->
  snd (run q s cs) = expected q (exponent (mecc s)) (params s) absorbed (mdata s) cs.
Proof.
  intros Hq. induction cs as [|c cs IH]; intros s absorbed Hh; [reflexivity|]. cbn [run]. destruct c as [xs| | |xs]; cbn [step expected].
  - specialize (IH (m_write s xs) absorbed Hh). destruct (run q (m_write s xs) cs). cbn [snd app] in *. exact IH.
  - specialize (IH (m_reset s) [] eq_refl). destruct (run q (m_reset s) cs). cbn [snd app] in *. exact IH.
  - rewrite (m_sum_ok q s absorbed Hq Hh). set (r := mp_hash _ _ _ _). specialize (IH (Mimc (params s) r (mdata s) (mecc s)) (absorbed ++ mdata s) eq_refl).
    destruct (run q _ cs). cbn [snd app mecc params mdata] in *. rewrite IH. reflexivity.
  - unfold m_hash. rewrite (m_sum_ok q (m_write (m_reset s) xs) [] Hq eq_refl). cbn [mecc params mdata m_write m_reset app]. set (r := mp_hash _ _ _ _).
    specialize (IH (Mimc (params s) r xs (mecc s)) xs eq_refl). destruct (run q _ cs). cbn [snd app mecc params mdata] in *. rewrite IH. reflexivity.
Qed.

(** ** C36 *)
(** For every history of calls on a new hasher, the values returned are the expected ones *)
Theorem C36_history : forall q constants id cs, 0 < q ->
  snd (run q (new_mimc constants id) cs) = expected q (exponent id) (curve_constants constants id) [] [] cs.
Proof.
  intros q constants id cs Hq. rewrite (run_ok q constants cs Hq (new_mimc constants id) [] eq_refl). destruct id; reflexivity.
Qed.
(** Hash returns the MiMC hash of its arguments whatever happened before *)
Theorem C36_hash_history_independent : forall q constants id cs xs, 0 < q ->
  last (snd (run q (new_mimc constants id) (cs ++ [Hash xs]))) 0 = mp_hash q (exponent id) (curve_constants constants id) xs.
Proof.
  intros q constants id cs xs Hq. rewrite C36_history by auto. generalize (@nil Z) at 1 as a. generalize (@nil Z) as b. intros b a. revert a b.
  induction cs as [|c cs IH]; intros a b; [reflexivity|]. 
  assert (NE : forall a b, expected q (exponent id) (curve_constants constants id) a b (cs ++ [Hash xs]) <> []).
  { clear. induction cs as [|c cs IH]; intros a b; [discriminate|]. destruct c; cbn [app expected]; try apply IH; discriminate. }
  destruct c as [ys| | |ys]; cbn [app expected]; try apply IH.
  - destruct (expected q (exponent id) (curve_constants constants id) (a ++ b) b (cs ++ [Hash xs])) eqn:E; [destruct (NE _ _ E)|]. rewrite <- E in *. cbn [last]. rewrite E at 1. rewrite IH. reflexivity.
  - destruct (expected q (exponent id) (curve_constants constants id) ys ys (cs ++ [Hash xs])) eqn:E; [destruct (NE _ _ E)|]. rewrite <- E in *. cbn [last]. rewrite E at 1. rewrite IH. reflexivity.
Qed.
(** after Reset, Write calls accumulate, and the first Sum is the hash of all that was written, in order *)
Theorem C36_writes_accumulate : forall q constants id h xss, 0 < q ->
  last (snd (run q (new_mimc constants id) (h ++ [Reset] ++ map Write xss ++ [Sum]))) 0 = mp_hash q (exponent id) (curve_constants constants id) (concat xss).
Proof.
  intros q constants id h xss Hq. rewrite C36_history by auto. generalize (@nil Z) at 1 as a. generalize (@nil Z) as b. intros b a.
  set (e := exponent id). set (cs := curve_constants constants id).
  assert (W : forall xss a b, expected q e cs a b (map Write xss ++ [Sum]) = [mp_hash q e cs (a ++ b ++ concat xss)]).
  { induction xss0 as [|xs xss0 IH]; intros a0 b0; cbn [map app expected concat]; [rewrite app_nil_r; reflexivity|]. rewrite IH. rewrite <- app_assoc. reflexivity. }
  revert a b. induction h as [|c h IH]; intros a b; [cbn [app expected]; rewrite W; reflexivity|].
  assert (NE : forall a b, expected q e cs a b (h ++ [Reset] ++ map Write xss ++ [Sum]) <> []).
  { clear IH a b. induction h as [|c0 h IH]; intros a b; [cbn [app expected]; rewrite W; discriminate|]. destruct c0; cbn [app expected] in *; try apply IH; discriminate. }
  destruct c as [ys| | |ys]; cbn [app expected] in *; try apply IH.
  - destruct (expected q e cs (a ++ b) b (h ++ Reset :: map Write xss ++ [Sum])) eqn:E; [destruct (NE _ _ E)|]. rewrite <- E in *. cbn [last]. rewrite E at 1. rewrite IH. reflexivity.
  - destruct (expected q e cs ys ys (h ++ Reset :: map Write xss ++ [Sum])) eqn:E; [destruct (NE _ _ E)|]. rewrite <- E in *. cbn [last]. rewrite E at 1. rewrite IH. reflexivity.
Qed.
(** Sum does not clear the buffer: a second Sum absorbs it again, so that it returns the hash of the data twice over *)
Theorem C36_second_sum : forall q constants id xs, 0 < q ->
  snd (run q (new_mimc constants id) [Write xs; Sum; Sum]) =
  [mp_hash q (exponent id) (curve_constants constants id) xs; mp_hash q (exponent id) (curve_constants constants id) (xs ++ xs)].
Proof. intros. rewrite C36_history by auto. reflexivity. Qed.
Theorem C36_sum_twice_refuted : exists q constants id xs a b, 0 < q /\ snd (run q (new_mimc constants id) [Write xs; Sum; Sum]) = [a; b] /\ a <> b.
Proof. exists 101, (fun _ => [3; 4]), BN254, [1], 61, 39. split; [lia|]. split; [vm_compute; reflexivity|discriminate]. Qed.
(** and writing more after a Sum without Reset hashes the earlier data twice *)
Theorem C36_write_after_sum : forall q constants id xs ys, 0 < q ->
  last (snd (run q (new_mimc constants id) [Write xs; Sum; Write ys; Sum])) 0 = mp_hash q (exponent id) (curve_constants constants id) (xs ++ xs ++ ys).
Proof. intros. rewrite C36_history by auto. reflexivity. Qed.
