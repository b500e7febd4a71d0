(** * Props_Codec.v — C44: the contract calldata codec *)
From Coq Require Import ZArith List Lia Bool Arith String.
From Verif Require Import Field FieldLemmas RlpEnc TxModel CodecModel.
Import ListNotations.
Open Scope Z_scope.

(** ** Specification *)
(** what go-ethereum guarantees of a method: the selector is a 4-byte slice at the start of a 32-byte digest, packed arguments
    are whole 32-byte words, and unpacking packed arguments gives them back *)
Definition method_ok {V : Type} (h : heap) (m : method V) : Prop :=
  (s_arr (m_id m) < List.length h)%nat /\ List.length (nth (s_arr (m_id m)) h []) = 32%nat /\ s_off (m_id m) = 0%nat /\ s_len (m_id m) = 4%nat /\
  (forall args b, pack (m_inputs m) args = Some b -> (List.length b mod 32 = 0)%nat).
Definition abi_ok {V : Type} (h : heap) (c : abi V) : Prop := forall name m, c name = Some m -> method_ok h m.
Definition round_trips {V : Type} (a : arguments V) : Prop := forall args b, pack a args = Some b -> unpack a b = Some args.

Section S.
Context {V : Type}.
Notation length := List.length.
Lemma firstn_write_same : forall (l : list Z) i, (i <= length l)%nat -> write l i [] = l.
Proof. intros l i H. unfold write. cbn [app List.length]. rewrite Nat.add_0_r. apply firstn_skipn. Qed.
Lemma set_arr_same : forall (h : heap) a, (a < length h)%nat -> set_arr h a (nth a h []) = h.
Proof.
  induction h as [| x h IH]; intros a H; [cbn in H; lia |]. destruct a as [| a]; [reflexivity |].
  cbn in H. unfold set_arr in *. cbn [firstn nth skipn app]. f_equal. apply IH. lia.
Qed.

(** EncodeCalldata returns the selector followed by the packed arguments and does not change any existing memory: every array
    that existed before the call is the same after it. *)
Theorem C44_encode : forall extra (c : abi V) h name m args b, abi_ok h c -> c name = Some m -> pack (m_inputs m) args = Some b ->
  exists h' s, encode_calldata V extra c h name args = (h', Ok s) /\ content h' s = content h (m_id m) ++ b /\
    (exists fresh, h' = h ++ fresh) /\ (b <> [] -> s_arr s = length h) /\ abi_ok h' c.
Proof.
  intros extra c h name m args b OK Em Eb. destruct (OK _ _ Em) as (A1 & A2 & A3 & A4 & A5). pose proof (A5 _ _ Eb) as M.
  unfold encode_calldata. rewrite Em, Eb. unfold go_append, s_cap. rewrite A2, A3, A4.
  assert (KEEP : forall fresh, abi_ok (h ++ fresh) c).
  { intros fresh n' m' E'. destruct (OK _ _ E') as (B1 & B2 & B3 & B4 & B5). unfold method_ok. rewrite app_length, app_nth1 by lia. split; [lia | auto]. }
  destruct b as [| x b'].
  - cbn [List.length Nat.add Nat.sub Nat.leb]. cbv zeta.
    assert (E : set_arr h (s_arr (m_id m)) (write (nth (s_arr (m_id m)) h []) 4 []) = h) by (rewrite firstn_write_same by lia; apply set_arr_same; exact A1).
    rewrite E. exists h, {| s_arr := s_arr (m_id m); s_off := 0; s_len := 4 |}. split; [reflexivity |]. split.
    + rewrite app_nil_r. unfold content. cbn [s_len s_off s_arr]. rewrite A3, A4. reflexivity.
    + split; [exists []; rewrite app_nil_r; reflexivity |]. split; [congruence | exact OK].
  - set (xb := x :: b') in *. assert (L : (32 <= length xb)%nat).
    { destruct (length xb) as [| l'] eqn:E; [discriminate E |]. destruct (Nat.lt_ge_cases (S l') 32); [| lia]. rewrite Nat.mod_small in M by lia. discriminate M. }
    destruct (Nat.leb_spec (4 + length xb) (32 - 0)) as [C | C]; [lia |].
    exists (h ++ [content h (m_id m) ++ xb ++ repeat 0 extra]), {| s_arr := length h; s_off := 0; s_len := 4 + length xb |}. split; [reflexivity |]. split.
    + unfold content at 1. cbn [s_len s_off s_arr skipn]. rewrite app_nth2, Nat.sub_diag by lia. cbn [nth].
      assert (L4 : length (content h (m_id m)) = 4%nat). { unfold content. rewrite A3, A4. cbn [skipn]. rewrite firstn_length, A2. reflexivity. }
      rewrite app_assoc, firstn_app. replace (4 + length xb)%nat with (length (content h (m_id m) ++ xb)) by (rewrite app_length, L4; reflexivity).
      rewrite firstn_all, Nat.sub_diag, firstn_O, app_nil_r. reflexivity.
    + split; [eexists; reflexivity |]. split; [reflexivity | apply KEEP].
Qed.
(** Histories: after any sequence of encodings the selectors and all results obtained so far still have their contents. *)
Fixpoint encode_many (extra : nat) (c : abi V) (h : heap) (calls : list (string * list V)) : heap * list (res slice) :=
  match calls with
  | [] => (h, [])
  | (name, args) :: r => let '(h1, o) := encode_calldata V extra c h name args in let '(h2, os) := encode_many extra c h1 r in (h2, o :: os)
  end.
Lemma encode_extends : forall extra c h name args, abi_ok h c -> exists fresh, fst (encode_calldata V extra c h name args) = h ++ fresh /\ abi_ok (h ++ fresh) c.
Proof.
  intros extra c h name args OK. destruct (c name) as [m |] eqn:Em.
  - destruct (pack (m_inputs m) args) as [b |] eqn:Eb.
    + destruct (C44_encode extra c h name m args b OK Em Eb) as (h' & s & E & _ & [fresh F] & _ & K). exists fresh. rewrite E. cbn [fst]. subst h'. auto.
    + exists []. unfold encode_calldata. rewrite Em, Eb, app_nil_r. auto.
  - exists []. unfold encode_calldata. rewrite Em, app_nil_r. auto.
Qed.
Lemma many_extends : forall extra c calls h, abi_ok h c -> exists fresh, fst (encode_many extra c h calls) = h ++ fresh.
Proof.
  intros extra c. induction calls as [| [name args] r IH]; intros h OK; cbn [encode_many]; [exists []; rewrite app_nil_r; reflexivity |].
  destruct (encode_extends extra c h name args OK) as (f1 & E1 & K1). destruct (encode_calldata V extra c h name args) as [h1 o]. cbn [fst] in E1. subst h1.
  destruct (IH _ K1) as (f2 & E2). destruct (encode_many extra c (h ++ f1) r) as [h2 os]. cbn [fst] in *. exists (f1 ++ f2). rewrite E2, app_assoc. reflexivity.
Qed.
Theorem C44_history : forall extra c h0 calls1 calls2 name m args b, abi_ok h0 c -> c name = Some m -> pack (m_inputs m) args = Some b ->
  let h1 := fst (encode_many extra c h0 calls1) in
  exists h2 s, encode_calldata V extra c h1 name args = (h2, Ok s) /\
    content (fst (encode_many extra c h2 calls2)) s = content h0 (m_id m) ++ b /\ content (fst (encode_many extra c h2 calls2)) (m_id m) = content h0 (m_id m).
Proof.
  intros extra c h0 calls1 calls2 name m args b OK Em Eb h1.
  assert (OK1 : abi_ok h1 c).
  { subst h1. revert h0 OK. induction calls1 as [| [n1 a1] r IH]; intros h0 OK; cbn [encode_many]; [exact OK |].
    destruct (encode_extends extra c h0 n1 a1 OK) as (f1 & E1 & K1). destruct (encode_calldata V extra c h0 n1 a1) as [h1 o]. cbn [fst] in E1. subst h1.
    specialize (IH _ K1). destruct (encode_many extra c (h0 ++ f1) r). exact IH. }
  destruct (many_extends extra c calls1 h0 OK) as (f1 & E1). fold h1 in E1.
  destruct (C44_encode extra c h1 name m args b OK1 Em Eb) as (h2 & s & E & C & [f2 F2] & SA & K2). exists h2, s. split; [exact E |].
  destruct (many_extends extra c calls2 h2 K2) as (f3 & E3). rewrite E3.
  destruct (OK _ _ Em) as (A1 & A2 & A3 & A4 & A5).
  assert (ID : forall f, content (h0 ++ f) (m_id m) = content h0 (m_id m)) by (intros f; unfold content; rewrite app_nth1 by lia; reflexivity).
  assert (IN : (s_arr s < length h2)%nat).
  { destruct b as [| x b'].
    - unfold encode_calldata in E. rewrite Em, Eb in E. unfold go_append, s_cap in E. destruct (OK1 _ _ Em) as (B1 & B2 & B3 & B4 & B5). rewrite B2, B3, B4 in E.
      cbn [List.length Nat.add Nat.sub Nat.leb] in E. assert (Es : s = {| s_arr := s_arr (m_id m); s_off := 0; s_len := 4 |}) by congruence. subst s h2. cbn [s_arr]. rewrite app_length. lia.
    - rewrite SA by discriminate. subst h2. destruct f2; [| rewrite app_length; cbn; lia]. exfalso. rewrite app_nil_r in *.
      unfold content at 1 in C. rewrite (nth_overflow h1) in C by (rewrite SA by discriminate; lia). rewrite skipn_nil, firstn_nil in C. destruct (content h1 (m_id m)); discriminate C. }
  split.
  - assert (CS : content (h2 ++ f3) s = content h2 s) by (unfold content; rewrite app_nth1 by lia; reflexivity). rewrite CS, C, E1, ID. reflexivity.
  - rewrite F2, E1, <- !app_assoc. apply ID.
Qed.

(** Unknown methods are errors everywhere; their selector is nil. *)
Theorem C44_unknown : forall Ty eqb stored tyof extra (c : abi V) h name args data ptrs s, c name = None ->
  encode_calldata V extra c h name args = (h, Err) /\ encode_return V c name args = Err /\
  decode_calldata V Ty eqb stored tyof c name data ptrs s = (s, Err) /\ decode_return V Ty eqb stored tyof c name data ptrs s = (s, Err) /\ selector V c name = None.
Proof. intros Ty eqb stored tyof extra c h name args data ptrs s E. unfold encode_calldata, encode_return, decode_calldata, decode_return, selector. rewrite E. auto. Qed.

(** A wrong number of targets is an error and writes nothing. *)
Theorem C44_count_mismatch : forall Ty eqb stored tyof (c : abi V) name m data vals ptrs s, c name = Some m -> unpack (m_inputs m) data = Some vals ->
  length vals <> length ptrs -> decode_calldata V Ty eqb stored tyof c name data ptrs s = (s, Err).
Proof.
  intros Ty eqb stored tyof c name m data vals ptrs s Em Eu N. unfold decode_calldata, decode_args. rewrite Em, Eu.
  destruct (Nat.eqb_spec (length vals) (length ptrs)); [congruence | reflexivity].
Qed.

(** targets of the right types, all different variables *)
Inductive targets_ok {Ty : Type} (stored : V -> option V) (tyof : V -> Ty) : list V -> list (target Ty) -> list nat -> Prop :=
| tk_nil : targets_ok stored tyof [] [] []
| tk_cons : forall v w vals ptrs x xs, stored v = Some w -> ~ In x xs -> targets_ok stored tyof vals ptrs xs ->
    targets_ok stored tyof (v :: vals) (Ptr x (tyof w) :: ptrs) (x :: xs).
Lemma assign_ok : forall Ty (eqb : Ty -> Ty -> bool) stored tyof, (forall t, eqb t t = true) -> forall vals ptrs xs, targets_ok stored tyof vals ptrs xs -> forall s,
  exists s', assign V Ty eqb stored tyof vals ptrs s = (s', Ok tt) /\ (forall k x v, nth_error xs k = Some x -> nth_error vals k = Some v -> s' x = stored v) /\
    (forall y, ~ In y xs -> s' y = s y).
Proof.
  intros Ty eqb stored tyof R. induction 1 as [| v w vals ptrs x xs Hs Hn H IH]; intros s.
  - exists s. split; [reflexivity |]. split; [intros [| k] x v E; discriminate E | auto].
  - cbn [assign]. rewrite Hs, R. destruct (IH (set_var V s x w)) as (s' & E & G & F). exists s'. split; [exact E |]. split.
    + intros [| k] y u Ey Eu; cbn [nth_error] in *; [| eapply G; eauto].
      assert (y = x) by congruence. assert (u = v) by congruence. subst. rewrite F by exact Hn. unfold set_var. rewrite Nat.eqb_refl. auto.
    + intros y Hy. rewrite F by (intros I; apply Hy; right; exact I). unfold set_var. destruct (Nat.eqb_spec y x); [subst; exfalso; apply Hy; left; reflexivity | reflexivity].
Qed.
(** Decoding the bytes after the selector of an encoded call gives back the arguments, in order, and touches nothing else. *)
Theorem C44_round_trip : forall Ty (eqb : Ty -> Ty -> bool) stored tyof extra (c : abi V) h name m args ptrs xs h' s st, (forall t, eqb t t = true) ->
  abi_ok h c -> c name = Some m -> round_trips (m_inputs m) -> targets_ok stored tyof args ptrs xs ->
  encode_calldata V extra c h name args = (h', Ok s) ->
  exists st', decode_calldata V Ty eqb stored tyof c name (skipn 4 (content h' s)) ptrs st = (st', Ok tt) /\
    (forall k x v, nth_error xs k = Some x -> nth_error args k = Some v -> st' x = stored v) /\ (forall y, ~ In y xs -> st' y = st y).
Proof.
  intros Ty eqb stored tyof extra c h name m args ptrs xs h' s st R OK Em RT TK E.
  destruct (pack (m_inputs m) args) as [b |] eqn:Eb; [| unfold encode_calldata in E; rewrite Em, Eb in E; discriminate E].
  destruct (C44_encode extra c h name m args b OK Em Eb) as (h2 & s2 & E2 & C & _). assert (h2 = h') by congruence. assert (s2 = s) by congruence. subst h2 s2.
  destruct (OK _ _ Em) as (A1 & A2 & A3 & A4 & A5).
  assert (L4 : length (content h (m_id m)) = 4%nat). { unfold content. rewrite A3, A4. cbn [skipn]. rewrite firstn_length, A2. reflexivity. }
  rewrite C. assert (SK : skipn 4 (content h (m_id m) ++ b) = b). { rewrite <- L4, skipn_app, skipn_all, Nat.sub_diag. reflexivity. }
  rewrite SK. unfold decode_calldata, decode_args. rewrite Em, (RT _ _ Eb).
  assert (LL : length args = length ptrs) by (clear - TK; induction TK; cbn; congruence). rewrite LL, Nat.eqb_refl. apply assign_ok; auto.
Qed.
Theorem C44_return_round_trip : forall Ty (eqb : Ty -> Ty -> bool) stored tyof (c : abi V) name m vals ptrs xs b st, (forall t, eqb t t = true) ->
  c name = Some m -> round_trips (m_outputs m) -> targets_ok stored tyof vals ptrs xs -> encode_return V c name vals = Ok b ->
  exists st', decode_return V Ty eqb stored tyof c name b ptrs st = (st', Ok tt) /\
    (forall k x v, nth_error xs k = Some x -> nth_error vals k = Some v -> st' x = stored v) /\ (forall y, ~ In y xs -> st' y = st y).
Proof.
  intros Ty eqb stored tyof c name m vals ptrs xs b st R Em RT TK E. unfold encode_return in E. rewrite Em in E.
  destruct (pack (m_outputs m) vals) as [b' |] eqn:Eb; [| discriminate E]. assert (b' = b) by congruence. subst b'.
  unfold decode_return, decode_args. rewrite Em, (RT _ _ Eb).
  assert (LL : length vals = length ptrs) by (clear - TK; induction TK; cbn; congruence). rewrite LL, Nat.eqb_refl. apply assign_ok; auto.
Qed.
(** The first target that is not a pointer ends the call with an error; the targets before it have been written, the later ones not. *)
Theorem C44_not_pointer : forall Ty (eqb : Ty -> Ty -> bool) stored tyof (c : abi V) name m data v1 v v2 p1 p2 xs s, (forall t, eqb t t = true) ->
  c name = Some m -> unpack (m_inputs m) data = Some (v1 ++ v :: v2) -> targets_ok stored tyof v1 p1 xs -> length v2 = length p2 ->
  exists s', decode_calldata V Ty eqb stored tyof c name data (p1 ++ NotPtr :: p2) s = (s', Err) /\
    (forall k x u, nth_error xs k = Some x -> nth_error v1 k = Some u -> s' x = stored u) /\ (forall y, ~ In y xs -> s' y = s y).
Proof.
  intros Ty eqb stored tyof c name m data v1 v v2 p1 p2 xs s R Em Eu TK L2. unfold decode_calldata, decode_args. rewrite Em, Eu.
  assert (LL : length v1 = length p1) by (clear - TK; induction TK; cbn; congruence). rewrite !app_length. cbn [List.length]. rewrite LL, L2, Nat.eqb_refl.
  clear Eu LL L2. revert s. induction TK as [| u w vals ptrs x xs Hs Hn H IH]; intros s.
  - cbn [app assign]. exists s. split; [reflexivity |]. split; [intros [| k] x u E; discriminate E | auto].
  - cbn [app assign]. rewrite Hs, R. destruct (IH (set_var V s x w)) as (s' & E & G & F). exists s'. split; [exact E |]. split.
    + intros [| k] y z Ey Ez; cbn [nth_error] in *; [| eapply G; eauto]. assert (y = x) by congruence. assert (z = u) by congruence. subst.
      rewrite F by exact Hn. unfold set_var. rewrite Nat.eqb_refl. auto.
    + intros y Hy. rewrite F by (intros I; apply Hy; right; exact I). unfold set_var. destruct (Nat.eqb_spec y x); [subst; exfalso; apply Hy; left; reflexivity | reflexivity].
Qed.
End S.

(** ** A concrete contract: set(uint256) and ping(), with the ABI encoding of uint256 *)
Definition word32 (n : Z) : list Z := map (fun i => (n / 256 ^ Z.of_nat (31 - i)) mod 256) (seq 0 32).
Definition uint_args : arguments Z :=
  {| pack := fun l => match l with [n] => if (0 <=? n) && (n <? 2 ^ 256) then Some (word32 n) else None | _ => None end;
     unpack := fun d => if Nat.leb 32 (List.length d) then Some [be_value (firstn 32 d)] else None |}.
Definition no_args : arguments Z := {| pack := fun l => match l with [] => Some [] | _ => None end; unpack := fun _ => Some [] |}.
Definition demo_heap : heap := [[1; 2; 3; 4] ++ repeat 9 28; [5; 6; 7; 8] ++ repeat 9 28].
Definition demo_abi : abi Z := fun name =>
  if String.eqb name "set"%string then Some {| m_id := {| s_arr := 0; s_off := 0; s_len := 4 |}; m_inputs := uint_args; m_outputs := no_args |}
  else if String.eqb name "ping"%string then Some {| m_id := {| s_arr := 1; s_off := 0; s_len := 4 |}; m_inputs := no_args; m_outputs := uint_args |}
  else None.
Lemma word32_length : forall n, List.length (word32 n) = 32%nat. Proof. intros. unfold word32. rewrite map_length, seq_length. reflexivity. Qed.
Example C44_nonvacuous : abi_ok demo_heap demo_abi /\ round_trips uint_args /\ round_trips no_args.
Proof.
  split; [| split].
  - intros name m E. unfold demo_abi in E. destruct (String.eqb name "set"%string).
    + assert (E' : m = {| m_id := {| s_arr := 0; s_off := 0; s_len := 4 |}; m_inputs := uint_args; m_outputs := no_args |}) by congruence. subst m.
      split; [cbn; lia |]. split; [reflexivity |]. split; [reflexivity |]. split; [reflexivity |].
      intros args b Eb. cbn [pack uint_args m_inputs] in Eb. destruct args as [| n [| ? ?]]; try discriminate Eb. destruct ((0 <=? n) && (n <? 2 ^ 256)); [| discriminate Eb].
      assert (b = word32 n) by congruence. subst b. rewrite word32_length. reflexivity.
    + destruct (String.eqb name "ping"%string); [| discriminate E].
      assert (E' : m = {| m_id := {| s_arr := 1; s_off := 0; s_len := 4 |}; m_inputs := no_args; m_outputs := uint_args |}) by congruence. subst m.
      split; [cbn; lia |]. split; [reflexivity |]. split; [reflexivity |]. split; [reflexivity |].
      intros args b Eb. cbn [pack no_args m_inputs] in Eb. destruct args; [| discriminate Eb]. assert (b = []) by congruence. subst b. reflexivity.
  - intros args b Eb. cbn [pack uint_args] in Eb. destruct args as [| n [| ? ?]]; try discriminate Eb.
    destruct (Z.leb_spec 0 n) as [Hn |]; [| discriminate Eb]. destruct (Z.ltb_spec n (2 ^ 256)) as [Hm |]; [| discriminate Eb]. cbn [andb] in Eb.
    assert (b = word32 n) by congruence. subst b. cbn [unpack uint_args]. rewrite word32_length. cbn [Nat.leb].
    assert (FA : firstn 32 (word32 n) = word32 n) by (rewrite <- (word32_length n); apply firstn_all). rewrite FA.
    assert (EW : word32 n = repeat 0 (32 - List.length (be_bytes n)) ++ be_bytes n) by (symmetry; apply (be_bytes_pad n 32); split; [exact Hn | exact Hm]).
    assert (Z0 : forall m, be_value (repeat 0 m) = 0). { induction m as [| m IH]; [reflexivity |]. cbn [repeat]. unfold be_value in *. cbn [fold_left]. exact IH. }
    rewrite EW, be_value_app, Z0, be_bytes_value by exact Hn. rewrite Z.mul_0_l, Z.add_0_l. reflexivity.
  - intros args b Eb. cbn [pack no_args] in Eb. destruct args; [| discriminate Eb]. reflexivity.
Qed.
(** DecodeCalldata does not skip the selector: decoding what EncodeCalldata returned gives another value, without an error. *)
Theorem C44_decode_encode_refuted : exists h s st, encode_calldata Z 0 demo_abi demo_heap "set"%string [7] = (h, Ok s) /\
  decode_calldata Z unit (fun _ _ => true) Some (fun _ => tt) demo_abi "set"%string (content h s) [Ptr 0 tt] (fun _ => None) = (st, Ok tt) /\ st 0%nat <> Some 7.
Proof.
  eexists. eexists. eexists. split; [vm_compute; reflexivity |]. split; [vm_compute; reflexivity |]. vm_compute. discriminate.
Qed.
(** For a method without arguments the result is the ABI's own selector slice: a caller writing to it changes the selector. *)
Theorem C44_no_argument_alias_refuted : exists h s, encode_calldata Z 0 demo_abi demo_heap "ping"%string [] = (h, Ok s) /\ h = demo_heap /\
  exists m, demo_abi "ping"%string = Some m /\ s = m_id m /\ content (go_store h s 0 255) (m_id m) = [255; 6; 7; 8] /\ content h (m_id m) = [5; 6; 7; 8].
Proof.
  eexists. eexists. split; [vm_compute; reflexivity |]. split; [reflexivity |]. eexists. split; [reflexivity |]. split; [reflexivity |]. split; vm_compute; reflexivity.
Qed.
