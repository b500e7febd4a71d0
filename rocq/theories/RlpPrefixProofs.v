(** * RlpPrefixProofs.v — closed forms of the prefix decoders on nibbles *)
From Coq Require Import ZArith List Lia Bool Arith.
From Verif Require Import ModNorm Field FieldLemmas RlpUtilModel RlpUtilProofs RlpModel RlpSpec.
Import ListNotations.
Open Scope Z_scope.
Open Scope circ_scope.

Ltac Zify.zify_post_hook ::= Z.div_mod_to_equations.

Definition head_hexlen (h : rlp_head) : Z :=
  match h with HLiteral => 0 | HShortString l | HLongString l | HShortList l | HLongList l => 2 * l end.
Definition head_big (h : rlp_head) : bool :=
  match h with HLongString _ | HLongList _ => true | _ => false end.
Definition head_literal (h : rlp_head) : bool := match h with HLiteral => true | _ => false end.

Section P.
Variable p : Z.
Hypothesis Hp : 4096 < p.

Lemma one_minus_bit (b : bool) : fsub p 1 (bit_of b) = bit_of (negb b).
Proof. destruct b; unfold fsub, bit_of; rewrite Z.mod_small; cbn; lia. Qed.
Lemma mul_bits (a b : bool) : fmul p (bit_of a) (bit_of b) = bit_of (a && b).
Proof. destruct a, b; unfold fmul, bit_of; rewrite Z.mod_small; cbn; lia. Qed.

Lemma array_prefix_ok : forall a b, nibble a -> nibble b ->
  rlp_array_prefix p a b =
    let byte := 16 * a + b in
    (bit_of (248 <=? byte), (if 192 <=? byte then head_hexlen (classify byte) else 0), bit_of (192 <=? byte)).
Proof.
  intros a b Ha Hb. unfold nibble in *. unfold rlp_array_prefix.
  rewrite !r_less_than_ok, fis_zero_sub by (unfold felt; lia).
  rewrite !one_minus_bit, mul_bits. cbv zeta.
  f_equal; [f_equal|].
  - destruct (Z.eqb_spec a 15), (Z.ltb_spec b 8), (Z.leb_spec 248 (16*a+b)); cbn; lia.
  - unfold classify. mnorm_lhs p.
    destruct (Z.ltb_spec a 12), (Z.leb_spec 192 (16*a+b)); try lia; cbn [negb bit_of].
    + rewrite Z.mul_0_l. apply Zmod_0_l.
    + rewrite Z.mul_1_l.
      destruct (Z.leb_spec (16*a+b) 127); [lia|]. destruct (Z.leb_spec (16*a+b) 183); [lia|].
      destruct (Z.leb_spec (16*a+b) 191); [lia|].
      destruct (Z.leb_spec (16*a+b) 247); destruct (Z.eqb_spec a 15), (Z.ltb_spec b 8);
        cbn [andb bit_of negb head_hexlen]; try lia; rewrite Z.mod_small; lia.
  - destruct (Z.ltb_spec a 12), (Z.leb_spec 192 (16*a+b)); cbn; lia.
Qed.

Lemma field_prefix_ok : forall a b, nibble a -> nibble b ->
  rlp_field_prefix p a b =
    let byte := 16 * a + b in
    FieldPrefix (bit_of (head_big (classify byte))) (bit_of (head_literal (classify byte)))
      (head_hexlen (classify byte)) (if byte =? 192 then 2 else 1)
      (bit_of (192 <=? byte)) (bit_of (byte =? 192)) (bit_of (byte =? 0)).
Proof.
  intros a b Ha Hb. unfold rlp_field_prefix. rewrite array_prefix_ok by auto.
  unfold nibble in *. cbv zeta. set (byte := 16 * a + b).
  rewrite !r_less_than_ok, !fis_zero_sub by (unfold felt; lia).
  rewrite (fis_zero_felt p b), (fis_zero_felt p a) by (unfold felt; lia).
  rewrite !one_minus_bit, !mul_bits, !one_minus_bit.
  assert (Hcl : classify byte =
    if byte <=? 127 then HLiteral
    else if byte <=? 183 then HShortString (byte - 128)
    else if byte <=? 191 then HLongString (byte - 183)
    else if byte <=? 247 then HShortList (byte - 192) else HLongList (byte - 247)) by reflexivity.
  rewrite Hcl. clear Hcl.
  replace (a <? 12) with (byte <=? 191)
    by (destruct (Z.leb_spec byte 191), (Z.ltb_spec a 12); subst byte; auto; lia).
  replace (a <? 8) with (byte <=? 127)
    by (destruct (Z.leb_spec byte 127), (Z.ltb_spec a 8); subst byte; auto; lia).
  replace ((a =? 11) && negb (b <? 8)) with ((184 <=? byte) && (byte <=? 191))
    by (destruct (Z.eqb_spec a 11), (Z.ltb_spec b 8), (Z.leb_spec 184 byte), (Z.leb_spec byte 191); subst byte; cbn; auto; lia).
  replace ((a =? 12) && (b =? 0)) with (byte =? 192)
    by (destruct (Z.eqb_spec a 12), (Z.eqb_spec b 0), (Z.eqb_spec byte 192); subst byte; cbn; auto; lia).
  replace (fis_zero p (fsub p 2 (fadd p (bit_of (a =? 0)) (bit_of (b =? 0))))) with (bit_of (byte =? 0)).
  2:{ rewrite fadd_small by (destruct (a =? 0), (b =? 0); cbn; lia).
      rewrite fis_zero_sub by (try lia; unfold felt; destruct (a =? 0), (b =? 0); cbn; lia).
      destruct (Z.eqb_spec a 0), (Z.eqb_spec b 0), (Z.eqb_spec byte 0); subst byte; cbn; auto; lia. }
  assert (Hbyte : 0 <= byte < 256) by (subst byte; lia).
  replace (fadd p (fmul p 16 a) b) with byte by (symmetry; mnorm_lhs p; rewrite Z.mod_small; subst byte; lia).
  clearbody byte. clear Ha Hb a b.
  destruct (Z.leb_spec byte 127); [|destruct (Z.leb_spec byte 183); [|destruct (Z.leb_spec byte 191);
    [|destruct (Z.leb_spec byte 247)]]];
  destruct (Z.leb_spec 192 byte), (Z.leb_spec 184 byte), (Z.leb_spec byte 191), (Z.eqb_spec byte 192),
    (Z.leb_spec 248 byte);
  try lia; cbn [andb negb bit_of head_big head_literal head_hexlen];
  f_equal; mnorm_lhs p; rewrite Z.mod_small; lia.
Qed.

End P.
