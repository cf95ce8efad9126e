(** * L_FloatDiv: int(a / 8) and int(a / 2) are exact for the sizes that occur *)
From Coq Require Import Reals ZArith Lia Lra.
From Flocq Require Import Core.
From Flocq Require Import BinarySingleNaN.
From Verif Require Import M_Py M_Float M_ECCurve S_Float L_Float.
Open Scope Z_scope.

Lemma int_div_8 a : 0 <= a < 2 ^ 53 -> int_div a 8 = Ok (a / 8).
Proof.
  intros A. unfold int_div.
  assert (E : (IZR a / IZR 8)%R = F2R (Float radix2 a (-3))) by (unfold F2R; cbn; lra).
  assert (G : rnd64 (IZR a / IZR 8) = (IZR a / IZR 8)%R).
  { apply round_generic; [auto with typeclass_instances|]. rewrite E. apply generic_format_FLT.
    exists (Float radix2 a (-3)); [reflexivity|change (Z.abs a < 2 ^ 53); lia|cbn; lia]. }
  destruct (int_truediv_spec a 8 ltac:(lia)) as [(f & F & I & _)|[O _]].
  - rewrite F. cbn [rbind]. rewrite (py_int_spec _ _ I), G. f_equal.
    rewrite Ztrunc_floor. { apply Zfloor_div. lia. }
    apply Rmult_le_pos; [apply IZR_le; lia|]. apply Rlt_le, Rinv_0_lt_compat. lra.
  - exfalso. unfold overflows in O. rewrite G in O. apply (Rle_not_lt _ _ O).
    rewrite Rabs_pos_eq by (apply Rmult_le_pos; [apply IZR_le; lia|apply Rlt_le, Rinv_0_lt_compat; lra]).
    apply Rlt_trans with (bpow radix2 53); [|apply bpow_lt; lia].
    apply Rle_lt_trans with (IZR a); [|rewrite <- (IZR_Zpower radix2 53) by lia; apply IZR_lt; change (Zpower radix2 53) with (2 ^ 53); lia].
    assert (0 <= IZR a)%R by (apply IZR_le; lia). lra.
Qed.
Lemma int_div_2 a : 0 <= a < 2 ^ 53 -> int_div a 2 = Ok (a / 2).
Proof.
  intros A. unfold int_div.
  assert (E : (IZR a / IZR 2)%R = F2R (Float radix2 a (-1))) by (unfold F2R; cbn; lra).
  assert (G : rnd64 (IZR a / IZR 2) = (IZR a / IZR 2)%R).
  { apply round_generic; [auto with typeclass_instances|]. rewrite E. apply generic_format_FLT.
    exists (Float radix2 a (-1)); [reflexivity|change (Z.abs a < 2 ^ 53); lia|cbn; lia]. }
  destruct (int_truediv_spec a 2 ltac:(lia)) as [(f & F & I & _)|[O _]].
  - rewrite F. cbn [rbind]. rewrite (py_int_spec _ _ I), G. f_equal.
    rewrite Ztrunc_floor. { apply Zfloor_div. lia. }
    apply Rmult_le_pos; [apply IZR_le; lia|]. apply Rlt_le, Rinv_0_lt_compat. lra.
  - exfalso. unfold overflows in O. rewrite G in O. apply (Rle_not_lt _ _ O).
    rewrite Rabs_pos_eq by (apply Rmult_le_pos; [apply IZR_le; lia|apply Rlt_le, Rinv_0_lt_compat; lra]).
    apply Rlt_trans with (bpow radix2 53); [|apply bpow_lt; lia].
    apply Rle_lt_trans with (IZR a); [|rewrite <- (IZR_Zpower radix2 53) by lia; apply IZR_lt; change (Zpower radix2 53) with (2 ^ 53); lia].
    assert (0 <= IZR a)%R by (apply IZR_le; lia). lra.
Qed.
