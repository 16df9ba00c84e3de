(** The moon's node is never at 180 degrees at a time that a clock can show. *)
From Coq Require Import ZArith Reals Lia Lra.
From Verif Require Import S_Cal S_Tide L_PiIrr.
Open Scope R_scope.

Definition rational (x : R) : Prop := exists a b : Z, (0 < b)%Z /\ x = IZR a / IZR b.
Lemma rational_plus x y : rational x -> rational y -> rational (x + y).
Proof.
  intros (a & b & Hb & ->) (c & d & Hd & ->). exists (a * d + c * b)%Z, (b * d)%Z. split; [nia|].
  apply IZR_lt in Hb, Hd. rewrite plus_IZR, !mult_IZR. field. lra.
Qed.
Lemma rational_mult x y : rational x -> rational y -> rational (x * y).
Proof.
  intros (a & b & Hb & ->) (c & d & Hd & ->). exists (a * c)%Z, (b * d)%Z. split; [nia|].
  apply IZR_lt in Hb, Hd. rewrite !mult_IZR. field. lra.
Qed.

Lemma cos_m1 x : cos x = -1 -> exists k : Z, x = IZR (2 * k + 1) * PI.
Proof.
  intros H. assert (S : sin (x / 2 - PI / 2) = 0).
  { replace (x / 2 - PI / 2) with (- (PI / 2 - x / 2)) by ring. rewrite sin_neg, sin_shift.
    assert (E : cos x = 2 * cos (x / 2) * cos (x / 2) - 1).
    { replace x with (2 * (x / 2)) at 1 by field. apply cos_2a_cos. }
    assert (Q : Rsqr (cos (x / 2)) = 0) by (unfold Rsqr; lra).
    apply Rsqr_0_uniq in Q. lra. }
  apply sin_eq_0_0 in S. destruct S as [k Hk]. exists k. rewrite plus_IZR, mult_IZR. lra.
Qed.

Lemma cos_turns x (k : Z) : cos (x + 2 * IZR k * PI) = cos x.
Proof.
  destruct (Z_le_gt_dec 0 k) as [Hk|Hk].
  - rewrite <- (Z2Nat.id k) by lia. rewrite <- INR_IZR_INZ. apply cos_period.
  - rewrite <- (cos_period (x + 2 * IZR k * PI) (Z.to_nat (- k))). f_equal.
    rewrite INR_IZR_INZ, Z2Nat.id by lia. rewrite opp_IZR. ring.
Qed.

Lemma node_not_180 i T : julian_centuries i T -> cos (moon_node T) <> -1.
Proof.
  intros (o & _ & ->) H. apply cos_m1 in H. destruct H as [k Hk].
  set (T := IZR ((i - o) / 1000000) / 86400 / 36525) in Hk.
  assert (RT : rational T).
  { exists ((i - o) / 1000000)%Z, (86400 * 36525)%Z. split; [reflexivity|]. unfold T. rewrite mult_IZR. field. }
  assert (RN : rational (moon_node T)).
  { replace (moon_node T) with (4.523588564 + (-33.75715303 * T + 0.000036749 * (T * T))) by (unfold moon_node, poly3; ring).
    apply rational_plus; [exists 4523588564%Z, 1000000000%Z; split; [reflexivity|lra]|].
    apply rational_plus; apply rational_mult.
    - exists (-3375715303)%Z, 100000000%Z. split; [reflexivity|lra].
    - exact RT.
    - exists 36749%Z, 1000000000%Z. split; [reflexivity|lra].
    - apply rational_mult; exact RT. }
  assert (K0 : IZR (2 * k + 1) <> 0) by (apply not_0_IZR; lia).
  assert (RP : rational PI).
  { replace PI with (moon_node T * / IZR (2 * k + 1)) by (rewrite Hk; field; exact K0).
    apply rational_mult; [exact RN|]. destruct (Z.lt_trichotomy (2 * k + 1) 0) as [C|[C|C]]; [|lia|].
    - exists (-1)%Z, (- (2 * k + 1))%Z. split; [lia|]. rewrite opp_IZR. field. exact K0.
    - exists 1%Z, (2 * k + 1)%Z. split; [exact C|]. field. exact K0. }
  destruct RP as (a & b & Hb & E). exact (PI_irrational a b Hb E).
Qed.
