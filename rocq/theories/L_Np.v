(** Lemmas on the numpy vocabulary. *)
From Coq Require Import List Reals Arith Lia Lra.
From Verif Require Import M_Py M_Np S_Base L_Base.
Import ListNotations.
Open Scope R_scope.

Lemma pysum_map_seq f n : pysum (map f (seq 0 n)) = Rsum n f.
Proof.
  rewrite pysum_Rsum, map_length, seq_length. apply Rsum_ext. intros i Hi.
  rewrite nth_map_seq by exact Hi. reflexivity.
Qed.

Lemma convolve_full_length a v : length (convolve_full a v) = (length a + length v - 1)%nat.
Proof. unfold convolve_full. rewrite map_length, seq_length. reflexivity. Qed.

Lemma nth_convolve_full a v k d : (k < length a + length v - 1)%nat ->
  nth k (convolve_full a v) d = Rsum (S k) (fun i => nth i a 0 * nth (k - i) v 0).
Proof. intros H. unfold convolve_full. rewrite nth_map_seq by exact H. apply pysum_map_seq. Qed.

(** In terms of the kernel: sum over j of v[j]*a[k-j]. *)
Lemma nth_convolve_full_kernel a v k d : (k < length a + length v - 1)%nat ->
  nth k (convolve_full a v) d =
  Rsum (length v) (fun j => nth j v 0 * (if (j <=? k)%nat then nth (k - j) a 0 else 0)).
Proof.
  intros H. rewrite nth_convolve_full by exact H.
  rewrite Rsum_rev.
  assert (E : Rsum (S k) (fun i => nth (S k - 1 - i) a 0 * nth (k - (S k - 1 - i)) v 0)
            = Rsum (S k) (fun j => nth j v 0 * (if (j <=? k)%nat then nth (k - j) a 0 else 0))).
  { apply Rsum_ext. intros i Hi. destruct (Nat.leb_spec i k) as [Hik|Hik]; [|lia].
    replace (S k - 1 - i)%nat with (k - i)%nat by lia. replace (k - (k - i))%nat with i by lia. lra. }
  rewrite E.
  destruct (Nat.le_gt_cases (S k) (length v)) as [Hl|Hl].
  - replace (length v) with (S k + (length v - S k))%nat by lia. rewrite Rsum_split.
    rewrite (Rsum_eq0 (length v - S k)); [lra|]. intros i Hi.
    destruct (Nat.leb_spec (S k + i) k); [lia|lra].
  - replace (S k) with (length v + (S k - length v))%nat by lia. rewrite Rsum_split.
    rewrite (Rsum_eq0 (S k - length v)); [lra|]. intros i Hi.
    rewrite nth_overflow by lia. lra.
Qed.

Lemma convolve_same_length a v : a <> [] -> v <> [] ->
  length (convolve_same a v) = Nat.max (length a) (length v).
Proof.
  intros Ha Hv. unfold convolve_same. rewrite slice_length, convolve_full_length.
  destruct a as [|? a]; [congruence|]. destruct v as [|? v]; [congruence|]. cbn [length].
  assert (H : (Nat.div (Nat.min (S (length a)) (S (length v)) - 1) 2 <= Nat.min (length a) (length v))%nat).
  { replace (Nat.min (S (length a)) (S (length v)) - 1)%nat with (Nat.min (length a) (length v)) by lia.
    apply Nat.div_le_upper_bound; lia. }
  lia.
Qed.

Lemma nth_convolve_same a v k d : (k < Nat.max (length a) (length v))%nat -> a <> [] -> v <> [] ->
  nth k (convolve_same a v) d = nth (Nat.div (Nat.min (length a) (length v) - 1) 2 + k) (convolve_full a v) d.
Proof.
  intros Hk Ha Hv. unfold convolve_same.
  rewrite nth_slice by lia. reflexivity.
Qed.

(** ** arctan2 *)
Lemma sqrt_pos_ne x y : x <> 0 -> 0 < sqrt (y ^ 2 + x ^ 2).
Proof. intros H. apply sqrt_lt_R0. assert (0 < x ^ 2) by nra. nra. Qed.

Lemma cos_atan_pos t : cos (atan t) = 1 / sqrt (1 + t ^ 2).
Proof. rewrite cos_atan. unfold Rsqr. replace (t * t) with (t ^ 2) by ring. reflexivity. Qed.
Lemma sin_atan_pos t : sin (atan t) = t / sqrt (1 + t ^ 2).
Proof. rewrite sin_atan. unfold Rsqr. replace (t * t) with (t ^ 2) by ring. reflexivity. Qed.

Lemma sqrt_ratio y x : x <> 0 -> sqrt (1 + (y / x) ^ 2) = sqrt (y ^ 2 + x ^ 2) / Rabs x.
Proof.
  intros H. replace (1 + (y / x) ^ 2) with ((y ^ 2 + x ^ 2) / x ^ 2) by (field; exact H).
  rewrite sqrt_div_alt by nra. f_equal. rewrite <- sqrt_Rsqr_abs. f_equal. unfold Rsqr. ring.
Qed.

Lemma arctan2_polar y x :
  sqrt (y ^ 2 + x ^ 2) * sin (arctan2 y x) = y /\ sqrt (y ^ 2 + x ^ 2) * cos (arctan2 y x) = x /\
  - PI < arctan2 y x <= PI.
Proof.
  pose proof PI_RGT_0 as Hpi. unfold arctan2.
  destruct (Rlt_dec 0 x) as [Hx|Hx].
  - pose proof (atan_bound (y / x)) as Hb.
    assert (Hs := sqrt_pos_ne x y (Rgt_not_eq _ _ Hx)).
    rewrite sin_atan_pos, cos_atan_pos, sqrt_ratio, Rabs_right by lra.
    split; [field; lra|]. split; [field; lra|lra].
  - destruct (Rlt_dec x 0) as [Hx'|Hx'].
    + pose proof (atan_bound (y / x)) as Hb.
      assert (Hs := sqrt_pos_ne x y (Rlt_not_eq _ _ Hx')).
      destruct (Rle_dec 0 y) as [Hy|Hy].
      * rewrite neg_sin, neg_cos, sin_atan_pos, cos_atan_pos, sqrt_ratio, Rabs_left by lra.
        split; [field; lra|]. split; [field; lra|].
        assert (Ha : atan (y / x) <= 0).
        { rewrite <- atan_0. destruct (Req_dec y 0) as [-> | Hn].
          - unfold Rdiv. rewrite Rmult_0_l. lra.
          - left. apply atan_increasing. unfold Rdiv. assert (/ x < 0) by (apply Rinv_lt_0_compat; exact Hx'). nra. }
        lra.
      * assert (E : forall t, t - PI = - (PI - t)) by (intros; ring).
        rewrite E, sin_neg, cos_neg, sin_PI_x.
        replace (PI - atan (y / x)) with (- atan (y / x) + PI) by ring. rewrite neg_cos, cos_neg.
        rewrite sin_atan_pos, cos_atan_pos, sqrt_ratio, Rabs_left by lra.
        split; [field; lra|]. split; [field; lra|].
        assert (Ha : 0 < atan (y / x)).
        { rewrite <- atan_0. apply atan_increasing. unfold Rdiv.
          assert (/ x < 0) by (apply Rinv_lt_0_compat; exact Hx'). nra. }
        lra.
    + assert (x = 0) by lra. subst x.
      replace (y ^ 2 + 0 ^ 2) with (Rsqr y) by (unfold Rsqr; ring). rewrite sqrt_Rsqr_abs.
      destruct (Rlt_dec 0 y) as [Hy|Hy].
      * rewrite sin_PI2, cos_PI2, Rabs_right by lra. lra.
      * destruct (Rlt_dec y 0) as [Hy'|Hy'].
        -- rewrite sin_neg, cos_neg, sin_PI2, cos_PI2, Rabs_left by lra. lra.
        -- assert (y = 0) by lra. subst y. rewrite Rabs_R0. lra.
Qed.
