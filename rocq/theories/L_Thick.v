(** Lemmas for property C100: harmonics and single lines. *)
From Coq Require Import List Reals Arith Lia Lra Bool.
From Verif Require Import M_Py M_CC M_Fft M_Four M_Crust S_Base S_Four S_Crust L_Base L_Np L_CC L_Fft L_Four L_Crust.
Import ListNotations.
Open Scope R_scope.

Lemma mod_zero_iff N s : (0 < s < 2 * N)%nat -> (s mod N = 0 <-> s = N)%nat.
Proof.
  intros H. destruct (Nat.lt_ge_cases s N) as [L|L].
  - rewrite Nat.mod_small by exact L. lia.
  - replace s with ((s - N) + 1 * N)%nat at 1 by lia. rewrite Nat.mod_add, Nat.mod_small by lia. lia.
Qed.
Lemma cos_2pi_nat x n : cos (x + 2 * PI * INR n) = cos x.
Proof. replace (x + 2 * PI * INR n) with (x + 2 * INR n * PI) by ring. apply cos_period. Qed.

(** one bin *)
Lemma wave_bin N m a ph i : (0 < m < N)%nat -> (a < N)%nat ->
  Rsum N (fun l => cos (2 * PI * INR m * INR l / INR N + ph) * cos (2 * PI * INR a * (INR i - INR l) / INR N)) =
  INR N / 2 * cos (2 * PI * INR m * INR i / INR N + ph) * ((if (a =? m)%nat then 1 else 0) + (if (a =? N - m)%nat then 1 else 0)).
Proof.
  intros Hm Ha. assert (HN : INR N <> 0) by (apply not_0_INR; lia).
  rewrite (Rsum_ext N _ (fun l => / 2 * (cos ((ph + 2 * PI * INR a * INR i / INR N) + 2 * PI * INR l * INR (m + N - a) / INR N)
     + cos ((ph - 2 * PI * INR a * INR i / INR N) + 2 * PI * INR l * INR (m + a) / INR N)))).
  2:{ intros l _. set (X := 2 * PI * INR m * INR l / INR N + ph). set (Y := 2 * PI * INR a * (INR i - INR l) / INR N).
      replace (ph + 2 * PI * INR a * INR i / INR N + 2 * PI * INR l * INR (m + N - a) / INR N) with (X + Y + 2 * PI * INR l)
        by (unfold X, Y; rewrite minus_INR, plus_INR by lia; field; exact HN).
      replace (ph - 2 * PI * INR a * INR i / INR N + 2 * PI * INR l * INR (m + a) / INR N) with (X - Y)
        by (unfold X, Y; rewrite plus_INR by lia; field; exact HN).
      rewrite cos_2pi_nat, cos_plus, cos_minus. field. }
  rewrite Rsum_scal, Rsum_plus, !(axis_sum cos) by (try lia; left; reflexivity).
  assert (E1 : ((m + N - a) mod N =? 0)%nat = (a =? m)%nat).
  { pose proof (mod_zero_iff N (m + N - a) ltac:(lia)) as Q. destruct (Nat.eqb_spec a m) as [->|Na]; [apply Nat.eqb_eq; apply Q; lia|apply Nat.eqb_neq; intros C; apply Q in C; lia]. }
  assert (E2 : ((m + a) mod N =? 0)%nat = (a =? N - m)%nat).
  { pose proof (mod_zero_iff N (m + a) ltac:(lia)) as Q. destruct (Nat.eqb_spec a (N - m)) as [->|Na]; [apply Nat.eqb_eq; apply Q; lia|apply Nat.eqb_neq; intros C; apply Q in C; lia]. }
  rewrite E1, E2.
  assert (K1 : a = m -> cos (ph + 2 * PI * INR a * INR i / INR N) = cos (2 * PI * INR m * INR i / INR N + ph)) by (intros ->; f_equal; ring).
  assert (K2 : a = (N - m)%nat -> cos (ph - 2 * PI * INR a * INR i / INR N) = cos (2 * PI * INR m * INR i / INR N + ph)).
  { intros ->. rewrite <- (cos_2pi_nat (ph - _) i). f_equal. rewrite minus_INR by lia. field. exact HN. }
  destruct (Nat.eqb_spec a m) as [Em|Em]; destruct (Nat.eqb_spec a (N - m)) as [En|En]; rewrite ?K1, ?K2 by assumption; field.
Qed.

(** all bins *)
Lemma wave_bins N w m ph i : (0 < m < N)%nat ->
  Rsum N (fun a => Rsum N (fun l => w a * cos (2 * PI * INR m * INR l / INR N + ph) * cos (2 * PI * INR a * (INR i - INR l) / INR N))) =
  INR N * ((w m + w (N - m)%nat) / 2 * cos (2 * PI * INR m * INR i / INR N + ph)).
Proof.
  intros Hm. set (K := cos (2 * PI * INR m * INR i / INR N + ph)).
  rewrite (Rsum_ext N _ (fun a => INR N / 2 * K * (w a * (if (a =? m)%nat then 1 else 0)) + INR N / 2 * K * (w a * (if (a =? N - m)%nat then 1 else 0)))).
  2:{ intros a Ha. transitivity (w a * (INR N / 2 * K * ((if (a =? m)%nat then 1 else 0) + (if (a =? N - m)%nat then 1 else 0)))); [|ring].
      unfold K. rewrite <- (wave_bin N m a ph i Hm Ha), <- Rsum_scal. apply Rsum_ext. intros l _. ring. }
  rewrite Rsum_plus, !Rsum_scal.
  rewrite (Rsum_single N m) by (try lia; intros a _ Na; rewrite (proj2 (Nat.eqb_neq a m)) by exact Na; ring).
  rewrite (Rsum_single N (N - m)%nat) by (try lia; intros a _ Na; rewrite (proj2 (Nat.eqb_neq a (N - m))) by exact Na; ring).
  rewrite !Nat.eqb_refl. field.
Qed.

Lemma cos_wave_bins N w m i : (0 < m < N)%nat ->
  Rsum N (fun a => Rsum N (fun l => w a * cos (2 * PI * INR m * INR l / INR N) * cos (2 * PI * INR a * (INR i - INR l) / INR N))) =
  INR N * ((w m + w (N - m)%nat) / 2 * cos (2 * PI * INR m * INR i / INR N)).
Proof.
  intros Hm. pose proof (wave_bins N w m 0 i Hm) as W. rewrite Rplus_0_r in W. rewrite <- W. apply Rsum_ext. intros a _. apply Rsum_ext. intros l _. rewrite Rplus_0_r. reflexivity.
Qed.
Lemma sin_as_cos x : cos (x + - (PI / 2)) = sin x.
Proof. replace (x + - (PI / 2)) with (- (PI / 2 - x)) by ring. rewrite cos_neg. apply cos_shift. Qed.
Lemma sin_wave_bins N w m i : (0 < m < N)%nat ->
  Rsum N (fun a => Rsum N (fun l => w a * sin (2 * PI * INR m * INR l / INR N) * cos (2 * PI * INR a * (INR i - INR l) / INR N))) =
  INR N * ((w m + w (N - m)%nat) / 2 * sin (2 * PI * INR m * INR i / INR N)).
Proof.
  intros Hm. pose proof (wave_bins N w m (- (PI / 2)) i Hm) as W. rewrite sin_as_cos in W. rewrite <- W. apply Rsum_ext. intros a _. apply Rsum_ext. intros l _. rewrite sin_as_cos. reflexivity.
Qed.

(** sums of harmonics *)
Definition hsum (H N : nat) (A B : nat -> R) (t : R) : R :=
  Rsum H (fun i => A (S i) * cos (2 * PI * INR (S i) * t / INR N) + B (S i) * sin (2 * PI * INR (S i) * t / INR N)).

Lemma filtered_line N w u i : filtered N 1 w u cos i 0 = / INR N * Rsum N (fun a => Rsum N (fun l => w a 0%nat * u l 0%nat * cos (2 * PI * INR a * (INR i - INR l) / INR N))).
Proof.
  unfold filtered. replace (INR N * INR 1) with (INR N) by (cbn [INR]; ring). f_equal. apply Rsum_ext. intros a _. cbn [Rsum]. rewrite Rplus_0_l. apply Rsum_ext. intros l _. rewrite Rplus_0_l.
  f_equal. f_equal. unfold phase2. cbn [INR]. unfold Rdiv at 2. ring.
Qed.

Lemma hsum_mean H N A B : (H < N)%nat -> Rsum N (fun j => hsum H N A B (INR j)) = 0.
Proof.
  intros HN. unfold hsum. rewrite Rsum_swap. apply Rsum_eq0. intros i Hi. rewrite Rsum_plus, !Rsum_scal.
  pose proof (cos_sum_zero N (S i) 0 ltac:(lia)) as C. pose proof (sin_sum_zero N (S i) 0 ltac:(lia)) as S0.
  rewrite (Rsum_ext N _ (fun l => cos (2 * PI * INR (S i) * INR l / INR N))) in C by (intros; f_equal; ring).
  rewrite (Rsum_ext N _ (fun l => sin (2 * PI * INR (S i) * INR l / INR N))) in S0 by (intros; f_equal; ring).
  rewrite C, S0. ring.
Qed.

Lemma filtered_hsum H N w s A B i : (H < N)%nat ->
  filtered N 1 w (fun l _ => s * hsum H N A B (INR l)) cos i 0 =
  s * hsum H N (fun m => (w m 0%nat + w (N - m)%nat 0%nat) / 2 * A m) (fun m => (w m 0%nat + w (N - m)%nat 0%nat) / 2 * B m) (INR i).
Proof.
  intros HN. rewrite filtered_line. assert (Nz : INR N <> 0) by (apply not_0_INR; lia).
  rewrite (Rsum_ext N _ (fun a => Rsum H (fun m => Rsum N (fun l => s * A (S m) * (w a 0%nat * cos (2 * PI * INR (S m) * INR l / INR N) * cos (2 * PI * INR a * (INR i - INR l) / INR N))
     + s * B (S m) * (w a 0%nat * sin (2 * PI * INR (S m) * INR l / INR N) * cos (2 * PI * INR a * (INR i - INR l) / INR N)))))).
  2:{ intros a _. rewrite <- Rsum_swap. apply Rsum_ext. intros l _. unfold hsum. rewrite <- Rsum_scal. rewrite <- Rsum_scal. rewrite <- Rsum_scal_r. apply Rsum_ext. intros m _. ring. }
  rewrite Rsum_swap. unfold hsum. rewrite <- !Rsum_scal. apply Rsum_ext. intros m Hm.
  rewrite (Rsum_ext N _ (fun a => s * A (S m) * Rsum N (fun l => w a 0%nat * cos (2 * PI * INR (S m) * INR l / INR N) * cos (2 * PI * INR a * (INR i - INR l) / INR N))
     + s * B (S m) * Rsum N (fun l => w a 0%nat * sin (2 * PI * INR (S m) * INR l / INR N) * cos (2 * PI * INR a * (INR i - INR l) / INR N)))).
  2:{ intros a _. rewrite Rsum_plus, !Rsum_scal. reflexivity. }
  rewrite Rsum_plus, !Rsum_scal. pose proof (cos_wave_bins N (fun a => w a 0%nat) (S m) i ltac:(lia)) as C1. pose proof (sin_wave_bins N (fun a => w a 0%nat) (S m) i ltac:(lia)) as C2. cbv beta in C1, C2.
  rewrite C1, C2. field. exact Nz.
Qed.

(** every series of 2 H points is a sum of H harmonics and a constant *)
Lemma half_sum H g : (1 <= H)%nat -> (forall a, (0 < a < 2 * H)%nat -> g (2 * H - a)%nat = g a) ->
  Rsum (2 * H) g = g 0%nat + Rsum H (fun i => (if (S i =? H)%nat then 1 else 2) * g (S i)).
Proof.
  intros HH Sy. destruct H as [|h]; [lia|]. replace (2 * S h)%nat with (S (S h + h)) by lia. rewrite Rsum_S_first. f_equal. rewrite Rsum_split.
  rewrite (Rsum_ext h (fun i => g (S (S h + i))) (fun i => g (S (h - 1 - i)))).
  2:{ intros i Hi. replace (S (S h + i)) with (2 * S h - (S (h - 1 - i)))%nat by lia. apply Sy. lia. }
  rewrite <- (Rsum_rev h (fun i => g (S i))). cbn [Rsum]. rewrite Nat.eqb_refl.
  rewrite (Rsum_ext h (fun i => (if (S i =? S h)%nat then 1 else 2) * g (S i)) (fun i => 2 * g (S i))) by (intros i Hi; rewrite (proj2 (Nat.eqb_neq (S i) (S h))) by lia; reflexivity).
  rewrite Rsum_scal. ring.
Qed.

Lemma every_series H x : (1 <= H)%nat -> exists c A B, forall j, (j < 2 * H)%nat -> x j = c + hsum H (2 * H) A B (INR j).
Proof.
  intros HH. set (N := (2 * H)%nat). assert (Nz : INR N <> 0) by (apply not_0_INR; unfold N; lia).
  exists (/ INR N * Rsum N x), (fun m => (if (m =? H)%nat then 1 else 2) * (/ INR N * Rsum N (fun l => x l * cos (2 * PI * INR m * INR l / INR N)))),
    (fun m => (if (m =? H)%nat then 1 else 2) * (/ INR N * Rsum N (fun l => x l * sin (2 * PI * INR m * INR l / INR N)))). intros j Hj.
  set (g := fun a => / INR N * Rsum N (fun l => x l * cos (2 * PI * INR a * (INR j - INR l) / INR N))).
  assert (I : Rsum N g = x j).
  { unfold g. rewrite Rsum_scal, Rsum_swap. rewrite (Rsum_single N j) by (try exact Hj; intros l Hl Nl;
      rewrite (Rsum_ext N _ (fun a => x l * cos (0 + 2 * PI * INR a * INR (j + N - l) / INR N))) by (intros a _; f_equal; rewrite minus_INR, plus_INR by lia;
        rewrite <- (cos_2pi_nat (2 * PI * INR a * (INR j - INR l) / INR N) a); f_equal; field; exact Nz);
      rewrite Rsum_scal, (axis_sum cos) by (try (unfold N; lia); left; reflexivity);
      rewrite (proj2 (Nat.eqb_neq _ _)) by (intros C; apply (mod_zero_iff N) in C; lia); ring).
    rewrite (Rsum_ext N _ (fun _ => x j)) by (intros a _; replace (2 * PI * INR a * (INR j - INR j) / INR N) with 0 by (field; exact Nz); rewrite cos_0; ring).
    rewrite Rsum_const. field. exact Nz. }
  rewrite <- I. unfold N at 1. rewrite (half_sum H g HH).
  2:{ intros a Ha. unfold g. f_equal. apply Rsum_ext. intros l _. f_equal. fold N.
      replace (2 * PI * INR (N - a) * (INR j - INR l) / INR N) with (- (2 * PI * INR a * (INR j - INR l) / INR N) + 2 * PI * INR j + - (2 * PI * INR l)) by (rewrite minus_INR by (unfold N in *; lia); field; exact Nz).
      rewrite <- (cos_2pi_nat (_ + - _) l). replace (- (2 * PI * INR a * (INR j - INR l) / INR N) + 2 * PI * INR j + - (2 * PI * INR l) + 2 * PI * INR l) with (- (2 * PI * INR a * (INR j - INR l) / INR N) + 2 * PI * INR j) by ring.
      rewrite cos_2pi_nat, cos_neg. reflexivity. }
  f_equal.
  - unfold g. f_equal. apply Rsum_ext. intros l _. cbn [INR]. replace (2 * PI * 0 * (INR j - INR l) / INR N) with 0 by (field; exact Nz). rewrite cos_0. ring.
  - unfold hsum. apply Rsum_ext. intros i Hi. set (q := if (S i =? H)%nat then 1 else 2).
    transitivity (q * (/ INR N * (cos (2 * PI * INR (S i) * INR j / INR N) * Rsum N (fun l => x l * cos (2 * PI * INR (S i) * INR l / INR N)) + sin (2 * PI * INR (S i) * INR j / INR N) * Rsum N (fun l => x l * sin (2 * PI * INR (S i) * INR l / INR N))))); [|ring].
    f_equal. unfold g. f_equal. rewrite <- !Rsum_scal, <- Rsum_plus. apply Rsum_ext. intros l _.
    replace (2 * PI * INR (S i) * (INR j - INR l) / INR N) with (2 * PI * INR (S i) * INR j / INR N - 2 * PI * INR (S i) * INR l / INR N) by (field; exact Nz). rewrite cos_minus. ring.
Qed.

(** scaling of the taper *)
Lemma taper_scale k1 k2 k c : 0 < c -> taper (k1 / c) (k2 / c) (k / c) = taper k1 k2 k.
Proof.
  intros Hc. unfold taper. assert (L : forall a b, a / c <= b / c <-> a <= b).
  { intros a b. split; intros H; [apply Rmult_le_reg_r with (/ c); [apply Rinv_0_lt_compat; exact Hc|exact H]|apply Rmult_le_compat_r; [left; apply Rinv_0_lt_compat; exact Hc|exact H]]. }
  destruct (Rle_dec (k / c) (k1 / c)) as [A|A]; destruct (Rle_dec k k1) as [A'|A']; rewrite L in A; try tauto.
  destruct (Rle_dec (k / c) (k2 / c)) as [B|B]; destruct (Rle_dec k k2) as [B'|B']; rewrite L in B; try tauto.
  unfold raised_cosine. do 3 f_equal. f_equal. assert (k2 <> k1 \/ k2 = k1) as [D|D] by tauto; [field; split; lra|]. exfalso. lra.
Qed.
