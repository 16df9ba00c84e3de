(** Proofs for the tidal correction. *)
From Coq Require Import List ZArith Reals Lia Lra Nsatz.
From Verif Require Import M_Py M_Np M_Cal M_Tide S_Base S_Cal S_Tide L_Base L_Np L_Cal.
Import ListNotations.
Open Scope R_scope.

Lemma deg2rad_rad d : deg2rad d = rad d.
Proof. unfold deg2rad, rad. field. Qed.

Lemma sc x : sin x ^ 2 + cos x ^ 2 = 1.
Proof. pose proof (sin2_cos2 x) as H. unfold Rsqr in H. lra. Qed.

Lemma sc' x : sin x * sin x + cos x * cos x = 1.
Proof. pose proof (sc x). lra. Qed.

Lemma Rabs_le_inv x a : Rabs x <= a -> - a <= x <= a.
Proof. unfold Rabs. destruct (Rcase_abs x); lra. Qed.

Lemma vec_eq (a b c a' b' c' : R) : a = a' -> b = b' -> c = c' -> (a, b, c) = (a', b', c').
Proof. congruence. Qed.

(** ** the two inclinations *)
Lemma omega_range : t_i < t_omega /\ t_omega + t_i < PI / 2 /\ 0 < t_i.
Proof.
  pose proof PI2_3_2 as H1. pose proof PI_4 as H2. unfold t_omega, t_i, deg2rad. lra.
Qed.

Lemma sin_omega_pos : 0 < sin t_omega.
Proof. pose proof omega_range. pose proof PI_RGT_0. apply sin_gt_0; lra. Qed.
Lemma cos_omega_pos : 0 < cos t_omega.
Proof. pose proof omega_range. pose proof PI_RGT_0. apply cos_gt_0; lra. Qed.
Lemma sin_i_pos : 0 < sin t_i.
Proof. pose proof omega_range. pose proof PI_RGT_0. apply sin_gt_0; lra. Qed.
Lemma cos_i_pos : 0 < cos t_i.
Proof. pose proof omega_range. pose proof PI_RGT_0. apply cos_gt_0; lra. Qed.
Lemma sin_diff_pos : 0 < sin t_omega * cos t_i - cos t_omega * sin t_i.
Proof. rewrite <- sin_minus. pose proof omega_range. pose proof PI_RGT_0. apply sin_gt_0; lra. Qed.
Lemma cos_sum_pos : 0 < cos t_omega * cos t_i - sin t_omega * sin t_i.
Proof. rewrite <- cos_plus. pose proof omega_range. pose proof PI_RGT_0. apply cos_gt_0; lra. Qed.

Section Node.
Variable T : R.
Let N := t_N T.
Let X := sin t_i * sin N.
Let Y := sin t_i * cos N * cos t_omega + cos t_i * sin t_omega.
Let A := cos t_omega * sin t_i + cos N * cos t_i * sin t_omega.
Let B := sin t_omega * sin N.
Let cI := cos t_omega * cos t_i - sin t_omega * sin t_i * cos N.

Lemma Y_pos : 0 < Y.
Proof.
  unfold Y. pose proof sin_diff_pos. pose proof (COS_bound N). pose proof sin_i_pos. pose proof cos_omega_pos.
  assert (- (sin t_i * cos t_omega) <= sin t_i * cos N * cos t_omega).
  { assert (0 < sin t_i * cos t_omega) by (apply Rmult_lt_0_compat; assumption). nra. }
  lra.
Qed.

Lemma XY : X ^ 2 + Y ^ 2 = 1 - cI ^ 2.
Proof.
  unfold X, Y, cI. rewrite <- !Rsqr_pow2. unfold Rsqr. pose proof (sc' t_i). pose proof (sc' t_omega). pose proof (sc' N).
  generalize dependent (sin t_i). generalize dependent (cos t_i).
  generalize dependent (sin t_omega). generalize dependent (cos t_omega).
  generalize dependent (sin N). generalize dependent (cos N). intros. nsatz.
Qed.

Lemma AB : A ^ 2 + B ^ 2 = 1 - cI ^ 2.
Proof.
  unfold A, B, cI. rewrite <- !Rsqr_pow2. unfold Rsqr. pose proof (sc' t_i). pose proof (sc' t_omega). pose proof (sc' N).
  generalize dependent (sin t_i). generalize dependent (cos t_i).
  generalize dependent (sin t_omega). generalize dependent (cos t_omega).
  generalize dependent (sin N). generalize dependent (cos N). intros. nsatz.
Qed.

Lemma cI_range : 0 < cI < 1.
Proof.
  pose proof XY. pose proof Y_pos. split.
  - unfold cI. pose proof cos_sum_pos. pose proof (COS_bound N). pose proof sin_omega_pos. pose proof sin_i_pos.
    assert (0 < sin t_omega * sin t_i) by (apply Rmult_lt_0_compat; assumption). nra.
  - nra.
Qed.

Lemma cos_I : cos (t_I T) = cI.
Proof. unfold t_I. fold N. fold cI. apply cos_acos. pose proof cI_range. lra. Qed.

Lemma sin_I_pos : 0 < sin (t_I T).
Proof.
  unfold t_I. fold N. fold cI. rewrite sin_acos by (pose proof cI_range; lra).
  apply sqrt_lt_R0. unfold Rsqr. pose proof cI_range. nra.
Qed.

Lemma sin_I_sq : sin (t_I T) ^ 2 = 1 - cI ^ 2.
Proof. pose proof (sc (t_I T)) as H. rewrite cos_I in H. lra. Qed.

Lemma sin_nu : sin (t_I T) * sin (t_nu T) = X.
Proof.
  unfold t_nu. fold N. fold X. pose proof sin_I_pos as Hs.
  rewrite sin_asin; [field; lra|].
  assert (E : (X / sin (t_I T)) ^ 2 <= 1).
  { replace ((X / sin (t_I T)) ^ 2) with (X ^ 2 / sin (t_I T) ^ 2) by (field; lra).
    apply (Rmult_le_reg_r (sin (t_I T) ^ 2)); [nra|]. unfold Rdiv. rewrite Rmult_assoc, Rinv_l by nra.
    rewrite sin_I_sq. rewrite <- XY. nra. }
  set (z := X / _) in *. nra.
Qed.

Lemma cos_nu : sin (t_I T) * cos (t_nu T) = Y.
Proof.
  pose proof sin_I_pos as Hs. pose proof sin_nu as Hn. pose proof XY as E. pose proof Y_pos.
  assert (Hc : 0 <= cos (t_nu T)).
  { unfold t_nu. pose proof (asin_bound (sin t_i * sin (t_N T) / sin (t_I T))). apply cos_ge_0; lra. }
  assert (E2 : (sin (t_I T) * cos (t_nu T)) ^ 2 = Y ^ 2).
  { pose proof (sc (t_nu T)) as S1. pose proof sin_I_sq as S2. rewrite <- Hn in E.
    set (a := sin (t_I T)) in *. set (b := sin (t_nu T)) in *. set (c := cos (t_nu T)) in *.
    replace ((a * c) ^ 2) with (a ^ 2 * (b ^ 2 + c ^ 2) - (a * b) ^ 2) by ring. rewrite S1. lra. }
  assert (0 <= sin (t_I T) * cos (t_nu T)) by (apply Rmult_le_pos; lra).
  nra.
Qed.

Lemma cos_alpha_A : sin (t_I T) * t_cos_alpha T = A.
Proof.
  unfold t_cos_alpha. fold N.
  replace (sin (t_I T) * (cos N * cos (t_nu T) + sin N * sin (t_nu T) * cos t_omega))
    with (cos N * (sin (t_I T) * cos (t_nu T)) + sin N * cos t_omega * (sin (t_I T) * sin (t_nu T))) by ring.
  rewrite sin_nu, cos_nu. unfold A, Y, X. pose proof (sc N).
  replace (cos t_omega * sin t_i) with (cos t_omega * sin t_i * (sin N ^ 2 + cos N ^ 2)) by (rewrite H; ring). ring.
Qed.

Lemma sin_alpha_B : sin (t_I T) * t_sin_alpha T = B.
Proof. unfold t_sin_alpha. fold N. fold B. pose proof sin_I_pos. field. lra. Qed.

Lemma alpha_unit : t_cos_alpha T ^ 2 + t_sin_alpha T ^ 2 = 1.
Proof.
  pose proof sin_I_pos as Hs. pose proof AB as E. rewrite <- cos_alpha_A, <- sin_alpha_B, <- sin_I_sq in E.
  apply (Rmult_eq_reg_l (sin (t_I T) ^ 2)); [|nra]. lra.
Qed.

Lemma cos_alpha_m1 : cos N <> -1 -> 1 + t_cos_alpha T <> 0.
Proof.
  intros HN H. pose proof alpha_unit as E. pose proof sin_I_pos as Hs. pose proof cos_alpha_A as EA. pose proof sin_alpha_B as EB.
  assert (Ec : t_cos_alpha T = -1) by lra. rewrite Ec in *.
  assert (Es : t_sin_alpha T = 0) by nra. rewrite Es in EB.
  assert (HsN : sin N = 0). { unfold B in EB. pose proof sin_omega_pos. apply (Rmult_eq_reg_l (sin t_omega)); lra. }
  pose proof (sc N) as S. rewrite HsN in S.
  assert (HcN : cos N = 1). { assert ((cos N - 1) * (cos N + 1) = 0) by lra. nra. }
  unfold A in EA. rewrite HcN in EA. pose proof sin_omega_pos. pose proof cos_omega_pos. pose proof sin_i_pos. pose proof cos_i_pos.
  nra.
Qed.

Lemma half_tangent c s : c ^ 2 + s ^ 2 = 1 -> 1 + c <> 0 ->
  cos (2 * atan (s / (1 + c))) = c /\ sin (2 * atan (s / (1 + c))) = s.
Proof.
  intros H Hc. set (t := s / (1 + c)).
  assert (Hp : 0 < 1 + t ^ 2) by nra.
  assert (E : 1 + t ^ 2 = 2 / (1 + c)).
  { unfold t. replace (2 / (1 + c)) with (((1 + c) ^ 2 + s ^ 2) / (1 + c) ^ 2).
    - field. exact Hc.
    - replace ((1 + c) ^ 2 + s ^ 2) with (2 * (1 + c)) by lra. field. exact Hc. }
  assert (Hq : 0 < sqrt (1 + t ^ 2)) by (apply sqrt_lt_R0; exact Hp).
  assert (Hq2 : sqrt (1 + t ^ 2) * sqrt (1 + t ^ 2) = 1 + t ^ 2) by (apply sqrt_sqrt; lra).
  rewrite cos_2a, sin_2a, cos_atan_pos, sin_atan_pos.
  set (q := sqrt (1 + t ^ 2)) in *.
  assert (C2 : 1 / q * (1 / q) = (1 + c) / 2).
  { replace (1 / q * (1 / q)) with (1 / (q * q)) by (field; lra). rewrite Hq2, E. field. exact Hc. }
  split.
  - replace (1 / q * (1 / q) - t / q * (t / q)) with ((1 - t ^ 2) * (1 / q * (1 / q))) by (field; lra).
    rewrite C2. replace (1 - t ^ 2) with (2 - 2 / (1 + c)) by lra. field. exact Hc.
  - replace (2 * (t / q) * (1 / q)) with (2 * t * (1 / q * (1 / q))) by (field; lra).
    rewrite C2. unfold t. field. exact Hc.
Qed.

(** direction of the moon *)
Hypothesis HN : cos N <> -1.

Lemma cos_L u : sin (t_I T) * cos (u + t_alpha T) = cos u * A - sin u * B.
Proof.
  rewrite cos_plus. unfold t_alpha.
  destruct (half_tangent _ _ alpha_unit (cos_alpha_m1 HN)) as [-> ->].
  rewrite <- cos_alpha_A, <- sin_alpha_B. ring.
Qed.
Lemma sin_L u : sin (t_I T) * sin (u + t_alpha T) = sin u * A + cos u * B.
Proof.
  rewrite sin_plus. unfold t_alpha.
  destruct (half_tangent _ _ alpha_unit (cos_alpha_m1 HN)) as [-> ->].
  rewrite <- cos_alpha_A, <- sin_alpha_B. ring.
Qed.

(** turning the orbit's own frame by nu about the pole gives the equatorial frame *)
Lemma frame u :
  let l := u + t_alpha T in
  rot_z (t_nu T) (cos l, sin l * cos (t_I T), sin l * sin (t_I T)) =
  rot_x t_omega (rot_z N (rot_x t_i (cos u, sin u, 0))).
Proof.
  intros l. pose proof (cos_L u) as HC. pose proof (sin_L u) as HS. fold l in HC, HS.
  pose proof sin_nu as Hn1. pose proof cos_nu as Hn2. pose proof sin_I_pos as Hs. pose proof sin_I_sq as Hq.
  pose proof cos_I as HI.
  unfold rot_z, rot_x.
  assert (S2 : sin (t_I T) ^ 2 <> 0) by nra.
  pose proof (sc' t_i) as Si. pose proof (sc' t_omega) as So. pose proof (sc' N) as SN.
  f_equal; [f_equal|].
  - apply (Rmult_eq_reg_l (sin (t_I T) ^ 2)); [|exact S2].
    replace (sin (t_I T) ^ 2 * (cos l * cos (t_nu T) - sin l * cos (t_I T) * sin (t_nu T))) with
      ((sin (t_I T) * cos l) * (sin (t_I T) * cos (t_nu T)) - (sin (t_I T) * sin l) * (sin (t_I T) * sin (t_nu T)) * cos (t_I T)) by ring.
    rewrite HC, HS, Hn1, Hn2, HI, Hq. rewrite <- !Rsqr_pow2. unfold A, B, X, Y, cI, Rsqr. clear - Si So SN.
    generalize dependent (sin t_i). generalize dependent (cos t_i).
    generalize dependent (sin t_omega). generalize dependent (cos t_omega).
    generalize dependent (sin N). generalize dependent (cos N). intros. nsatz.
  - apply (Rmult_eq_reg_l (sin (t_I T) ^ 2)); [|exact S2].
    replace (sin (t_I T) ^ 2 * (cos l * sin (t_nu T) + sin l * cos (t_I T) * cos (t_nu T))) with
      ((sin (t_I T) * cos l) * (sin (t_I T) * sin (t_nu T)) + (sin (t_I T) * sin l) * (sin (t_I T) * cos (t_nu T)) * cos (t_I T)) by ring.
    rewrite HC, HS, Hn1, Hn2, HI, Hq. rewrite <- !Rsqr_pow2. unfold A, B, X, Y, cI, Rsqr. clear - Si So SN.
    generalize dependent (sin t_i). generalize dependent (cos t_i).
    generalize dependent (sin t_omega). generalize dependent (cos t_omega).
    generalize dependent (sin N). generalize dependent (cos N). intros. nsatz.
  - rewrite Rmult_comm, HS. unfold A, B. ring.
Qed.
End Node.

(** ** the elements agree *)
Lemma el_s T : t_s T = moon_longitude T. Proof. unfold t_s, moon_longitude, poly3. ring. Qed.
Lemma el_p T : t_p T = moon_perigee T. Proof. unfold t_p, moon_perigee, poly3. lra. Qed.
Lemma el_h T : t_h T = sun_longitude T. Proof. unfold t_h, sun_longitude, poly3. ring. Qed.
Lemma el_N T : t_N T = moon_node T. Proof. unfold t_N, moon_node, poly3. lra. Qed.
Lemma el_p1 T : t_p1 T = sun_perigee T. Proof. unfold t_p1, sun_perigee, poly3. ring. Qed.
Lemma el_e1 T : t_e1 T = sun_ecc T. Proof. unfold t_e1, sun_ecc, poly3. lra. Qed.
Lemma el_omega : t_omega = obliquity. Proof. unfold t_omega, obliquity. apply deg2rad_rad. Qed.
Lemma el_i : t_i = lunar_inclination. Proof. reflexivity. Qed.

Lemma el_L_moon T : t_L_moon T = moon_true_longitude T - moon_node T + t_alpha T.
Proof.
  unfold t_L_moon, t_sigma, t_xi, moon_true_longitude, anomaly, evection, variation.
  rewrite el_s, el_p, el_h, el_N. unfold t_e, t_m, moon_ecc, motion_ratio. lra.
Qed.

Lemma el_L_sun T : t_L_sun T = sun_true_longitude T.
Proof. unfold t_L_sun, sun_true_longitude. rewrite el_h, el_e1, el_p1. reflexivity. Qed.

Lemma half_angle_form I l chi :
  (cos (0.5*I))^2 * cos (l - chi) + (sin (0.5*I))^2 * cos (l + chi) =
  cos chi * cos l + sin chi * (sin l * cos I).
Proof.
  replace (cos I) with (cos (0.5 * I) ^ 2 - sin (0.5 * I) ^ 2).
  - rewrite cos_minus, cos_plus. pose proof (sc (0.5 * I)) as H.
    replace (cos chi * cos l) with (cos chi * cos l * (sin (0.5 * I) ^ 2 + cos (0.5 * I) ^ 2)) by (rewrite H; ring).
    ring.
  - replace (cos I) with (cos (2 * (0.5 * I))) by (f_equal; lra). rewrite cos_2a. ring.
Qed.

Lemma dot_rot_z a u v : dot (rot_z a u) (rot_z a v) = dot u v.
Proof.
  destruct u as [[x y] z], v as [[x' y'] z']. cbn [rot_z dot]. pose proof (sc a) as H.
  replace (x * x' + y * y' + z * z') with ((x * x' + y * y') * (sin a ^ 2 + cos a ^ 2) + z * z') by (rewrite H; ring).
  ring.
Qed.

Lemma zenith_turned lon lat t0 T :
  zenith T lon lat t0 =
  rot_z (t_nu T) (cos (rad lat) * cos (t_chi lon t0 T), cos (rad lat) * sin (t_chi lon t0 T), sin (rad lat)).
Proof.
  unfold zenith. cbn [rot_z].
  assert (E : rad (15 * (t0 - 12) + lon) + sun_longitude T = t_chi lon t0 T + t_nu T).
  { unfold t_chi, t_t. rewrite deg2rad_rad, el_h. replace (15 * (t0 - 12) - - lon) with (15 * (t0 - 12) + lon) by ring. ring. }
  cbv zeta. rewrite E, cos_plus, sin_plus. apply vec_eq; ring.
Qed.

Lemma cos_theta_own_frame lon lat t0 T :
  t_cos_theta lon lat t0 T =
  dot (cos (rad lat) * cos (t_chi lon t0 T), cos (rad lat) * sin (t_chi lon t0 T), sin (rad lat))
      (cos (t_L_moon T), sin (t_L_moon T) * cos (t_I T), sin (t_L_moon T) * sin (t_I T)).
Proof.
  unfold t_cos_theta. cbv zeta. rewrite half_angle_form, deg2rad_rad. cbn [dot]. ring.
Qed.

Lemma cos_theta_dot lon lat t0 T : cos (moon_node T) <> -1 ->
  t_cos_theta lon lat t0 T = dot (zenith T lon lat t0) (moon_direction T).
Proof.
  intros HN. rewrite cos_theta_own_frame, zenith_turned. unfold moon_direction.
  rewrite <- el_N in *. rewrite <- el_omega, <- el_i. rewrite <- (frame T HN). rewrite dot_rot_z.
  rewrite el_L_moon, <- el_N. reflexivity.
Qed.

Lemma cos_phi_dot lon lat t0 T :
  t_cos_phi lon lat t0 T = dot (zenith T lon lat t0) (sun_direction T).
Proof.
  unfold t_cos_phi. cbv zeta. rewrite half_angle_form, deg2rad_rad. unfold zenith, sun_direction. cbn [dot rot_x].
  rewrite <- el_omega, <- el_L_sun, <- el_h. unfold t_chi1, t_t. rewrite deg2rad_rad.
  replace (15 * (t0 - 12) - - lon) with (15 * (t0 - 12) + lon) by ring. ring.
Qed.

(** ** unit vectors *)
Definition unit (v : vec) : Prop := dot v v = 1.
Lemma unit_rot_x a v : unit v -> unit (rot_x a v).
Proof.
  destruct v as [[x y] z]. unfold unit. cbn [rot_x dot]. intros H. pose proof (sc a).
  rewrite <- H. replace (x * x + y * y + z * z) with (x * x + (y * y + z * z) * (sin a ^ 2 + cos a ^ 2)) by (rewrite H0; ring). ring.
Qed.
Lemma unit_rot_z a v : unit v -> unit (rot_z a v).
Proof. unfold unit. rewrite dot_rot_z. auto. Qed.
Lemma unit_circle u : unit (cos u, sin u, 0).
Proof. unfold unit. cbn [dot]. pose proof (sc u). lra. Qed.
Lemma unit_orbit l I : unit (cos l, sin l * cos I, sin l * sin I).
Proof.
  unfold unit. cbn [dot]. pose proof (sc l). pose proof (sc I).
  replace (cos l * cos l + sin l * cos I * (sin l * cos I) + sin l * sin I * (sin l * sin I))
    with (cos l ^ 2 + sin l ^ 2 * (sin I ^ 2 + cos I ^ 2)) by ring. rewrite H0. lra.
Qed.
Lemma unit_sphere a b : unit (cos a * cos b, cos a * sin b, sin a).
Proof.
  unfold unit. cbn [dot]. pose proof (sc a). pose proof (sc b).
  replace (cos a * cos b * (cos a * cos b) + cos a * sin b * (cos a * sin b) + sin a * sin a)
    with (cos a ^ 2 * (sin b ^ 2 + cos b ^ 2) + sin a ^ 2) by ring. rewrite H0. lra.
Qed.
Lemma unit_dot_bound u v : unit u -> unit v -> -1 <= dot u v <= 1.
Proof.
  destruct u as [[a b] c], v as [[x y] z]. unfold unit. cbn [dot]. intros Hu Hv.
  pose proof (Rle_0_sqr (a - x)). pose proof (Rle_0_sqr (b - y)). pose proof (Rle_0_sqr (c - z)).
  pose proof (Rle_0_sqr (a + x)). pose proof (Rle_0_sqr (b + y)). pose proof (Rle_0_sqr (c + z)).
  unfold Rsqr in *. lra.
Qed.

Lemma unit_zenith T lon lat t0 : unit (zenith T lon lat t0).
Proof. unfold zenith. apply unit_sphere. Qed.
Lemma unit_moon T : unit (moon_direction T).
Proof. unfold moon_direction. apply unit_rot_x, unit_rot_z, unit_rot_x, unit_circle. Qed.
Lemma unit_sun T : unit (sun_direction T).
Proof. unfold sun_direction. apply unit_rot_x, unit_circle. Qed.

Lemma cos_theta_bound lon lat t0 T : -1 <= t_cos_theta lon lat t0 T <= 1.
Proof. rewrite cos_theta_own_frame. apply unit_dot_bound; [apply unit_sphere|apply unit_orbit]. Qed.
Lemma cos_phi_bound lon lat t0 T : -1 <= t_cos_phi lon lat t0 T <= 1.
Proof. rewrite cos_phi_dot. apply unit_dot_bound; [apply unit_zenith|apply unit_sun]. Qed.

(** ** distances *)
Lemma el_r lat alt : t_r lat alt = earth_radius lat alt.
Proof.
  unfold t_r, t_C, earth_radius. rewrite deg2rad_rad.
  assert (H : 0 < 1 + 0.006738 * sin (rad lat) ^ 2) by (assert (0 <= sin (rad lat) ^ 2) by nra; lra).
  rewrite sqrt_div_alt by exact H. rewrite sqrt_1.
  assert (0 < sqrt (1 + 0.006738 * sin (rad lat) ^ 2)) by (apply sqrt_lt_R0; exact H).
  replace t_a with 6.37827e8 by (unfold t_a; lra). generalize 6.37827e8. intros. field. lra.
Qed.

Lemma el_d T : t_d T = moon_distance T.
Proof.
  unfold t_d, moon_distance, anomaly, evection, variation. cbv zeta.
  rewrite el_s, el_p, el_h. unfold Rdiv at 1. rewrite Rmult_1_l. f_equal.
  assert (E1 : t_aprime = / (moon_mean_distance * (1 - moon_ecc ^ 2))).
  { unfold t_aprime, Rdiv. rewrite Rmult_1_l. f_equal. unfold t_c, t_e, moon_mean_distance, moon_ecc. lra. }
  rewrite E1. replace (1 / t_c) with (/ moon_mean_distance) by (unfold Rdiv; rewrite Rmult_1_l; reflexivity).
  replace t_e with moon_ecc by (unfold t_e, moon_ecc; lra). change t_m with motion_ratio.
  set (k := / (moon_mean_distance * _)). set (q := / moon_mean_distance). field.
Qed.

Lemma el_D T : t_D T = sun_distance T.
Proof.
  unfold t_D, sun_distance. rewrite el_h, el_p1. unfold t_aprime1. rewrite el_e1.
  unfold Rdiv. rewrite !Rmult_1_l. f_equal.
  replace (sun_ecc T * sun_ecc T) with (sun_ecc T ^ 2) by ring. unfold t_c1, sun_mean_distance. ring.
Qed.

Lemma legendre_2 x : legendre 2 x = (3 * x ^ 2 - 1) / 2.
Proof. unfold legendre. cbn [legendre2 fst INR]. field. Qed.
Lemma legendre_3 x : legendre 3 x = (5 * x ^ 3 - 3 * x) / 2.
Proof. unfold legendre. cbn [legendre2 fst INR]. field. Qed.

(** distances are positive *)
Lemma moon_series_bound s p h :
  Rabs (t_e * cos (s - p) + t_e ^ 2 * cos (2 * (s - p)) + 15 / 8 * t_m * t_e * cos (s - 2 * h + p) + t_m ^ 2 * cos (2 * (s - h)))
  <= 0.07123.
Proof.
  pose proof (COS_bound (s - p)). pose proof (COS_bound (2 * (s - p))).
  pose proof (COS_bound (s - 2 * h + p)). pose proof (COS_bound (2 * (s - h))).
  unfold t_e, t_m. apply Rabs_le. lra.
Qed.

Lemma inv_d T : exists q, t_d T = / q /\ 0.9285 / t_c <= q <= 1.0715 / t_c.
Proof.
  unfold t_d. cbv zeta. unfold Rdiv at 1. rewrite Rmult_1_l. eexists. split; [reflexivity|].
  pose proof (moon_series_bound (t_s T) (t_p T) (t_h T)) as H. apply Rabs_le_inv in H.
  set (s := t_s T) in *. set (p := t_p T) in *. set (h := t_h T) in *.
  replace (1 / t_c + t_aprime * t_e * cos (s - p) + t_aprime * t_e * t_e * cos (2 * (s - p)) +
     15 / 8 * t_aprime * t_m * t_e * cos (s - 2 * h + p) + t_aprime * t_m * t_m * cos (2 * (s - h)))
   with (1 / t_c + t_aprime * (t_e * cos (s - p) + t_e ^ 2 * cos (2 * (s - p)) + 15 / 8 * t_m * t_e * cos (s - 2 * h + p) + t_m ^ 2 * cos (2 * (s - h)))) by lra.
  set (w := t_e * cos (s - p) + _ + _ + _) in *. unfold t_aprime, t_c, t_e in *. lra.
Qed.

Lemma inv_D T : Rabs (t_e1 T) <= 0.02 -> exists q, t_D T = / q /\ 0.97 / t_c1 <= q <= 1.0203 / t_c1.
Proof.
  intros He. unfold t_D. unfold Rdiv at 1. rewrite Rmult_1_l. eexists. split; [reflexivity|].
  apply Rabs_le_inv in He. set (e := t_e1 T) in *. pose proof (COS_bound (t_h T - t_p1 T)) as Hc.
  set (c := cos _) in *.
  assert (H1 : 0.9996 <= 1 - e * e <= 1) by nra.
  assert (Ha : t_aprime1 T = 1 / t_c1 * / (1 - e * e)).
  { unfold t_aprime1. fold e. unfold t_c1. field. lra. }
  rewrite Ha.
  assert (Hi : 1 <= / (1 - e * e) <= 1.0005).
  { split.
    - rewrite <- Rinv_1 at 1. apply Rinv_le_contravar; lra.
    - replace 1.0005 with (/ (/ 1.0005)) by (rewrite Rinv_inv; lra). apply Rinv_le_contravar; lra. }
  set (k := / (1 - e * e)) in *.
  assert (Hkec : -0.0202 <= k * (e * c) <= 0.0202).
  { assert (-0.02 <= e * c <= 0.02) by nra. nra. }
  replace (1 / t_c1 + 1 / t_c1 * k * e * c) with (1 / t_c1 * (1 + k * (e * c))) by ring.
  unfold t_c1. lra.
Qed.

Lemma love_elastic : t_love = elastic.
Proof. unfold t_love, elastic, t_h2, t_k2. lra. Qed.

(** ** the whole prediction is the specified one *)
Lemma d_pos T : 0 < t_d T.
Proof. destruct (inv_d T) as [q [-> H]]. apply Rinv_0_lt_compat. unfold t_c in H. lra. Qed.

Lemma t_out_spec lon lat alt t0 T : cos (moon_node T) <> -1 -> Rabs (t_e1 T) <= 0.02 ->
  t_out lon lat alt t0 T =
  (lunar_tide T lon lat alt t0 + solar_tide T lon lat alt t0, lunar_tide T lon lat alt t0, solar_tide T lon lat alt t0).
Proof.
  intros HN He.
  assert (Hm : t_gm lon lat alt t0 T * 1e3 * t_love = lunar_tide T lon lat alt t0).
  { unfold t_gm, lunar_tide, tidal_term. cbv zeta. rewrite legendre_2, legendre_3, <- cos_theta_dot, <- el_r, <- el_d by exact HN.
    pose proof (d_pos T) as Hd. cbn [INR pow Nat.sub Nat.add].
    change t_mu with newton. change t_M with 7.3537e25. rewrite love_elastic. replace 1e3 with 1000 by lra.
    generalize newton, elastic, 7.3537e25. intros. field. lra. }
  assert (Hs : t_gs lon lat alt t0 T * 1e3 * t_love = solar_tide T lon lat alt t0).
  { unfold t_gs, solar_tide, tidal_term. cbv zeta. rewrite legendre_2, <- cos_phi_dot, <- el_r, <- el_D.
    assert (Hd : 0 < t_D T).
    { destruct (inv_D T He) as [q [-> Hq]]. apply Rinv_0_lt_compat. unfold t_c1 in Hq. lra. }
    cbn [INR pow Nat.sub Nat.add].
    change t_mu with newton. change t_S with 1.993e33. rewrite love_elastic. replace 1e3 with 1000 by lra.
    generalize newton, elastic, 1.993e33. intros. field. lra. }
  unfold t_out. cbv zeta. rewrite <- Hm, <- Hs. f_equal. f_equal. lra.
Qed.

(** ** size *)
Lemma r_bound lat : 0 < t_r lat 0 <= t_a.
Proof.
  unfold t_r, t_C. set (x := 1 + 0.006738 * sin (deg2rad lat) ^ 2).
  assert (Hx : 1 <= x) by (unfold x; assert (0 <= sin (deg2rad lat) ^ 2) by nra; lra).
  rewrite sqrt_div_alt by lra. rewrite sqrt_1.
  assert (H1 : 1 <= sqrt x) by (rewrite <- sqrt_1; apply sqrt_le_1; lra).
  assert (0 < 1 / sqrt x <= 1).
  { split; [apply Rdiv_lt_0_compat; lra|]. apply (Rmult_le_reg_r (sqrt x)); [lra|]. unfold Rdiv. rewrite Rmult_assoc, Rinv_l by lra. lra. }
  unfold t_a. lra.
Qed.

Lemma cubic_bound c : -1 <= c <= 1 -> -2 <= 5 * c ^ 3 - 3 * c <= 2.
Proof.
  intros H. split.
  - assert (0 <= (1 + c) * ((5 * c ^ 2 - 5 * c + 2))); [|nra].
    apply Rmult_le_pos; [lra|]. nra.
  - assert (0 <= (1 - c) * ((5 * c ^ 2 + 5 * c + 2))); [|nra].
    apply Rmult_le_pos; [lra|]. nra.
Qed.

Lemma pow_le_bound q b n : 0 <= q <= b -> 0 <= q ^ n <= b ^ n.
Proof. intros [H1 H2]. split; [apply pow_le; exact H1|]. apply pow_incr. split; assumption. Qed.

Lemma gm_bound lon lat t0 T : Rabs (t_gm lon lat 0 t0 T * 1e3 * t_love) <= 0.1625.
Proof.
  unfold t_gm. cbv zeta. destruct (inv_d T) as [q [-> Hq]].
  pose proof (r_bound lat) as Hr. pose proof (cos_theta_bound lon lat t0 T) as Hc.
  set (c := t_cos_theta lon lat t0 T) in *. set (r := t_r lat 0) in *.
  assert (Hq0 : 0 < q) by (unfold t_c in Hq; lra).
  replace (t_mu * t_M * r / (/ q * / q * / q)) with (t_mu * t_M * (r * q ^ 3)) by (field; lra).
  replace (t_mu * t_M * r * r / (/ q * / q * / q * / q)) with (t_mu * t_M * (r ^ 2 * q ^ 4)) by (field; lra).
  assert (A1 : -1 <= 3 * c ^ 2 - 1 <= 2) by nra.
  pose proof (cubic_bound c Hc) as A2.
  assert (B1 : 0 <= r * q ^ 3 <= t_a * (1.0715 / t_c) ^ 3).
  { destruct (pow_le_bound q (1.0715 / t_c) 3) as [P1 P2]; [lra|].
    split; [apply Rmult_le_pos; lra|]. apply Rmult_le_compat; lra. }
  assert (B2 : 0 <= r ^ 2 * q ^ 4 <= t_a ^ 2 * (1.0715 / t_c) ^ 4).
  { destruct (pow_le_bound q (1.0715 / t_c) 4) as [P1 P2]; [lra|].
    destruct (pow_le_bound r t_a 2) as [P3 P4]; [lra|].
    split; [apply Rmult_le_pos; lra|]. apply Rmult_le_compat; lra. }
  assert (C1 : t_a * (1.0715 / t_c) ^ 3 <= 1.382e-23) by (unfold t_a, t_c; lra).
  assert (C2 : t_a ^ 2 * (1.0715 / t_c) ^ 4 <= 2.5e-25) by (unfold t_a, t_c; lra).
  set (x := r * q ^ 3) in *. set (y := r ^ 2 * q ^ 4) in *. set (u := 3 * c ^ 2 - 1) in *. set (v := 5 * c ^ 3 - 3 * c) in *.
  assert (D1 : - (2 * 1.382e-23) <= x * u <= 2 * 1.382e-23) by nra.
  assert (D2 : - (2 * 2.5e-25) <= y * v <= 2 * 2.5e-25) by nra.
  replace ((t_mu * t_M * x * u + 3 / 2 * (t_mu * t_M * y) * v) * 1e3 * t_love)
    with (t_mu * t_M * 1e3 * t_love * (x * u + 3 / 2 * (y * v))) by lra.
  set (p := x * u) in *. set (s := y * v) in *. apply Rabs_le. unfold t_mu, t_M, t_love, t_h2, t_k2. lra.
Qed.

Lemma gs_bound lon lat t0 T : Rabs (t_e1 T) <= 0.02 -> Rabs (t_gs lon lat 0 t0 T * 1e3 * t_love) <= 0.0626.
Proof.
  intros He. unfold t_gs. cbv zeta. destruct (inv_D T He) as [q [-> Hq]].
  pose proof (r_bound lat) as Hr. pose proof (cos_phi_bound lon lat t0 T) as Hc.
  set (c := t_cos_phi lon lat t0 T) in *. set (r := t_r lat 0) in *.
  assert (Hq0 : 0 < q) by (unfold t_c1 in Hq; lra).
  replace (t_mu * t_S * r / (/ q * / q * / q)) with (t_mu * t_S * (r * q ^ 3)) by (field; lra).
  assert (A1 : -1 <= 3 * c ^ 2 - 1 <= 2) by nra.
  assert (B1 : 0 <= r * q ^ 3 <= t_a * (1.0203 / t_c1) ^ 3).
  { destruct (pow_le_bound q (1.0203 / t_c1) 3) as [P1 P2]; [lra|].
    split; [apply Rmult_le_pos; lra|]. apply Rmult_le_compat; lra. }
  assert (C1 : t_a * (1.0203 / t_c1) ^ 3 <= 2.03e-31) by (unfold t_a, t_c1; lra).
  set (x := r * q ^ 3) in *. set (u := 3 * c ^ 2 - 1) in *.
  assert (D1 : - (2 * 2.03e-31) <= x * u <= 2 * 2.03e-31) by nra.
  replace (t_mu * t_S * x * u * 1e3 * t_love) with (t_mu * t_S * 1e3 * t_love * (x * u)) by lra.
  set (p := x * u) in *. apply Rabs_le. unfold t_mu, t_S, t_love, t_h2, t_k2. lra.
Qed.

(** ** time arguments *)
Lemma e1_range T : -20 <= T <= 82 -> Rabs (t_e1 T) <= 0.02.
Proof. intros H. apply Rabs_le. unfold t_e1. nra. Qed.

Lemma days_seconds_whole (us : Z) :
  IZR (td_days us) + IZR (td_seconds us) / 3600 / 24 = IZR (us / 1000000) / 86400.
Proof.
  unfold td_days, td_seconds, us_per_day, us_per_sec.
  assert (E : (us / 1000000 = us / (86400 * 1000000) * 86400 + (us mod (86400 * 1000000)) / 1000000)%Z).
  { Z.div_mod_to_equations. lia. }
  rewrite E, plus_IZR, mult_IZR. field.
Qed.

Lemma origin_instant : tide_epoch (local_us origin_time).
Proof. apply (instant_local 1899 12 31 12 0 0 0 (Some 0%Z)). exists 31%Z. split; [apply md_31; tauto|lia]. Qed.

Lemma origin_value : local_us origin_time = (-2209032000000000)%Z.
Proof. reflexivity. Qed.

Lemma convert_aware t off : utcoffset t = Some off ->
  convert_datetime_tidetime t = Ok
   (IZR ((utc_us t off - local_us origin_time) / 1000000) / 86400 / 36525,
    IZR (hour t) + IZR (minute t) / 60 + IZR (second t) / 3600).
Proof.
  intros H. unfold convert_datetime_tidetime, sub_us. rewrite H. cbn [utcoffset origin_time bind].
  rewrite days_seconds_whole. unfold utc_us at 2. rewrite Z.sub_0_r. reflexivity.
Qed.

Lemma hour_fields h mi s : (0 <= h < 24)%Z -> (0 <= mi < 60)%Z -> (0 <= s < 60)%Z ->
  0 <= IZR h + IZR mi / 60 + IZR s / 3600 < 24.
Proof.
  intros H1 H2 H3.
  assert (E : IZR h + IZR mi / 60 + IZR s / 3600 = IZR (h * 3600 + mi * 60 + s) / 3600).
  { rewrite !plus_IZR, !mult_IZR. field. }
  rewrite E. assert (B : (0 <= h * 3600 + mi * 60 + s < 86400)%Z) by lia.
  destruct B as [B1 B2]. apply IZR_le in B1. apply IZR_lt in B2. lra.
Qed.

Lemma tide_time_aware t off : utcoffset t = Some off ->
  (0 <= hour t < 24)%Z -> (0 <= minute t < 60)%Z -> (0 <= second t < 60)%Z ->
  tide_time t = Ok
   (IZR ((utc_us t off - local_us origin_time) / 1000000) / 86400 / 36525,
    IZR (hour t) + IZR (minute t) / 60 + IZR (second t) / 3600).
Proof.
  intros H H1 H2 H3. unfold tide_time. rewrite (convert_aware t off H). cbn [bind].
  pose proof (hour_fields _ _ _ H1 H2 H3) as Hh.
  destruct (Rlt_dec _ 0) as [Hlt|_]; [lra|reflexivity].
Qed.

Lemma utc_hours_fields n h mi s us : (0 <= h < 24)%Z -> (0 <= mi < 60)%Z -> (0 <= s < 60)%Z -> (0 <= us < 1000000)%Z ->
  utc_hours (((n * 24 + h) * 60 + mi) * 60 * 1000000 + s * 1000000 + us) = IZR h + IZR mi / 60 + IZR s / 3600.
Proof.
  intros H1 H2 H3 H4. unfold utc_hours.
  replace (((n * 24 + h) * 60 + mi) * 60 * 1000000 + s * 1000000 + us)%Z
    with ((h * 3600 + mi * 60 + s) * 1000000 + us + n * (86400 * 1000000))%Z by ring.
  rewrite Z.mod_add by lia. rewrite Z.mod_small by lia.
  rewrite Z.div_add_l by lia. rewrite (Z.div_small us) by lia. rewrite Z.add_0_r, !plus_IZR, !mult_IZR. field.
Qed.

(** year 1 to 9999, any offset below a day *)
Lemma ord_range y m d : (1 <= y <= 9999)%Z -> valid_date (y, m, d) -> (1 <= ord (y, m, d) <= 3652059)%Z.
Proof.
  intros Hy Hv. pose proof (day_of_year_range _ _ _ Hv) as Hd. cbn [ord]. unfold ymd2ord.
  assert (H1 : (0 <= days_before_year y)%Z).
  { destruct (Z.eq_dec y 1) as [->|]; [vm_compute; discriminate|].
    pose proof (days_before_year_mono 1 y ltac:(lia)) as H. change (days_before_year 1) with 0%Z in H. destruct (is_leap 1); lia. }
  assert (H2 : (days_before_year y + 365 + (if is_leap y then 1 else 0) <= 3652059)%Z).
  { destruct (Z.eq_dec y 9999) as [->|]; [vm_compute; discriminate|].
    pose proof (days_before_year_mono y 9999 ltac:(lia)) as H.
    change (days_before_year 9999) with 3651694%Z in H. lia. }
  lia.
Qed.

Lemma century_range i : (-62135596800000000 - 86400000000 <= i <= 253402300800000000 + 86400000000)%Z ->
  -20 <= IZR ((i - local_us origin_time) / 1000000) / 86400 / 36525 <= 82.
Proof.
  intros H. rewrite origin_value.
  assert (B : (-59926652000 <= (i - -2209032000000000) / 1000000 <= 255611500000)%Z) by (Z.div_mod_to_equations; lia).
  destruct B as [B1 B2]. apply IZR_le in B1. apply IZR_le in B2. lra.
Qed.

(** ** shape of the result *)
Lemma mapM_nth A B (f : A -> res B) l bs : mapM f l = Ok bs ->
  length bs = length l /\ forall k a, nth_error l k = Some a -> exists b, nth_error bs k = Some b /\ f a = Ok b.
Proof.
  revert bs. induction l as [|a l IH]; intros bs H.
  - cbn in H. injection H as <-. split; [reflexivity|]. intros [|k] a; discriminate.
  - cbn [mapM] in H. destruct (f a) as [b|e] eqn:E; [|discriminate]. cbn [bind] in H.
    destruct (mapM f l) as [bs'|e] eqn:E'; [|discriminate]. cbn [bind] in H. injection H as <-.
    destruct (IH bs' eq_refl) as [L Hn]. split; [cbn; lia|]. intros [|k] x Hx; cbn in *.
    + injection Hx as <-. exists b. auto.
    + apply Hn. exact Hx.
Qed.

Definition alt_at (a : altitude) (k : nat) : R :=
  match a with Alt h => h | Alts hs => List.nth k hs 0 end.

Lemma longman_nth lon lat times alt T t0 k ln lt tm r :
  longman_tide_prediction lon lat times alt true = Ok r ->
  nth_error lon k = Some ln -> nth_error lat k = Some lt -> nth_error times k = Some tm ->
  tide_time tm = Ok (T, t0) ->
  exists g0 gm gs, r = Components g0 gm gs /\ length g0 = length lon /\ length gm = length lon /\ length gs = length lon /\
    longman_tide_prediction lon lat times alt false = Ok (Total g0) /\
    nth_error g0 k = Some (fst (fst (t_out ln lt (alt_at alt k) t0 T))) /\
    nth_error gm k = Some (snd (fst (t_out ln lt (alt_at alt k) t0 T))) /\
    nth_error gs k = Some (snd (t_out ln lt (alt_at alt k) t0 T)).
Proof.
  unfold longman_tide_prediction. intros H Hln Hlt Htm Htt.
  destruct (Nat.eqb_spec (length lon) (length lat)) as [E1|]; [|discriminate].
  destruct (Nat.eqb_spec (length lon) (length times)) as [E2|]; [|discriminate]. cbn [negb] in *.
  destruct (mapM tide_time times) as [tts|e] eqn:Em; [|discriminate]. cbn [bind] in *.
  destruct (mapM_nth _ _ _ _ _ Em) as [Lt Ht].
  destruct (Ht k tm Htm) as [p [Hp Ep]]. rewrite Htt in Ep. injection Ep as <-.
  assert (Hk : (k < length lon)%nat) by (apply nth_error_Some; congruence).
  assert (Ha : exists alts, match alt with Alt h => Ok (repeat h (length lon))
             | Alts hs => if (length hs =? length lon)%nat then Ok hs else Raise ValueError end = Ok alts /\
             length alts = length lon /\ List.nth k alts 0 = alt_at alt k).
  { destruct alt as [h|hs].
    - exists (repeat h (length lon)). split; [reflexivity|]. split; [apply repeat_length|]. apply nth_repeat_lt. exact Hk.
    - destruct (Nat.eqb_spec (length hs) (length lon)) as [E|E]; [|discriminate].
      exists hs. auto. }
  destruct Ha as [alts [Ea [La Hal]]]. rewrite Ea in *. cbn [bind] in *.
  injection H as <-. eexists _, _, _. split; [reflexivity|].
  set (outs := map2 _ _ _).
  assert (Lo : length outs = length lon).
  { unfold outs. rewrite map2_length, map3_length. lia. }
  assert (Ho : nth_error outs k = Some (t_out ln lt (alt_at alt k) t0 T)).
  { rewrite (nth_error_nth' _ (0,0,0)) by lia. f_equal. unfold outs.
    rewrite (map2_nth _ _ _ _ _ _ _ (fun _ _ => (0,0,0)) (0,0)) by (rewrite ?map3_length; lia).
    rewrite (map3_nth _ _ _ _ _ _ _ _ _ 0 0 0) by lia.
    rewrite (nth_error_nth _ _ _ Hln), (nth_error_nth _ _ _ Hlt), Hal, (nth_error_nth _ _ _ Hp). reflexivity. }
  rewrite !map_length, Lo. split; [reflexivity|]. split; [reflexivity|]. split; [reflexivity|]. split; [reflexivity|].
  rewrite !nth_error_map, Ho. split; [reflexivity|]. split; reflexivity.
Qed.

(** ** time zone dependence *)
Lemma cubic_zero c : 5 * c ^ 3 - 3 * c = 0 -> c = 0 \/ c ^ 2 = 3 / 5.
Proof.
  intros H. destruct (Req_dec c 0) as [Hz|Hz]; [left; exact Hz|right].
  apply (Rmult_eq_reg_l (5 * c)); [|lra]. lra.
Qed.

Lemma no_sinusoid_in_three_values P Q : 0 < P ^ 2 + Q ^ 2 ->
  (P = 0 \/ P ^ 2 = 3 / 5) -> (Q = 0 \/ Q ^ 2 = 3 / 5) ->
  ((P + Q) / sqrt 2 = 0 \/ ((P + Q) / sqrt 2) ^ 2 = 3 / 5) ->
  ((Q - P) / sqrt 2 = 0 \/ ((Q - P) / sqrt 2) ^ 2 = 3 / 5) -> False.
Proof.
  intros Hpos HP HQ H1 H2.
  assert (Hs : 0 < sqrt 2) by (apply sqrt_lt_R0; lra).
  assert (Hs2 : sqrt 2 ^ 2 = 2) by (apply pow2_sqrt; lra).
  assert (G : forall x, x / sqrt 2 = 0 \/ (x / sqrt 2) ^ 2 = 3 / 5 -> x ^ 2 = 0 \/ x ^ 2 = 6 / 5).
  { intros x [H|H].
    - left. replace x with (x / sqrt 2 * sqrt 2) by (field; lra). rewrite H. ring.
    - right. replace (x ^ 2) with ((x / sqrt 2) ^ 2 * sqrt 2 ^ 2) by (field; lra). rewrite H, Hs2. lra. }
  apply G in H1. apply G in H2. nra.
Qed.

Lemma half_turn_gm lat T lon t0 : lat = 0 ->
  t_cos_theta lon lat (t0 + 12) T = - t_cos_theta lon lat t0 T /\
  t_cos_phi lon lat (t0 + 12) T = - t_cos_phi lon lat t0 T.
Proof.
  intros ->. split.
  - rewrite !cos_theta_own_frame. cbn [dot].
    assert (E : t_chi lon (t0 + 12) T = t_chi lon t0 T + PI) by (unfold t_chi, t_t, deg2rad; field).
    rewrite E, neg_cos, neg_sin. replace (rad 0) with 0 by (unfold rad; field). rewrite sin_0. ring.
  - unfold t_cos_phi. cbv zeta. rewrite !half_angle_form.
    assert (E : t_chi1 lon (t0 + 12) T = t_chi1 lon t0 T + PI) by (unfold t_chi1, t_t, deg2rad; field).
    rewrite E, neg_cos, neg_sin. replace (deg2rad 0) with 0 by (unfold deg2rad; field). rewrite sin_0. ring.
Qed.

Lemma half_turn_equal T t0 : fst (fst (t_out 0 0 0 (t0 + 12) T)) = fst (fst (t_out 0 0 0 t0 T)) ->
  let c := t_cos_theta 0 0 t0 T in 5 * c ^ 3 - 3 * c = 0.
Proof.
  intros H c. unfold t_out, t_gm, t_gs in H. cbv zeta in H. cbn [fst] in H.
  destruct (half_turn_gm 0 T 0 t0 eq_refl) as [E1 E2]. rewrite E1, E2 in H. fold c in H.
  pose proof (d_pos T) as Hd. pose proof (r_bound 0) as Hr.
  set (d := t_d T) in *. set (r := t_r 0 0) in *. set (D := t_D T) in *. set (p := t_cos_phi 0 0 t0 T) in *. clearbody d r D p.
  set (k := t_mu * t_M * r * r / (d * d * d * d)) in *.
  assert (Hk : 0 < k).
  { unfold k. apply Rdiv_lt_0_compat; [|repeat apply Rmult_lt_0_compat; exact Hd].
    assert (0 < t_mu) by (unfold t_mu; lra). assert (0 < t_M) by (unfold t_M; lra).
    apply Rmult_lt_0_compat; [|lra]. apply Rmult_lt_0_compat; [|lra]. apply Rmult_lt_0_compat; assumption. }
  assert (Hl : 0 < t_love) by (unfold t_love, t_h2, t_k2; lra).
  replace ((- c) ^ 2) with (c ^ 2) in H by ring. replace ((- p) ^ 2) with (p ^ 2) in H by ring.
  set (gs := t_mu * t_S * r / (D * D * D) * (3 * p ^ 2 - 1)) in *.
  set (g2 := t_mu * t_M * r / (d * d * d) * (3 * c ^ 2 - 1)) in *.
  assert (H' : 3 / 2 * k * (5 * (- c) ^ 3 - 3 * - c) = 3 / 2 * k * (5 * c ^ 3 - 3 * c)).
  { apply (Rmult_eq_reg_r (1e3 * t_love)); [lra|]. apply Rgt_not_eq. lra. }
  apply (Rmult_eq_reg_l (3 / 2 * k)); [|lra]. lra.
Qed.

Lemma moon_off_pole T : 0 < cos (t_L_moon T) ^ 2 + (sin (t_L_moon T) * cos (t_I T)) ^ 2.
Proof.
  pose proof (sc (t_L_moon T)) as H. pose proof (cI_range T) as Hc. rewrite <- (cos_I T) in Hc.
  set (c := cos (t_L_moon T)) in *. set (s := sin (t_L_moon T)) in *. set (q := cos (t_I T)) in *. clearbody c s q.
  assert (0 < q ^ 2) by nra.
  destruct (Req_dec c 0) as [Hz|Hz]; [|assert (0 < c ^ 2) by nra; nra].
  subst c. assert (Hs : s ^ 2 = 1) by lra. replace ((s * q) ^ 2) with (s ^ 2 * q ^ 2) by ring. rewrite Hs. lra.
Qed.

Lemma theta_quarter T k : t_cos_theta 0 0 (3 * IZR k) T =
  let f := t_h T - t_nu T - PI in
  let P := cos f * cos (t_L_moon T) + sin f * (sin (t_L_moon T) * cos (t_I T)) in
  let Q := - sin f * cos (t_L_moon T) + cos f * (sin (t_L_moon T) * cos (t_I T)) in
  P * cos (IZR k * (PI / 4)) + Q * sin (IZR k * (PI / 4)).
Proof.
  cbv zeta. rewrite cos_theta_own_frame. cbn [dot]. replace (rad 0) with 0 by (unfold rad; field).
  rewrite cos_0, sin_0.
  assert (E : t_chi 0 (3 * IZR k) T = (t_h T - t_nu T - PI) + IZR k * (PI / 4)) by (unfold t_chi, t_t, deg2rad; field).
  rewrite E, cos_plus, sin_plus. ring.
Qed.

Lemma some_zone_differs T : exists k, (k = 0 \/ k = 1 \/ k = 2 \/ k = 3)%Z /\
  fst (fst (t_out 0 0 0 (3 * IZR k + 12) T)) <> fst (fst (t_out 0 0 0 (3 * IZR k) T)).
Proof.
  assert (D : forall k, {fst (fst (t_out 0 0 0 (3 * IZR k + 12) T)) = fst (fst (t_out 0 0 0 (3 * IZR k) T))} + {fst (fst (t_out 0 0 0 (3 * IZR k + 12) T)) <> fst (fst (t_out 0 0 0 (3 * IZR k) T))}) by (intros; apply Req_EM_T).
  destruct (D 0%Z) as [H0|H0]; [|exists 0%Z; auto].
  destruct (D 1%Z) as [H1|H1]; [|exists 1%Z; auto].
  destruct (D 2%Z) as [H2|H2]; [|exists 2%Z; auto].
  destruct (D 3%Z) as [H3|H3]; [|exists 3%Z; auto].
  exfalso.
  apply half_turn_equal, cubic_zero in H0. apply half_turn_equal, cubic_zero in H1.
  apply half_turn_equal, cubic_zero in H2. apply half_turn_equal, cubic_zero in H3.
  rewrite theta_quarter in H0, H1, H2, H3. cbv zeta in *.
  set (f := t_h T - t_nu T - PI) in *.
  set (P := cos f * cos (t_L_moon T) + sin f * (sin (t_L_moon T) * cos (t_I T))) in *.
  set (Q := - sin f * cos (t_L_moon T) + cos f * (sin (t_L_moon T) * cos (t_I T))) in *.
  assert (HPQ : 0 < P ^ 2 + Q ^ 2).
  { pose proof (moon_off_pole T) as Hp. pose proof (sc f) as Hf.
    replace (P ^ 2 + Q ^ 2) with ((cos (t_L_moon T) ^ 2 + (sin (t_L_moon T) * cos (t_I T)) ^ 2) * (sin f ^ 2 + cos f ^ 2))
      by (unfold P, Q; ring). rewrite Hf. lra. }
  replace (0 * (PI / 4)) with 0 in H0 by ring. rewrite cos_0, sin_0 in H0.
  replace (1 * (PI / 4)) with (PI / 4) in H1 by ring. rewrite cos_PI4, sin_PI4 in H1.
  replace (2 * (PI / 4)) with (PI / 2) in H2 by field. rewrite cos_PI2, sin_PI2 in H2.
  replace (3 * (PI / 4)) with (3 * (PI / 4)) in H3 by ring. rewrite cos_3PI4, sin_3PI4 in H3.
  apply (no_sinusoid_in_three_values P Q HPQ).
  - replace P with (P * 1 + Q * 0) by ring. exact H0.
  - replace Q with (P * 0 + Q * 1) by ring. exact H2.
  - replace ((P + Q) / sqrt 2) with (P * (1 / sqrt 2) + Q * (1 / sqrt 2)); [exact H1|]. unfold Rdiv. ring.
  - replace ((Q - P) / sqrt 2) with (P * (-1 / sqrt 2) + Q * (1 / sqrt 2)); [exact H3|]. unfold Rdiv. ring.
Qed.

Definition aware (t : datetime) : Prop := exists off, utcoffset t = Some off.

Lemma tide_time_some t : aware t -> exists p, tide_time t = Ok p.
Proof. intros [off H]. unfold tide_time. rewrite (convert_aware t off H). cbn [bind]. eexists. reflexivity. Qed.

Lemma mapM_some A B (f : A -> res B) l : (forall a, In a l -> exists b, f a = Ok b) -> exists bs, mapM f l = Ok bs.
Proof.
  induction l as [|a l IH]; intros H; [eexists; reflexivity|].
  destruct (H a (or_introl eq_refl)) as [b Hb]. destruct IH as [bs Hbs]; [intros x Hx; apply H; right; exact Hx|].
  exists (b :: bs). cbn [mapM]. rewrite Hb. cbn [bind]. rewrite Hbs. reflexivity.
Qed.

Definition altitude_ok (a : altitude) (n : nat) : Prop :=
  match a with Alt _ => True | Alts hs => length hs = n end.

Lemma longman_ok lon lat times alt c : length lat = length lon -> length times = length lon ->
  Forall aware times -> altitude_ok alt (length lon) ->
  exists r, longman_tide_prediction lon lat times alt c = Ok r.
Proof.
  intros H1 H2 Ha Hl. unfold longman_tide_prediction. rewrite H1, H2, Nat.eqb_refl. cbn [negb].
  destruct (mapM_some _ _ tide_time times) as [bs ->].
  { intros t Ht. apply tide_time_some. rewrite Forall_forall in Ha. apply Ha. exact Ht. }
  cbn [bind]. destruct alt as [h|hs]; cbn [altitude_ok] in Hl; [|rewrite Hl, Nat.eqb_refl]; cbn [bind]; destruct c; eexists; reflexivity.
Qed.

Lemma tide_time_new y m d h mi s us off t : datetime_new y m d h mi s us (Some off) = Ok t ->
  tide_time t = Ok
   (IZR ((utc_us t off - local_us origin_time) / 1000000) / 86400 / 36525,
    IZR h + IZR mi / 60 + IZR s / 3600).
Proof.
  intros H. apply datetime_new_inv in H. destruct H as [-> [H1 [H2 [H3 [H4 [H5 H6]]]]]].
  rewrite (tide_time_aware _ off); cbn [utcoffset hour minute second]; auto.
Qed.

Lemma new_century_range y m d h mi s us off t : datetime_new y m d h mi s us (Some off) = Ok t ->
  (-86400000000 <= off <= 86400000000)%Z ->
  -20 <= IZR ((utc_us t off - local_us origin_time) / 1000000) / 86400 / 36525 <= 82.
Proof.
  intros H Ho. apply datetime_new_inv in H. destruct H as [-> [H1 [H2 [H3 [H4 [H5 H6]]]]]].
  pose proof (ord_range y m d H1 H2) as Hr. cbn [ord] in Hr. apply century_range.
  unfold utc_us, local_us, us_per_sec, epoch_ord. cbn [year month day hour minute second micro].
  set (n := ymd2ord y m d) in *. clearbody n. lia.
Qed.

Lemma periodic_lon ln lt al t0 T : t_out (ln + 360) lt al t0 T = t_out ln lt al t0 T.
Proof.
  assert (Et : t_t (ln + 360) t0 = t_t ln t0 + 2 * PI) by (unfold t_t, deg2rad; field).
  assert (E : forall x, cos (x + 2 * PI) = cos x) by (intros x; rewrite <- (cos_period x 1); f_equal; cbn; ring).
  assert (E1 : t_cos_theta (ln + 360) lt t0 T = t_cos_theta ln lt t0 T).
  { unfold t_cos_theta, t_chi. cbv zeta. rewrite Et.
    replace (t_L_moon T + (t_t ln t0 + 2 * PI + t_h T - t_nu T)) with (t_L_moon T + (t_t ln t0 + t_h T - t_nu T) + 2 * PI) by ring.
    rewrite E. f_equal. f_equal. f_equal. f_equal.
    rewrite <- (E (t_L_moon T - _)). f_equal. ring. }
  assert (E2 : t_cos_phi (ln + 360) lt t0 T = t_cos_phi ln lt t0 T).
  { unfold t_cos_phi, t_chi1. cbv zeta. rewrite Et.
    replace (t_L_sun T + (t_t ln t0 + 2 * PI + t_h T)) with (t_L_sun T + (t_t ln t0 + t_h T) + 2 * PI) by ring.
    rewrite E. f_equal. f_equal. f_equal. f_equal.
    rewrite <- (E (t_L_sun T - _)). f_equal. ring. }
  unfold t_out, t_gm, t_gs. rewrite E1, E2. reflexivity.
Qed.
