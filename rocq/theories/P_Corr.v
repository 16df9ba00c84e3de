(** Properties C27-C33: Eotvos, free-air and latitude corrections, numerical derivatives. *)
From Coq Require Import List ZArith Reals Lia Lra.
From Verif Require Import M_Py M_Np M_Corr S_Base S_Nav S_Corr L_Base L_Np L_Nav L_Corr.
Import ListNotations.
Open Scope R_scope.

(** C27: shape and failure. *)
Theorem C27_shape : forall lon lat ht samp a b n,
  length lon = n -> length lat = n -> length ht = n -> (3 <= n)%nat ->
  exists E, eotvos_full lon lat ht samp a b = Ok E /\ length E = n /\
    nth_error E 0 = nth_error E 1 /\ nth_error E (n - 1) = nth_error E (n - 2).
Proof.
  intros lon lat ht samp a b n <- H2 H3 Hn. eexists. split; [apply eotvos_full_eq; lia|].
  assert (G : forall (g : nat -> R) m k k', (k < m)%nat -> (k' < m)%nat -> g k = g k' -> nth_error (map g (seq 0 m)) k = nth_error (map g (seq 0 m)) k').
  { intros g m k k' Hk Hk' E. rewrite !(nth_error_nth' _ 0) by (rewrite map_length, seq_length; lia).
    rewrite !nth_map_seq by lia. rewrite E. reflexivity. }
  split; [rewrite map_length, seq_length; lia|].
  split; apply G; try lia; f_equal; unfold clamp; lia.
Qed.
Print Assumptions C27_shape.

Theorem C27_failures : forall lon lat ht samp a b,
  (length lon <> length lat \/ length ht <> length lat -> eotvos_full lon lat ht samp a b = Raise ValueError) /\
  (length lon = length lat -> length ht = length lat -> (length lat < 3)%nat -> eotvos_full lon lat ht samp a b = Raise IndexError).
Proof.
  intros lon lat ht samp a b. unfold eotvos_full. split.
  - intros H. destruct (Nat.eqb_spec (length lon) (length lat)) as [E1|]; [|reflexivity].
    destruct (Nat.eqb_spec (length ht) (length lat)) as [E2|]; [|reflexivity]. exfalso. destruct H; congruence.
  - intros -> -> H. rewrite Nat.eqb_refl. cbn [andb negb]. rewrite map_length.
    replace (length lat - 2)%nat with 0%nat by lia. reflexivity.
Qed.
Print Assumptions C27_failures.

Theorem C27_stationary_is_zero : forall x y h samp a b n, a <> 0 -> (3 <= n)%nat ->
  eotvos_full (repeat x n) (repeat y n) (repeat h n) samp a b = Ok (repeat 0 n).
Proof.
  intros x y h samp a b n Ha Hn. rewrite eotvos_full_eq by (rewrite ?repeat_length; lia). f_equal. rewrite repeat_length.
  apply (list_eq_nth _ _ _ 0); [rewrite map_length, seq_length, repeat_length; reflexivity|].
  intros k Hk. rewrite map_length, seq_length in Hk. rewrite nth_map_seq, nth_repeat_lt by exact Hk.
  unfold eotvos_at. rewrite !map_repeat. set (j := clamp k n). assert (Hj : (1 <= j /\ j + 1 < n)%nat) by (unfold j, clamp; lia).
  rewrite !nth_repeat_lt by lia. rewrite eotvos_point_formula by exact Ha. cbv zeta. unfold k_r, k_r', k_r''. cbv beta.
  match goal with |- context [(?u - ?v) * (samp / 2)] => idtac end.
  replace ((deg2rad y - deg2rad y) * (samp / 2)) with 0 by ring.
  replace ((deg2rad x - deg2rad x) * (samp / 2)) with 0 by ring.
  replace ((deg2rad y - 2 * deg2rad y + deg2rad y) * samp ^ 2) with 0 by ring.
  replace ((h - 2 * h + h) * samp ^ 2) with 0 by ring. ring.
Qed.
Print Assumptions C27_stationary_is_zero.

Example C27_case : eotvos_full [10; 10; 10; 10] [50; 50; 50; 50] [3; 3; 3; 3] 1 6378137 6356752.3142 = Ok [0; 0; 0; 0].
Proof. apply (C27_stationary_is_zero 10 50 3 1 6378137 6356752.3142 4); [lra|lia]. Qed.

(** C28 *)
Theorem C28_longitude_origin : forall lon lat ht samp a b c,
  eotvos_full (map (fun x => x + c) lon) lat ht samp a b = eotvos_full lon lat ht samp a b.
Proof.
  intros lon lat ht samp a b c.
  destruct (Nat.eq_dec (length lon) (length lat)) as [H1|H1].
  2:{ rewrite !(proj1 (C27_failures _ _ _ _ _ _)) by (rewrite ?map_length; tauto). reflexivity. }
  destruct (Nat.eq_dec (length ht) (length lat)) as [H2|H2].
  2:{ rewrite !(proj1 (C27_failures _ _ _ _ _ _)) by (rewrite ?map_length; tauto). reflexivity. }
  destruct (Nat.lt_ge_cases (length lat) 3) as [H3|H3].
  { rewrite !(proj2 (C27_failures _ _ _ _ _ _)) by (rewrite ?map_length; lia). reflexivity. }
  rewrite !eotvos_full_eq by (rewrite ?map_length; lia). f_equal. apply map_ext_in. intros k Hk. apply in_seq in Hk.
  set (j := clamp k (length lat)). assert (Hj : (1 <= j /\ j + 1 < length lon)%nat) by (unfold j, clamp; lia).
  unfold eotvos_at. rewrite !map_map.
  rewrite !(nth_map _ _ (fun x => deg2rad (x + c)) lon _ 0 0) by lia.
  rewrite !(nth_map _ _ deg2rad lon _ 0 0) by lia. f_equal; unfold deg2rad; ring.
Qed.
Print Assumptions C28_longitude_origin.

Example C28_case : eotvos_full [361; 362; 363] [5; 6; 7] [0; 0; 0] 1 6378137 6356752.3142 =
  eotvos_full [1; 2; 3] [5; 6; 7] [0; 0; 0] 1 6378137 6356752.3142.
Proof.
  rewrite <- (C28_longitude_origin [1; 2; 3] _ _ _ _ _ 360). cbn [map].
  replace (1 + 360) with 361 by ring. replace (2 + 360) with 362 by ring. replace (3 + 360) with 363 by ring. reflexivity.
Qed.

(** C29: on tracks whose coordinates are quadratic in time (latitude and longitude in degrees),
    every interior value is the downward acceleration of the ship seen from space less that of a
    body at rest on the earth, in mGal.  The angle between plumb line and radius is, as in the
    code, arctan(f sin 2 lat) at the sample, with the derivatives of f sin 2 lat. *)
Definition quad (p0 p1 p2 t : R) : R := p0 + p1 * t + p2 * t ^ 2.

Theorem C29_motion_effect : forall lon lat ht samp a b n p0 p1 p2 q0 q1 q2 h0 h1 h2 E,
  a <> 0 -> samp <> 0 -> length lon = n -> length lat = n -> length ht = n ->
  (forall k, (k < n)%nat ->
     nth k lat 0 = quad p0 p1 p2 (INR k / samp) /\ nth k lon 0 = quad q0 q1 q2 (INR k / samp) /\
     nth k ht 0 = quad h0 h1 h2 (INR k / samp)) ->
  eotvos_full lon lat ht samp a b = Ok E ->
  forall k, (1 <= k)%nat -> (k + 1 < n)%nat ->
  let t0 := INR k / samp in let f := (a - b) / a in
  let lat_r := fun t => rad (quad p0 p1 p2 t) in let lon_r := fun t => rad (quad q0 q1 q2 t) in
  let s2 := f * sin (2 * lat_r t0) in
  let dev := fun t => f * sin (2 * lat_r t) + (atan s2 - s2) in
  exists e, nth_error E k = Some (100000 * e) /\ motion_effect a f lat_r lon_r (quad h0 h1 h2) dev t0 e.
Proof.
  intros lon lat ht samp a b n p0 p1 p2 q0 q1 q2 h0 h1 h2 E Ha Hs H1 H2 H3 Hd HE k Hk1 Hk2 t0 f lat_r lon_r s2 dev.
  rewrite eotvos_full_eq in HE by lia.
  assert (HE' : E = map (fun k => eotvos_at lon lat ht samp a b (clamp k (length lat))) (seq 0 (length lat))) by congruence.
  assert (Dq : forall c0 c1 c2, D2 (quad c0 c1 c2) (fun t => c1 + 2 * c2 * t) (fun _ => 2 * c2)).
  { intros c0 c1 c2.
    assert (Di : D2 (fun t => t) (fun _ => 1) (fun _ => 0)) by (intros t; split; [apply derivable_pt_lim_id|apply derivable_pt_lim_const]).
    eapply D2_eq; [| | |exact (D2_plus _ _ _ _ _ _ (D2_plus _ _ _ _ _ _ (D2_const c0) (D2_mult _ _ _ _ _ _ (D2_const c1) Di))
        (D2_mult _ _ _ _ _ _ (D2_const c2) (D2_mult _ _ _ _ _ _ Di Di)))]; intros t; unfold quad; cbv beta; ring. }
  assert (Dr : forall c0 c1 c2, D2 (fun t => rad (quad c0 c1 c2 t)) (fun t => rad (c1 + 2 * c2 * t)) (fun _ => rad (2 * c2))).
  { intros c0 c1 c2. eapply D2_eq; [| | |exact (D2_mult _ _ _ _ _ _ (D2_const (PI / 180)) (Dq c0 c1 c2))]; intros t; unfold rad; cbv beta; field. }
  pose proof (Dr p0 p1 p2) as Dlat. pose proof (Dr q0 q1 q2) as Dlon. pose proof (Dq h0 h1 h2) as Dht.
  fold lat_r in Dlat. fold lon_r in Dlon.
  set (lat1 := fun t => rad (p1 + 2 * p2 * t)) in *. set (lat2 := fun _ : R => rad (2 * p2)) in *.
  assert (Ddev : D2 dev (fun t => 2 * lat1 t * f * cos (2 * lat_r t))
                        (fun t => 2 * lat2 t * f * cos (2 * lat_r t) - 4 * lat1 t * lat1 t * f * sin (2 * lat_r t))).
  { eapply D2_eq; [| | |exact (D2_plus _ _ _ _ _ _ (D2_mult _ _ _ _ _ _ (D2_const f) (D2_sin _ _ _ (D2_mult _ _ _ _ _ _ (D2_const 2) Dlat))) (D2_const (atan s2 - s2)))];
     intros t; unfold dev; cbv beta; ring. }
  pose proof (motion_formula a f _ _ _ _ _ _ _ _ _ _ _ _ Dlat Dlon Dht Ddev t0) as M.
  match type of M with motion_effect _ _ _ _ _ _ _ ?v => exists v end.
  split; [|exact M].
  rewrite (nth_error_nth' _ 0) by (rewrite HE', map_length, seq_length; lia). f_equal.
  rewrite HE', nth_map_seq by lia. replace (clamp k (length lat)) with k by (unfold clamp; lia).
  unfold eotvos_at. rewrite !(nth_map _ _ deg2rad _ _ 0 0) by lia.
  assert (Kp : INR (k + 1) = INR k + 1) by (rewrite plus_INR; reflexivity).
  assert (Km : INR (k - 1) = INR k - 1) by (rewrite minus_INR by lia; reflexivity).
  destruct (Hd k ltac:(lia)) as [A1 [A2 A3]]. destruct (Hd (k + 1)%nat ltac:(lia)) as [B1 [B2 B3]]. destruct (Hd (k - 1)%nat ltac:(lia)) as [C1 [C2 C3]].
  rewrite A1, A2, A3, B1, B2, B3, C1, C2, C3, Kp, Km.
  replace ((deg2rad (quad p0 p1 p2 ((INR k + 1) / samp)) - deg2rad (quad p0 p1 p2 ((INR k - 1) / samp))) * (samp / 2)) with (lat1 t0)
    by (unfold lat1, t0, quad, deg2rad, rad; field; exact Hs).
  replace ((deg2rad (quad p0 p1 p2 ((INR k - 1) / samp)) - 2 * deg2rad (quad p0 p1 p2 (INR k / samp)) + deg2rad (quad p0 p1 p2 ((INR k + 1) / samp))) * samp ^ 2) with (lat2 t0)
    by (unfold lat2, quad, deg2rad, rad; field; exact Hs).
  replace ((deg2rad (quad q0 q1 q2 ((INR k + 1) / samp)) - deg2rad (quad q0 q1 q2 ((INR k - 1) / samp))) * (samp / 2)) with (rad (q1 + 2 * q2 * t0))
    by (unfold t0, quad, deg2rad, rad; field; exact Hs).
  replace ((quad h0 h1 h2 ((INR k - 1) / samp) - 2 * quad h0 h1 h2 (INR k / samp) + quad h0 h1 h2 ((INR k + 1) / samp)) * samp ^ 2) with (2 * h2)
    by (unfold quad; field; exact Hs).
  rewrite eotvos_point_formula by exact Ha. cbv zeta. fold f. rewrite !deg2rad_rad. fold t0. change (rad (quad p0 p1 p2 t0)) with (lat_r t0). fold s2.
  assert (Edev : dev t0 = atan s2) by (unfold dev, s2; ring).
  unfold k_v'', k_s', vertical, southward, axis_distance, vertical, southward, radius, k_r, k_r', k_r''. rewrite Edev. fold s2. ring.
Qed.
Print Assumptions C29_motion_effect.

(** The value is determined by the motion: [motion_effect] has one value only. *)
Theorem C29_effect_unique : forall a f lat lon ht dev t e e',
  motion_effect a f lat lon ht dev t e -> motion_effect a f lat lon ht dev t e' -> e = e'.
Proof.
  intros a f lat lon ht dev t e e' [x [y [z [Hx [Hy [Hz ->]]]]]] [x' [y' [z' [Hx' [Hy' [Hz' ->]]]]]].
  rewrite (acceleration_unique _ _ _ _ Hx Hx'), (acceleration_unique _ _ _ _ Hy Hy'), (acceleration_unique _ _ _ _ Hz Hz'). reflexivity.
Qed.
Print Assumptions C29_effect_unique.

(** Only the sample and its two neighbours matter. *)
Theorem C29_local : forall lon lat ht lon' lat' ht' samp a b n E E' k,
  length lon = n -> length lat = n -> length ht = n -> length lon' = n -> length lat' = n -> length ht' = n ->
  (1 <= k)%nat -> (k + 1 < n)%nat ->
  (forall j, (k - 1 <= j <= k + 1)%nat -> nth j lon 0 = nth j lon' 0 /\ nth j lat 0 = nth j lat' 0 /\ nth j ht 0 = nth j ht' 0) ->
  eotvos_full lon lat ht samp a b = Ok E -> eotvos_full lon' lat' ht' samp a b = Ok E' ->
  nth_error E k = nth_error E' k.
Proof.
  intros lon lat ht lon' lat' ht' samp a b n E E' k L1 L2 L3 L4 L5 L6 Hk1 Hk2 H HE HE'.
  rewrite eotvos_full_eq in HE, HE' by lia. injection HE as <-. injection HE' as <-.
  rewrite !(nth_error_nth' _ 0) by (rewrite map_length, seq_length; lia). rewrite !nth_map_seq by lia. f_equal.
  replace (clamp k (length lat)) with k by (unfold clamp; lia). replace (clamp k (length lat')) with k by (unfold clamp; lia).
  unfold eotvos_at. rewrite !(nth_map _ _ deg2rad _ _ 0 0) by lia.
  destruct (H k ltac:(lia)) as [A1 [A2 A3]]. destruct (H (k + 1)%nat ltac:(lia)) as [B1 [B2 B3]]. destruct (H (k - 1)%nat ltac:(lia)) as [C1 [C2 C3]].
  rewrite A1, A2, A3, B1, B2, B3, C1, C2, C3. reflexivity.
Qed.
Print Assumptions C29_local.

(** C30: along the equator at longitude rate [q] (radians per second). *)
Theorem C30_equator : forall a b samp q l0 h n, a <> 0 -> samp <> 0 -> (3 <= n)%nat ->
  eotvos_full (map (fun k => l0 + q * (INR k / samp) * 180 / PI) (seq 0 n)) (repeat 0 n) (repeat h n) samp a b =
  Ok (repeat (((q + earth_rate) ^ 2 - earth_rate ^ 2) * (a + h) * 100000) n).
Proof.
  intros a b samp q l0 h n Ha Hs Hn. rewrite eotvos_full_eq by (rewrite ?repeat_length, ?map_length, ?seq_length; lia). f_equal.
  rewrite repeat_length. apply (list_eq_nth _ _ _ 0); [rewrite map_length, seq_length, repeat_length; reflexivity|].
  intros k Hk. rewrite map_length, seq_length in Hk. rewrite nth_map_seq, nth_repeat_lt by exact Hk.
  set (j := clamp k n). assert (Hj : (1 <= j /\ j + 1 < n)%nat) by (unfold j, clamp; lia).
  unfold eotvos_at. rewrite map_map, !map_repeat, !nth_repeat_lt by lia. rewrite !nth_map_seq by lia.
  rewrite eotvos_point_formula by exact Ha. cbv zeta. unfold k_r, k_r', k_r''. cbv beta.
  replace (deg2rad 0) with 0 by (unfold deg2rad; ring).
  replace ((0 - 0) * (samp / 2)) with 0 by ring. replace ((0 - 2 * 0 + 0) * samp ^ 2) with 0 by ring.
  replace ((h - 2 * h + h) * samp ^ 2) with 0 by ring. replace (2 * 0) with 0 by ring. rewrite sin_0, cos_0, !Rmult_0_r, atan_0, sin_0, cos_0.
  replace ((deg2rad (l0 + q * (INR (j + 1) / samp) * 180 / PI) - deg2rad (l0 + q * (INR (j - 1) / samp) * 180 / PI)) * (samp / 2)) with q.
  2:{ rewrite plus_INR, minus_INR by lia. cbn [INR]. unfold deg2rad. field. split; [exact Hs|apply PI_neq0]. }
  ring.
Qed.
Print Assumptions C30_equator.

Lemma equator_sign a h q : 0 < a + h ->
  (0 < q -> 0 < ((q + earth_rate) ^ 2 - earth_rate ^ 2) * (a + h) * 100000) /\
  (- 2 * earth_rate < q < 0 -> ((q + earth_rate) ^ 2 - earth_rate ^ 2) * (a + h) * 100000 < 0).
Proof.
  intros H. replace ((q + earth_rate) ^ 2 - earth_rate ^ 2) with (q * (q + 2 * earth_rate)) by ring.
  assert (We0 : 0 < earth_rate) by (unfold earth_rate; lra). split; intros Hq.
  - apply Rmult_lt_0_compat; [|lra]. apply Rmult_lt_0_compat; [|exact H]. apply Rmult_lt_0_compat; lra.
  - assert (q * (q + 2 * earth_rate) < 0) by nra. nra.
Qed.
(** Positive sailing east, negative sailing west. *)
Theorem C30_sign : forall a b samp q l0 h n E, 0 < a -> 0 < a + h -> samp <> 0 -> (3 <= n)%nat ->
  eotvos_full (map (fun k => l0 + q * (INR k / samp) * 180 / PI) (seq 0 n)) (repeat 0 n) (repeat h n) samp a b = Ok E ->
  length E = n /\ forall e, In e E -> (0 < q -> 0 < e) /\ (- 2 * earth_rate < q < 0 -> e < 0).
Proof.
  intros a b samp q l0 h n E Ha Hah Hs Hn H. rewrite C30_equator in H by (assumption || lra). injection H as <-. split; [apply repeat_length|].
  intros e I. apply repeat_spec in I. subst e. apply equator_sign. exact Hah.
Qed.
Print Assumptions C30_sign.

Example C30_case : eotvos_full [0; 0; 0] [0; 0; 0] [1; 1; 1] 1 6378137 6356752.3142 = Ok [0; 0; 0].
Proof. apply (C27_stationary_is_zero 0 0 1 1 6378137 6356752.3142 3); [lra|lia]. Qed.
Example C30_east_case : exists E, eotvos_full (map (fun k => 20 + 1e-6 * (INR k / 1) * 180 / PI) (seq 0 3)) (repeat 0 3) (repeat 10 3) 1 6378137 6356752.3142 = Ok E /\
  forall e, In e E -> 0 < e.
Proof.
  eexists. split; [apply C30_equator; [lra|lra|lia]|]. intros e I. apply repeat_spec in I. subst e. apply equator_sign; lra.
Qed.

(** C31: free-air correction. *)
Theorem C31_zero_height : forall lat w, free_air_second_order lat 0 w = 0.
Proof. intros lat w. unfold free_air_second_order. destruct w; cbv zeta; ring. Qed.
Print Assumptions C31_zero_height.

Lemma sin2_range x : 0 <= sin x ^ 2 <= 1.
Proof. pose proof (sin2_cos2 x) as H. unfold Rsqr in H. split; nra. Qed.

Theorem C31_decreasing : forall lat w h h', h < h' -> h' <= 1000000 ->
  free_air_second_order lat h' w < free_air_second_order lat h w.
Proof.
  intros lat w h h' H H'. unfold free_air_second_order. cbv zeta. pose proof (sin2_range (deg2rad lat)) as Hs.
  set (s := sin (deg2rad lat) ^ 2) in *. clearbody s.
  assert (G : forall c, 0.22242 <= c -> - ((c - 0.0004398 * s) * h') + 7.2125e-8 * h' ^ 2 < - ((c - 0.0004398 * s) * h) + 7.2125e-8 * h ^ 2).
  { intros c Hc. assert (0 < (h' - h) * ((c - 0.0004398 * s) - 7.2125e-8 * (h + h'))); [|lra].
    apply Rmult_lt_0_compat; lra. }
  destruct w; apply G; lra.
Qed.
Print Assumptions C31_decreasing.

Theorem C31_free_water : forall lat h,
  free_air_second_order lat h true - free_air_second_order lat h false = 0.0863491 * h.
Proof. intros lat h. unfold free_air_second_order. cbv zeta. lra. Qed.
Print Assumptions C31_free_water.

(** The default agrees with the second-order change of normal gravity of the WGS84 ellipsoid up to
    the rounding of the printed coefficients. *)
Theorem C31_theory : forall lat h,
  Rabs (free_air_second_order lat h false - height_effect (rad lat) h) <= 7e-8 * Rabs h + 2e-13 * h ^ 2.
Proof.
  intros lat h. unfold free_air_second_order, height_effect. cbv zeta. rewrite deg2rad_rad.
  pose proof (sin2_range (rad lat)) as Hs. set (s := sin (rad lat) ^ 2) in *. clearbody s.
  set (c1 := 2 * gamma_equator / wgs_a * (1 + wgs_f + wgs_m)). set (c2 := 2 * gamma_equator / wgs_a * (5 / 2 * wgs_m - 3 * wgs_f)).
  set (c3 := 3 * gamma_equator / wgs_a ^ 2).
  replace (2 * gamma_equator / wgs_a * (1 + wgs_f + wgs_m + (5 / 2 * wgs_m - 3 * wgs_f) * s)) with (c1 + c2 * s) by (unfold c1, c2; ring).
  assert (B1 : -4e-8 <= 0.3087691 - c1 <= 4e-8) by (unfold c1, gamma_equator, wgs_a, wgs_f, wgs_m, wgs_b, wgs_f, wgs_a, earth_rate; lra).
  assert (B2 : -3e-8 <= -0.0004398 - c2 <= 3e-8) by (unfold c2, gamma_equator, wgs_a, wgs_f, wgs_m, wgs_b, wgs_f, wgs_a, earth_rate; lra).
  assert (B3 : -2e-13 <= 7.2125e-8 - c3 <= 2e-13) by (unfold c3, gamma_equator, wgs_a; lra).
  replace (- ((0.3087691 - 0.0004398 * s) * h) + 7.2125e-8 * h ^ 2 - (- (c1 + c2 * s) * h + c3 * h ^ 2))
    with (- ((0.3087691 - c1 + (-0.0004398 - c2) * s) * h) + (7.2125e-8 - c3) * h ^ 2) by lra.
  set (d1 := 0.3087691 - c1) in *. set (d2 := -0.0004398 - c2) in *. set (d3 := 7.2125e-8 - c3) in *. clearbody d1 d2 d3 c1 c2 c3.
  eapply Rle_trans; [apply Rabs_triang|]. rewrite Rabs_Ropp, !Rabs_mult.
  assert (A1 : Rabs (d1 + d2 * s) <= 7e-8) by (apply Rabs_le; split; nra).
  assert (A2 : Rabs d3 <= 2e-13) by (apply Rabs_le; lra).
  assert (A3 : Rabs (h ^ 2) = h ^ 2) by (apply Rabs_right; nra). rewrite A3.
  pose proof (Rabs_pos h). assert (0 <= h ^ 2) by nra. apply Rplus_le_compat; apply Rmult_le_compat_r; assumption.
Qed.
Print Assumptions C31_theory.

Example C31_case : free_air_second_order 0 1000 false = -308.696975.
Proof. unfold free_air_second_order. cbv zeta. replace (deg2rad 0) with 0 by (unfold deg2rad; ring). rewrite sin_0. lra. Qed.

(** C32: normal gravity. *)
Theorem C32_symmetric : forall lat, wgs_grav (- lat) = wgs_grav lat.
Proof.
  intros lat. unfold wgs_grav. cbv zeta. replace (deg2rad (- lat)) with (- deg2rad lat) by (unfold deg2rad; ring).
  rewrite sin_neg. replace ((- sin (deg2rad lat)) ^ 2) with (sin (deg2rad lat) ^ 2) by ring. reflexivity.
Qed.
Print Assumptions C32_symmetric.

Lemma wgs_mono s s' : 0 <= s -> s < s' -> s' <= 1 ->
  978032.53359 * ((1 + 0.00193185265241 * s) / sqrt (1 - 0.00669437999014 * s)) <
  978032.53359 * ((1 + 0.00193185265241 * s') / sqrt (1 - 0.00669437999014 * s')).
Proof.
  intros H0 H H1. apply Rmult_lt_compat_l; [lra|].
  assert (P : 0 < sqrt (1 - 0.00669437999014 * s')) by (apply sqrt_lt_R0; lra).
  assert (Q : sqrt (1 - 0.00669437999014 * s') < sqrt (1 - 0.00669437999014 * s)) by (apply sqrt_lt_1; lra).
  unfold Rdiv. apply Rmult_gt_0_lt_compat; try lra.
  - apply Rinv_0_lt_compat. lra.
  - apply Rinv_lt_contravar; [|exact Q]. apply Rmult_lt_0_compat; lra.
Qed.

Theorem C32_increasing : forall lat lat', 0 <= lat -> lat < lat' -> lat' <= 90 -> wgs_grav lat < wgs_grav lat'.
Proof.
  intros lat lat' H0 H H1. unfold wgs_grav. cbv zeta. pose proof PI_RGT_0 as Hpi.
  assert (E : forall x, deg2rad x = x * (PI / 180)) by reflexivity.
  assert (B : 0 <= deg2rad lat < deg2rad lat' /\ deg2rad lat' <= PI / 2) by (rewrite !E; nra).
  assert (S0 : 0 <= sin (deg2rad lat)) by (apply sin_ge_0; lra).
  assert (S1 : sin (deg2rad lat) < sin (deg2rad lat')) by (apply sin_increasing_1; lra).
  pose proof (SIN_bound (deg2rad lat')). apply wgs_mono; nra.
Qed.
Print Assumptions C32_increasing.

Theorem C32_equator_and_poles : wgs_grav 0 = 978032.53359 /\ 983218.4937 <= wgs_grav 90 <= 983218.4938 /\
  forall lat, 978032.53359 <= wgs_grav lat <= 983218.4938.
Proof.
  assert (E0 : wgs_grav 0 = 978032.53359).
  { unfold wgs_grav. cbv zeta. replace (deg2rad 0) with 0 by (unfold deg2rad; ring). rewrite sin_0.
    replace (1 - 0.00669437999014 * 0 ^ 2) with 1 by lra. rewrite sqrt_1. lra. }
  assert (G : 983218.4937 <= 978032.53359 * ((1 + 0.00193185265241 * 1) / sqrt (1 - 0.00669437999014 * 1)) <= 983218.4938).
  { set (u := 1 - 0.00669437999014 * 1). set (n := 978032.53359 * (1 + 0.00193185265241 * 1)).
    replace (978032.53359 * ((1 + 0.00193185265241 * 1) / sqrt u)) with (n / sqrt u) by (unfold n; field; apply Rgt_not_eq, sqrt_lt_R0; unfold u; lra).
    assert (P : 0 < sqrt u) by (apply sqrt_lt_R0; unfold u; lra).
    assert (B1 : n / 983218.4938 <= sqrt u).
    { rewrite <- (sqrt_pow2 (n / 983218.4938)) by (unfold n; lra). apply sqrt_le_1; unfold n, u; lra. }
    assert (B2 : sqrt u <= n / 983218.4937).
    { rewrite <- (sqrt_pow2 (n / 983218.4937)) by (unfold n; lra). apply sqrt_le_1; unfold n, u; lra. }
    assert (Hn : 0 < n) by (unfold n; lra). clearbody u n.
    split; apply (Rmult_le_reg_r (sqrt u)); try exact P; unfold Rdiv; rewrite Rmult_assoc, Rinv_l by lra; lra. }
  split; [exact E0|]. split.
  - unfold wgs_grav. cbv zeta. replace (deg2rad 90) with (PI / 2) by (unfold deg2rad; field). rewrite sin_PI2.
    replace (1 ^ 2) with 1 by ring. exact G.
  - intros lat. unfold wgs_grav. cbv zeta. pose proof (sin2_range (deg2rad lat)) as Hs. set (s := sin (deg2rad lat) ^ 2) in *. clearbody s.
    assert (E1 : 978032.53359 = 978032.53359 * ((1 + 0.00193185265241 * 0) / sqrt (1 - 0.00669437999014 * 0))).
    { replace (1 - 0.00669437999014 * 0) with 1 by lra. rewrite sqrt_1. lra. }
    split.
    + destruct (Req_dec s 0) as [->|Hz]; [rewrite <- E1; lra|]. rewrite E1 at 1. apply Rlt_le, wgs_mono; lra.
    + destruct (Req_dec s 1) as [->|Hz]; [lra|]. eapply Rle_trans; [apply Rlt_le, (wgs_mono s 1); lra|lra].
Qed.
Print Assumptions C32_equator_and_poles.

Theorem C32_somigliana : forall lat, Rabs (wgs_grav lat - somigliana (rad lat)) <= 1e-5.
Proof.
  intros lat. unfold wgs_grav, somigliana. cbv zeta. rewrite deg2rad_rad. set (phi := rad lat).
  pose proof (sin2_cos2 phi) as Hsc. unfold Rsqr in Hsc. pose proof (sin2_range phi) as Hs.
  replace (cos phi ^ 2) with (1 - sin phi ^ 2) by lra. set (s := sin phi ^ 2) in *. clearbody s. clear Hsc phi.
  set (u := 1 - 0.00669437999014 * s).
  set (e := 1 - (wgs_b / wgs_a) ^ 2). set (u' := 1 - e * s).
  assert (Ha : 0 < wgs_a) by (unfold wgs_a; lra).
  assert (He : -1e-13 <= e - 0.00669437999014 <= 1e-13) by (unfold e, wgs_b, wgs_f, wgs_a; lra).
  assert (Hu : 0.99 <= u <= 1) by (unfold u; lra).
  assert (Hu' : 0.99 <= u' <= 1) by (unfold u'; nra).
  replace (wgs_a ^ 2 * (1 - s) + wgs_b ^ 2 * s) with (wgs_a ^ 2 * u') by (unfold u', e; field; lra).
  rewrite sqrt_mult by nra. rewrite sqrt_pow2 by lra.
  set (k := wgs_b * gamma_pole / (wgs_a * gamma_equator) - 1).
  assert (Hk : -7e-12 <= 0.00193185265241 - k <= 7e-12) by (unfold k, wgs_b, wgs_f, wgs_a, gamma_pole, gamma_equator; lra).
  assert (P' : 0.99 <= sqrt u' <= 1).
  { split; [|rewrite <- sqrt_1; apply sqrt_le_1; lra]. rewrite <- (sqrt_pow2 0.99) by lra. apply sqrt_le_1; lra. }
  assert (P : 0.99 <= sqrt u <= 1).
  { split; [|rewrite <- sqrt_1; apply sqrt_le_1; lra]. rewrite <- (sqrt_pow2 0.99) by lra. apply sqrt_le_1; lra. }
  replace ((wgs_a * gamma_equator * (1 - s) + wgs_b * gamma_pole * s) / (wgs_a * sqrt u')) with (gamma_equator * ((1 + k * s) / sqrt u'))
    by (unfold k; field; unfold gamma_equator; lra).
  change gamma_equator with 978032.53359.
  assert (D : -1e-13 <= sqrt u - sqrt u' <= 1e-13).
  { assert (E : (sqrt u - sqrt u') * (sqrt u + sqrt u') = (e - 0.00669437999014) * s).
    { replace ((sqrt u - sqrt u') * (sqrt u + sqrt u')) with (sqrt u ^ 2 - sqrt u' ^ 2) by ring.
      rewrite !pow2_sqrt by lra. unfold u, u'. ring. }
    assert (B : -1e-13 <= (e - 0.00669437999014) * s <= 1e-13) by nra. rewrite <- E in B.
    set (x := sqrt u - sqrt u') in *. set (y := sqrt u + sqrt u') in *. assert (1.98 <= y) by (unfold y; lra).
    split; [destruct (Rle_dec (-1e-13) x); [assumption|exfalso; nra]|destruct (Rle_dec x 1e-13); [assumption|exfalso; nra]]. }
  set (v := sqrt u) in *. set (v' := sqrt u') in *. clearbody v v' u u'.
  replace (978032.53359 * ((1 + 0.00193185265241 * s) / v) - 978032.53359 * ((1 + k * s) / v'))
    with (978032.53359 * (((0.00193185265241 - k) * s * v' - (1 + k * s) * (v - v')) / (v * v'))).
  2:{ generalize 978032.53359. intros g. set (k0 := 0.00193185265241). clearbody k0. field. split; lra. }
  set (dk := 0.00193185265241 - k) in *. set (dv := v - v') in *.
  assert (Hk2 : 0 <= k <= 0.01) by (unfold dk in Hk; lra).
  assert (N : -7.2e-12 <= dk * s * v' - (1 + k * s) * dv <= 7.2e-12).
  { assert (-7e-12 <= dk * s <= 7e-12) by nra. assert (-7e-12 <= dk * s * v' <= 7e-12) by (set (z := dk * s) in *; nra).
    assert (1 <= 1 + k * s <= 1.01) by nra. assert (-1.01e-13 <= (1 + k * s) * dv <= 1.01e-13) by (set (z := 1 + k * s) in *; nra). lra. }
  set (num := dk * s * v' - (1 + k * s) * dv) in *. clearbody num.
  assert (Q : 0.98 <= v * v') by nra.
  assert (HQ : Rabs (num / (v * v')) <= 7.2e-12 / 0.98).
  { unfold Rdiv. rewrite Rabs_mult. apply Rmult_le_compat; try apply Rabs_pos; [apply Rabs_le; lra|].
    rewrite Rabs_right by (apply Rle_ge, Rlt_le, Rinv_0_lt_compat; lra). apply Rinv_le_contravar; lra. }
  rewrite Rabs_mult, (Rabs_right 978032.53359) by lra. lra.
Qed.
Print Assumptions C32_somigliana.

Example C32_case : wgs_grav 0 = 978032.53359 /\ wgs_grav (-30) = wgs_grav 30.
Proof. split; [apply C32_equator_and_poles|apply (C32_symmetric 30)]. Qed.

(** C33: derivatives of samples of a polynomial (coefficients [c]) taken [s] times a second. *)
Theorem C33_first_derivative : forall c s y d, s <> 0 ->
  (forall k, (k < length y)%nat -> nth k y 0 = poly 3 c (INR k / s)) ->
  center_diff y 1 s = Diffs d ->
  length d = (length y - 2)%nat /\
  forall k, (k < length d)%nat -> derivable_pt_lim (poly 3 c) (INR (k + 1) / s) (nth k d 0).
Proof.
  intros c s y d Hs Hy H. change (Diffs (center_diff1 y s) = Diffs d) in H. injection H as <-.
  split; [apply cd1_length|]. intros k Hk. rewrite cd1_length in Hk. rewrite nth_cd1 by exact Hk. rewrite !Hy by lia.
  eapply dl_val; [|apply poly_derivative]. unfold poly. cbn [Rsum]. rewrite !plus_INR. cbn [INR Init.Nat.pred]. field. exact Hs.
Qed.
Print Assumptions C33_first_derivative.

Theorem C33_second_derivative : forall c s y d, s <> 0 ->
  (forall k, (k < length y)%nat -> nth k y 0 = poly 4 c (INR k / s)) ->
  center_diff y 2 s = Diffs d ->
  length d = (length y - 2)%nat /\
  forall k, (k < length d)%nat -> acceleration (poly 4 c) (INR (k + 1) / s) (nth k d 0).
Proof.
  intros c s y d Hs Hy H. change (Diffs (center_diff2 y s) = Diffs d) in H. injection H as <-.
  split; [apply cd2_length|]. intros k Hk. rewrite cd2_length in Hk. rewrite nth_cd2 by exact Hk. rewrite !Hy by lia.
  exists (poly 3 (fun d => INR (S d) * c (S d))). split.
  - intros u. eapply dl_val; [|apply poly_derivative]. unfold poly. cbn [Rsum Init.Nat.pred INR]. ring.
  - eapply dl_val; [|apply poly_derivative]. unfold poly. cbn [Rsum]. rewrite !plus_INR. cbn [INR Init.Nat.pred]. field. exact Hs.
Qed.
Print Assumptions C33_second_derivative.

Theorem C33_other_orders : forall y n s, n <> 1%Z -> n <> 2%Z -> center_diff y n s = Minus999.
Proof.
  intros y n s H1 H2. unfold center_diff. rewrite (proj2 (Z.eqb_neq _ _) H1), (proj2 (Z.eqb_neq _ _) H2). reflexivity.
Qed.
Print Assumptions C33_other_orders.

(** Squares 0, 1, 4, 9, 16 sampled twice a second: first derivative 8 t at 0.5, 1, 1.5 s. *)
Example C33_case : exists d, center_diff [0; 1; 4; 9; 16] 1 2 = Diffs d /\ d = [4; 8; 12] /\
  exists e, center_diff [0; 1; 4; 9; 16] 2 2 = Diffs e /\ e = [8; 8; 8].
Proof.
  eexists. split; [reflexivity|]. unfold center_diff1, center_diff2, slice. cbn [length Nat.sub firstn skipn map2].
  split; [repeat (f_equal; try lra)|].
  eexists. split; [reflexivity|]. unfold center_diff2, slice. cbn [length Nat.sub firstn skipn map3]. repeat (f_equal; try lra).
Qed.
