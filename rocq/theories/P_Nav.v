(** Properties C17-C21: shipgrav/nav.py. *)
From Coq Require Import List Reals Arith Lia Lra.
From Verif Require Import M_Py M_Np M_Nav S_Base S_Nav L_Base L_Np L_Nav.
Import ListNotations.
Open Scope R_scope.

(** C17: shape, NaN edges, finite interior; bad inputs raise. *)
Theorem C17_shape_and_nan_edges : forall lon lat freq, length lon = length lat -> (11 <= length lon)%nat ->
  exists vn ve, latlon_to_EN lon lat freq = Ok (vn, ve) /\
    length vn = length lon /\ length ve = length lon /\
    forall k, (k < length lon)%nat ->
      ((k < 5 \/ length lon - 5 <= k)%nat -> nth_error vn k = Some None /\ nth_error ve k = Some None) /\
      ((5 <= k /\ k < length lon - 5)%nat ->
         exists x y, nth_error vn k = Some (Some x) /\ nth_error ve k = Some (Some y)).
Proof.
  intros lon lat freq Hl Hn. destruct (latlon_to_EN_form lon lat freq Hl) as [vn [ve [E [L1 [L2 [He Hi]]]]]]; [lia|].
  exists vn, ve. split; [exact E|]. split; [exact L1|]. split; [exact L2|].
  intros k Hk. split.
  - intros H. apply He. lia.
  - intros H. destruct (Hi k) as [H1 H2]; [lia|lia|]. eexists _, _. split; eassumption.
Qed.
Print Assumptions C17_shape_and_nan_edges.

Theorem C17_bad_input_raises : forall lon lat freq,
  length lon <> length lat \/ (length lon < 11)%nat -> latlon_to_EN lon lat freq = Raise AssertionError.
Proof.
  intros lon lat freq H. unfold latlon_to_EN.
  destruct (Nat.eqb_spec (length lon) (length lat)) as [E|E]; cbn [negb]; [|reflexivity].
  destruct (Nat.ltb_spec 10 (length lon)); cbn [negb]; [lia|reflexivity].
Qed.
Print Assumptions C17_bad_input_raises.

Example C17_case : (11 <= length (repeat 0%R 12))%nat /\ (length (repeat 1%R 12) <> length (repeat 0%R 11)).
Proof. simpl. lia. Qed.

(** C18: polynomial tracks (degree <= 10 in the sample index). *)
Theorem C18_polynomial_latitude : forall lon lat freq n c k d,
  length lon = length lat -> (11 <= length lon)%nat -> (n <= 11)%nat ->
  (forall i, (i < length lat)%nat -> nth i lat 0 = poly n c (INR i)) ->
  (5 <= k)%nat -> (k < length lon - 5)%nat -> derivable_pt_lim (poly n c) (INR k) d ->
  exists vn ve, latlon_to_EN lon lat freq = Ok (vn, ve) /\
    nth_error vn k = Some (Some (meridian_radius (rad (nth k lat 0)) * (rad d * freq))).
Proof.
  intros lon lat freq n c k d Hl Hn Hd Hp Hk1 Hk2 Hder.
  destruct (latlon_to_EN_form lon lat freq Hl) as [vn [ve [E [_ [_ [_ Hi]]]]]]; [lia|].
  exists vn, ve. split; [exact E|]. destruct (Hi k) as [H _]; [lia|lia|]. rewrite H.
  rewrite (diff10_ext _ (fun i => poly n c (INR i))) by (try lia; intros i Hi'; apply Hp; lia).
  rewrite diff10_poly by lia.
  rewrite (uniqueness_limite _ _ _ _ (poly_derivative n c (INR k)) Hder).
  rewrite Rmult_assoc. reflexivity.
Qed.
Print Assumptions C18_polynomial_latitude.

Theorem C18_polynomial_longitude : forall lon lat freq n c k d,
  length lon = length lat -> (11 <= length lon)%nat -> (n <= 11)%nat ->
  (forall i, (i < length lon)%nat -> nth i lon 0 = poly n c (INR i)) ->
  (5 <= k)%nat -> (k < length lon - 5)%nat -> derivable_pt_lim (poly n c) (INR k) d ->
  exists vn ve, latlon_to_EN lon lat freq = Ok (vn, ve) /\
    nth_error ve k = Some (Some (parallel_radius (rad (nth k lat 0)) * (rad d * freq))).
Proof.
  intros lon lat freq n c k d Hl Hn Hd Hp Hk1 Hk2 Hder.
  destruct (latlon_to_EN_form lon lat freq Hl) as [vn [ve [E [_ [_ [_ Hi]]]]]]; [lia|].
  exists vn, ve. split; [exact E|]. destruct (Hi k) as [_ H]; [lia|lia|]. rewrite H.
  rewrite (diff10_ext _ (fun i => poly n c (INR i))) by (try lia; intros i Hi'; apply Hp; lia).
  rewrite diff10_poly by lia.
  rewrite (uniqueness_limite _ _ _ _ (poly_derivative n c (INR k)) Hder).
  rewrite Rmult_assoc. reflexivity.
Qed.
Print Assumptions C18_polynomial_longitude.

(** The radius used for the east velocity is the distance from the earth's axis of the point of the
    WGS84 ellipse with that geodetic latitude. *)
Theorem C18_parallel_radius_geometry : forall phi x z, on_ellipse_with_normal phi x z -> x = parallel_radius phi.
Proof. exact parallel_is_distance. Qed.
Print Assumptions C18_parallel_radius_geometry.
Example C18_parallel_case : on_ellipse_with_normal 0 semi_major 0.
Proof.
  unfold on_ellipse_with_normal. rewrite cos_0, sin_0. unfold semi_major, semi_minor. split; [lra|].
  exists (2 / 6378137). lra.
Qed.

(** A case: latitude i^2/100, twelve samples; at sample 6 the derivative is 12/100. *)
Example C18_case : let lat := map (fun i => INR i ^ 2 / 100) (seq 0 12) in let lon := repeat 5 12 in
  exists vn ve, latlon_to_EN lon lat 2 = Ok (vn, ve) /\
    nth_error vn 6 = Some (Some (meridian_radius (rad (36/100)) * (rad (12/100) * 2))).
Proof.
  cbv zeta.
  destruct (C18_polynomial_latitude (repeat 5 12) (map (fun i => INR i ^ 2 / 100) (seq 0 12)) 2
    3 (fun d => match d with 2%nat => 1/100 | _ => 0 end) 6 (12/100)) as [vn [ve [E H]]].
  - reflexivity.
  - simpl. lia.
  - lia.
  - intros i Hi. rewrite map_length, seq_length in Hi.
    rewrite (nth_map_seq _ (fun i => INR i ^ 2 / 100)) by exact Hi. unfold poly. cbn [Rsum]. cbn [pow]. lra.
  - lia.
  - rewrite repeat_length. lia.
  - pose proof (poly_derivative 3 (fun d => match d with 2%nat => 1/100 | _ => 0 end) (INR 6)) as P.
    replace (Rsum 3 _) with (12/100) in P; [exact P|]. cbn [Rsum INR pred pow]. lra.
  - exists vn, ve. split; [exact E|]. rewrite H.
    change 12%nat with (S 11). rewrite (nth_map_seq _ (fun i => INR i ^ 2 / 100)) by lia.
    replace (INR 6 ^ 2 / 100) with (36/100) by (cbn [INR pow]; lra). reflexivity.
Qed.

(** C19: symmetries. *)
Theorem C19_longitude_origin : forall lon lat freq c,
  latlon_to_EN (map (fun x => x + c) lon) lat freq = latlon_to_EN lon lat freq.
Proof.
  intros lon lat freq c.
  destruct (Nat.eq_dec (length lon) (length lat)) as [Hl|Hl];
    [|rewrite !C17_bad_input_raises; auto; left; rewrite map_length; exact Hl].
  destruct (Nat.lt_ge_cases (length lon) 11) as [Hn|Hn];
    [rewrite !C17_bad_input_raises; auto; right; rewrite map_length; exact Hn|].
  rewrite !latlon_to_EN_eq by (rewrite ?map_length; lia). rewrite map_length. f_equal. f_equal.
  apply framed_ext. intros k H1 H2. do 3 f_equal.
  rewrite (diff10_ext _ (fun i => nth i lon 0 + c)); [apply diff10_shift|lia|].
  intros i Hi. apply (nth_map _ _ (fun x => x + c)). lia.
Qed.
Print Assumptions C19_longitude_origin.

(** Velocities scale with the sampling frequency (NaN stays NaN). *)
Theorem C19_frequency : forall lon lat f g vn ve, latlon_to_EN lon lat f = Ok (vn, ve) ->
  latlon_to_EN lon lat (g * f) = Ok (map (option_map (Rmult g)) vn, map (option_map (Rmult g)) ve).
Proof.
  intros lon lat f g vn ve.
  destruct (Nat.eq_dec (length lon) (length lat)) as [Hl|Hl];
    [|rewrite C17_bad_input_raises; [discriminate|auto]].
  destruct (Nat.lt_ge_cases (length lon) 11) as [Hn|Hn];
    [rewrite C17_bad_input_raises; [discriminate|auto]|].
  rewrite !latlon_to_EN_eq by lia. intros H. injection H as <- <-. rewrite !framed_map.
  f_equal. f_equal; apply framed_ext; intros; ring.
Qed.
Print Assumptions C19_frequency.

(** The track run backwards has the opposite velocities in reverse order. *)
Theorem C19_reversal : forall lon lat f vn ve, latlon_to_EN lon lat f = Ok (vn, ve) ->
  latlon_to_EN (rev lon) (rev lat) f = Ok (rev (map (option_map Ropp) vn), rev (map (option_map Ropp) ve)).
Proof.
  intros lon lat f vn ve.
  destruct (Nat.eq_dec (length lon) (length lat)) as [Hl|Hl];
    [|rewrite C17_bad_input_raises; [discriminate|auto]].
  destruct (Nat.lt_ge_cases (length lon) 11) as [Hn|Hn];
    [rewrite C17_bad_input_raises; [discriminate|auto]|].
  rewrite !latlon_to_EN_eq by (rewrite ?rev_length; lia). intros H. injection H as <- <-.
  rewrite !framed_map, !framed_rev, rev_length.
  f_equal. f_equal; apply framed_ext; intros k H1 H2; rewrite diff10_rev by lia;
    rewrite rev_nth by lia; replace (length lat - S k)%nat with (length lon - 1 - k)%nat by lia.
  - rewrite Hl. unfold rad. lra.
  - unfold rad. lra.
Qed.
Print Assumptions C19_reversal.

(** A ship that does not move has velocity 0 at every interior sample. *)
Theorem C19_stationary : forall n x y f, (11 <= n)%nat ->
  exists v, latlon_to_EN (repeat x n) (repeat y n) f = Ok (v, v) /\
    (forall k, (5 <= k)%nat -> (k < n - 5)%nat -> nth_error v k = Some (Some 0)).
Proof.
  intros n x y f Hn. rewrite latlon_to_EN_eq by (rewrite !repeat_length; lia). rewrite repeat_length.
  exists (framed n (fun _ => 0)). split.
  - f_equal. f_equal; apply framed_ext; intros k H1 H2.
    + rewrite (diff10_ext _ (fun _ => y)), diff10_const by (try lia; intros; apply nth_repeat_lt; lia). unfold rad. lra.
    + rewrite (diff10_ext _ (fun _ => x)), diff10_const by (try lia; intros; apply nth_repeat_lt; lia). unfold rad. lra.
  - intros k H1 H2. unfold framed. rewrite (nth_error_nth' _ None) by (rewrite map_length, seq_length; lia).
    rewrite nth_map_seq by lia. rewrite (proj2 (Nat.leb_le _ _)), (proj2 (Nat.ltb_lt _ _)) by lia. reflexivity.
Qed.
Print Assumptions C19_stationary.

Example C19_case : exists v, latlon_to_EN (repeat 12 11) (repeat 45 11) 1 = Ok (v, v) /\ nth_error v 5 = Some (Some 0).
Proof. destruct (C19_stationary 11 12 45 1) as [v [E H]]; [lia|]. exists v. split; [exact E|]. apply H; lia. Qed.

(** C20: polar form. *)
Theorem C20_polar_form : forall ve vn h v, ENvel_to_course_heading1 ve vn = (h, v) ->
  0 <= v /\ v * sin (rad h) = ve /\ v * cos (rad h) = vn /\ -180 < h <= 180.
Proof.
  intros ve vn h v H. unfold ENvel_to_course_heading1 in H. injection H as <- <-.
  destruct (arctan2_polar ve vn) as [H1 [H2 H3]]. pose proof PI_RGT_0 as Hpi.
  assert (E : rad (rad2deg (arctan2 ve vn)) = arctan2 ve vn) by (unfold rad, rad2deg; field; lra).
  rewrite E. split; [apply sqrt_pos|]. split; [exact H1|]. split; [exact H2|].
  unfold rad2deg. split.
  - replace (-180) with (- PI * (180 / PI)) by (field; lra). apply Rmult_lt_compat_r; [|lra].
    apply Rdiv_lt_0_compat; lra.
  - replace 180 with (PI * (180 / PI)) at 2 by (field; lra). apply Rmult_le_compat_r; [|lra].
    left. apply Rdiv_lt_0_compat; lra.
Qed.
Print Assumptions C20_polar_form.

(** The polar form is determined by these conditions when the ship moves. *)
Theorem C20_heading_unique : forall ve vn h v, 0 < v -> v * sin (rad h) = ve -> v * cos (rad h) = vn ->
  -180 < h <= 180 -> ENvel_to_course_heading1 ve vn = (h, v).
Proof.
  intros ve vn h v Hv Hs Hc Hh. destruct (ENvel_to_course_heading1 ve vn) as [h' v'] eqn:E.
  destruct (C20_polar_form _ _ _ _ E) as [Hv' [Hs' [Hc' Hh']]].
  assert (Ev : v' = v).
  { assert (E2 : v' ^ 2 = v ^ 2).
    { pose proof (sin2_cos2 (rad h)) as A. pose proof (sin2_cos2 (rad h')) as B. unfold Rsqr in A, B.
      replace (v' ^ 2) with ((v' * sin (rad h')) ^ 2 + (v' * cos (rad h')) ^ 2)
        by (transitivity (v' ^ 2 * (sin (rad h') * sin (rad h') + cos (rad h') * cos (rad h'))); [ring|rewrite B; ring]).
      replace (v ^ 2) with ((v * sin (rad h)) ^ 2 + (v * cos (rad h)) ^ 2)
        by (transitivity (v ^ 2 * (sin (rad h) * sin (rad h) + cos (rad h) * cos (rad h))); [ring|rewrite A; ring]).
      rewrite Hs, Hc, Hs', Hc'. reflexivity. }
    nra. }
  subst v'. f_equal.
  assert (S1 : sin (rad h') = sin (rad h)) by (apply (Rmult_eq_reg_l v); lra).
  assert (S2 : cos (rad h') = cos (rad h)) by (apply (Rmult_eq_reg_l v); lra).
  pose proof PI_RGT_0 as Hpi.
  assert (Hd : sin (rad h' - rad h) = 0) by (rewrite sin_minus, S1, S2; ring).
  assert (Hd' : cos (rad h' - rad h) = 1).
  { rewrite cos_minus, S1, S2. pose proof (sin2_cos2 (rad h)) as A. unfold Rsqr in A. lra. }
  assert (Hr : - (2 * PI) < rad h' - rad h < 2 * PI).
  { unfold rad. split; [|].
    - replace (h' * PI / 180 - h * PI / 180) with ((h' - h) * (PI / 180)) by field.
      replace (- (2 * PI)) with ((-360) * (PI / 180)) by field. apply Rmult_lt_compat_r; lra.
    - replace (h' * PI / 180 - h * PI / 180) with ((h' - h) * (PI / 180)) by field.
      replace (2 * PI) with (360 * (PI / 180)) by field. apply Rmult_lt_compat_r; lra. }
  destruct (Req_dec (rad h' - rad h) 0) as [Hz|Hz].
  - unfold rad in Hz. apply (Rmult_eq_reg_r (PI / 180)); [|lra]. lra.
  - exfalso. set (t := rad h' - rad h) in *.
    assert (Hcos : cos t = 1 - 2 * sin (t / 2) * sin (t / 2)).
    { replace t with (2 * (t / 2)) at 1 by field. apply cos_2a_sin. }
    assert (Hsin : sin (t / 2) = 0) by nra.
    destruct (Rlt_dec 0 t) as [Hp|Hp].
    + assert (0 < sin (t / 2)) by (apply sin_gt_0; lra). lra.
    + assert (sin (t / 2) < 0) by (apply sin_lt_0_var; lra). lra.
Qed.
Print Assumptions C20_heading_unique.

(** Arrays: sample by sample. *)
Theorem C20_elementwise : forall ve vn i e n, nth_error ve i = Some e -> nth_error vn i = Some n ->
  exists h v, nth_error (fst (ENvel_to_course_heading ve vn)) i = Some h /\
    nth_error (snd (ENvel_to_course_heading ve vn)) i = Some v /\
    0 <= v /\ v * sin (rad h) = e /\ v * cos (rad h) = n /\ -180 < h <= 180.
Proof.
  intros ve vn i e n He Hn. destruct (ENvel_to_course_heading1 e n) as [h v] eqn:E.
  exists h, v. assert (H := C20_polar_form _ _ _ _ E). split; [|split; [|exact H]]; clear H.
  - unfold ENvel_to_course_heading. cbn [fst]. revert vn i He Hn. induction ve as [|a ve IH]; intros [|b vn] [|i] He Hn; try discriminate.
    + cbn [map2 nth_error] in *. injection He as ->. injection Hn as ->. rewrite E. reflexivity.
    + cbn [map2 nth_error]. apply IH; assumption.
  - unfold ENvel_to_course_heading. cbn [snd]. revert vn i He Hn. induction ve as [|a ve IH]; intros [|b vn] [|i] He Hn; try discriminate.
    + cbn [map2 nth_error] in *. injection He as ->. injection Hn as ->. rewrite E. reflexivity.
    + cbn [map2 nth_error]. apply IH; assumption.
Qed.
Print Assumptions C20_elementwise.

Example C20_case : ENvel_to_course_heading1 3 0 = (90, 3).
Proof.
  apply C20_heading_unique; try lra; unfold rad; replace (90 * PI / 180) with (PI / 2) by field;
    [rewrite sin_PI2|rewrite cos_PI2]; lra.
Qed.
Example C20_south_case : ENvel_to_course_heading1 0 (-2) = (180, 2).
Proof.
  apply C20_heading_unique; try lra; unfold rad; replace (180 * PI / 180) with PI by field;
    [rewrite sin_PI|rewrite cos_PI]; lra.
Qed.

(** C21: rotation. *)
Theorem C21_magnitude : forall h e n ac al, rotate_acceleration_EN_to_cl h e n = (ac, al) ->
  ac ^ 2 + al ^ 2 = e ^ 2 + n ^ 2.
Proof.
  intros h e n ac al H. unfold rotate_acceleration_EN_to_cl in H. injection H as <- <-.
  pose proof (sin2_cos2 (deg2rad h)) as A. unfold Rsqr in A.
  set (c := cos _) in *. set (s := sin _) in *.
  transitivity ((e ^ 2 + n ^ 2) * (s * s + c * c)); [ring|rewrite A; ring].
Qed.
Print Assumptions C21_magnitude.

Theorem C21_inverse : forall h e n ac al, rotate_acceleration_EN_to_cl h e n = (ac, al) ->
  rotate_acceleration_EN_to_cl (- h) ac al = (e, n).
Proof.
  intros h e n ac al H. unfold rotate_acceleration_EN_to_cl in *. injection H as <- <-.
  replace (deg2rad (- h)) with (- deg2rad h) by (unfold deg2rad; ring). rewrite cos_neg, sin_neg.
  pose proof (sin2_cos2 (deg2rad h)) as A. unfold Rsqr in A.
  set (c := cos _) in *. set (s := sin _) in *. f_equal.
  - transitivity (e * (s * s + c * c)); [ring|rewrite A; ring].
  - transitivity (n * (s * s + c * c)); [ring|rewrite A; ring].
Qed.
Print Assumptions C21_inverse.

(** A vector of length [l] pointing along the heading (clockwise from north) is purely "long"; one
    pointing to starboard is purely "cross". *)
Theorem C21_aligned : forall h l,
  rotate_acceleration_EN_to_cl h (l * sin (rad h)) (l * cos (rad h)) = (0, l) /\
  rotate_acceleration_EN_to_cl h (l * cos (rad h)) (- (l * sin (rad h))) = (l, 0).
Proof.
  intros h l. unfold rotate_acceleration_EN_to_cl. rewrite <- deg2rad_rad.
  pose proof (sin2_cos2 (deg2rad h)) as A. unfold Rsqr in A.
  set (c := cos _) in *. set (s := sin _) in *. split; f_equal.
  - ring.
  - transitivity (l * (s * s + c * c)); [ring|rewrite A; ring].
  - transitivity (l * (s * s + c * c)); [ring|rewrite A; ring].
  - ring.
Qed.
Print Assumptions C21_aligned.

Example C21_case : rotate_acceleration_EN_to_cl 90 2 1 = (-1, 2).
Proof.
  unfold rotate_acceleration_EN_to_cl. rewrite deg2rad_rad. unfold rad.
  replace (90 * PI / 180) with (PI / 2) by field. rewrite cos_PI2, sin_PI2. f_equal; lra.
Qed.
