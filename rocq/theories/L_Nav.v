(** Proofs for shipgrav/nav.py. *)
From Coq Require Import List Reals Arith Bool Lia Lra.
From Verif Require Import M_Py M_Np M_Nav S_Base S_Nav L_Base L_Np.
Import ListNotations.
Open Scope R_scope.

Lemma deg2rad_rad d : deg2rad d = rad d.
Proof. unfold deg2rad, rad. field. Qed.

(** The antisymmetric five-pair form of the differentiator. *)
Definition diff10 (f : nat -> R) (k : nat) : R :=
  5/6 * (f (k + 1)%nat - f (k - 1)%nat) - 5/21 * (f (k + 2)%nat - f (k - 2)%nat)
  + 5/84 * (f (k + 3)%nat - f (k - 3)%nat) - 5/504 * (f (k + 4)%nat - f (k - 4)%nat)
  + 1/1260 * (f (k + 5)%nat - f (k - 5)%nat).

Lemma tay10_length : length tay10 = 11%nat. Proof. reflexivity. Qed.

Lemma tay10_same_length x : (10 < length x)%nat -> length (convolve_same x tay10) = length x.
Proof.
  intros H. rewrite convolve_same_length.
  - rewrite tay10_length. lia.
  - intros ->. simpl in H. lia.
  - discriminate.
Qed.

Lemma nth_tay10 x k d : (10 < length x)%nat -> (5 <= k)%nat -> (k + 5 < length x)%nat ->
  nth k (convolve_same x tay10) d = diff10 (fun i => nth i x 0) k.
Proof.
  intros Hl Hk Hk'.
  assert (Hn : x <> []) by (intros ->; simpl in Hl; lia).
  rewrite nth_convolve_same; [|rewrite tay10_length; lia|exact Hn|discriminate].
  replace (Nat.div (Nat.min (length x) (length tay10) - 1) 2) with 5%nat
    by (rewrite tay10_length, Nat.min_r by lia; reflexivity).
  rewrite nth_convolve_full_kernel by (rewrite tay10_length; lia).
  rewrite tay10_length. unfold diff10.
  assert (Hi : forall j, (j <= 10)%nat -> (j <=? 5 + k)%nat = true) by (intros; apply Nat.leb_le; lia).
  cbn [Rsum].
  rewrite !Hi by lia. unfold tay10. cbn [nth].
  replace (5 + k - 0)%nat with (k + 5)%nat by lia.
  replace (5 + k - 1)%nat with (k + 4)%nat by lia.
  replace (5 + k - 2)%nat with (k + 3)%nat by lia.
  replace (5 + k - 3)%nat with (k + 2)%nat by lia.
  replace (5 + k - 4)%nat with (k + 1)%nat by lia.
  replace (5 + k - 6)%nat with (k - 1)%nat by lia.
  replace (5 + k - 7)%nat with (k - 2)%nat by lia.
  replace (5 + k - 8)%nat with (k - 3)%nat by lia.
  replace (5 + k - 9)%nat with (k - 4)%nat by lia.
  replace (5 + k - 10)%nat with (k - 5)%nat by lia.
  field.
Qed.

Lemma nan_edges_length v : length (nan_edges v) = length v.
Proof. unfold nan_edges. rewrite map_length, seq_length. reflexivity. Qed.

Lemma nth_nan_edges v k d : (k < length v)%nat ->
  nth k (nan_edges v) d = if ((k <? 5) || (length v - 5 <=? k))%nat%bool then None else Some (nth k v 0).
Proof. intros H. unfold nan_edges. rewrite nth_map_seq by exact H. reflexivity. Qed.

(** geometry: (1 - e2 sin^2) = (a^2 cos^2 + b^2 sin^2)/a^2 *)
Lemma e2term_radius phi :
  sqrt (1 - e2_wgs * sin phi ^ 2) =
  sqrt ((semi_major * cos phi) ^ 2 + (semi_minor * sin phi) ^ 2) / semi_major.
Proof.
  replace (1 - e2_wgs * sin phi ^ 2)
    with (((semi_major * cos phi) ^ 2 + (semi_minor * sin phi) ^ 2) / (semi_major ^ 2)).
  - rewrite sqrt_div_alt by (unfold semi_major; lra). f_equal.
    replace (semi_major ^ 2) with (Rsqr semi_major) by (unfold Rsqr; ring).
    apply sqrt_Rsqr. unfold semi_major. lra.
  - assert (E : cos phi ^ 2 = 1 - sin phi ^ 2) by (pose proof (sin2_cos2 phi) as H; unfold Rsqr in H; lra).
    replace ((semi_major * cos phi) ^ 2) with (semi_major ^ 2 * cos phi ^ 2) by ring. rewrite E.
    unfold e2_wgs, a_wgs, b_wgs, semi_major, semi_minor. field.
Qed.

Lemma radicand_pos phi : 0 < (semi_major * cos phi) ^ 2 + (semi_minor * sin phi) ^ 2.
Proof.
  pose proof (sin2_cos2 phi) as H. unfold Rsqr in H.
  assert (0 <= cos phi ^ 2) by nra. assert (0 <= sin phi ^ 2) by nra.
  replace ((semi_major * cos phi) ^ 2 + (semi_minor * sin phi) ^ 2) with
    (semi_minor ^ 2 * (cos phi ^ 2 + sin phi ^ 2) + (semi_major ^ 2 - semi_minor ^ 2) * cos phi ^ 2) by ring.
  replace (cos phi ^ 2 + sin phi ^ 2) with 1 by (cbn [pow]; lra).
  assert (0 < semi_minor ^ 2) by (unfold semi_minor; lra).
  assert (0 <= semi_major ^ 2 - semi_minor ^ 2) by (unfold semi_major, semi_minor; lra).
  nra.
Qed.

Lemma sqrt_radicand_pos phi : 0 < sqrt ((semi_major * cos phi) ^ 2 + (semi_minor * sin phi) ^ 2).
Proof. apply sqrt_lt_R0, radicand_pos. Qed.

Lemma vn_factor phi d f :
  a_wgs * (1 - e2_wgs) * (d / sqrt (1 - e2_wgs * sin phi ^ 2) ^ 3) * f = meridian_radius phi * d * f.
Proof.
  rewrite e2term_radius. unfold meridian_radius. pose proof (sqrt_radicand_pos phi) as Hs.
  set (s := sqrt _) in *. unfold a_wgs, e2_wgs, a_wgs, b_wgs, semi_major, semi_minor in *. field. lra.
Qed.

Lemma ve_factor phi d f :
  a_wgs * d * (cos phi / sqrt (1 - e2_wgs * sin phi ^ 2)) * f = parallel_radius phi * d * f.
Proof.
  rewrite e2term_radius. unfold parallel_radius. pose proof (sqrt_radicand_pos phi) as Hs.
  set (s := sqrt _) in *. unfold a_wgs, semi_major in *. field. lra.
Qed.

(** Closed form of the whole function. *)
Lemma latlon_to_EN_form lon lat freq : length lon = length lat -> (10 < length lon)%nat ->
  exists vn ve, latlon_to_EN lon lat freq = Ok (vn, ve) /\
    length vn = length lon /\ length ve = length lon /\
    (forall k, (k < 5 \/ length lon - 5 <= k < length lon)%nat -> nth_error vn k = Some None /\ nth_error ve k = Some None) /\
    (forall k, (5 <= k)%nat -> (k + 5 < length lon)%nat ->
       nth_error vn k = Some (Some (meridian_radius (rad (nth k lat 0)) * rad (diff10 (fun i => nth i lat 0) k) * freq)) /\
       nth_error ve k = Some (Some (parallel_radius (rad (nth k lat 0)) * rad (diff10 (fun i => nth i lon 0) k) * freq))).
Proof.
  intros Hl Hn. unfold latlon_to_EN. rewrite Hl, Nat.eqb_refl. rewrite Hl in Hn.
  rewrite (proj2 (Nat.ltb_lt _ _) Hn). cbn [negb].
  set (vn := map2 _ _ _). set (ve := map3 _ _ _ _).
  assert (Lvn : length vn = length lat).
  { unfold vn. rewrite map2_length, !map_length, tay10_same_length by exact Hn. lia. }
  assert (Lve : length ve = length lat).
  { unfold ve. rewrite map3_length, !map_length, tay10_same_length by lia. lia. }
  assert (Hne : forall v : list R, length v = length lat -> forall k, (k < length lat)%nat ->
     nth_error (nan_edges v) k = Some (if ((k <? 5) || (length lat - 5 <=? k))%nat%bool then None else Some (nth k v 0))).
  { intros v Lv k Hk. rewrite (nth_error_nth' _ None) by (rewrite nan_edges_length; lia).
    f_equal. rewrite nth_nan_edges by lia. rewrite Lv. reflexivity. }
  exists (nan_edges vn), (nan_edges ve). split; [reflexivity|].
  split; [rewrite nan_edges_length; exact Lvn|]. split; [rewrite nan_edges_length; exact Lve|]. split.
  - intros k Hk. rewrite (Hne vn Lvn), (Hne ve Lve) by lia.
    destruct (Nat.ltb_spec k 5); cbn [orb]; [split; reflexivity|].
    destruct (Nat.leb_spec (length lat - 5) k); [split; reflexivity|lia].
  - intros k Hk Hk'. rewrite (Hne vn Lvn), (Hne ve Lve) by lia.
    destruct (Nat.ltb_spec k 5); [lia|]. cbn [orb]. destruct (Nat.leb_spec (length lat - 5) k); [lia|].
    split; f_equal; f_equal.
    + unfold vn. rewrite (map2_nth _ _ _ _ _ _ _ 0 0) by (rewrite !map_length, ?tay10_same_length; lia).
      rewrite (nth_map _ _ _ _ _ _ 0) by (rewrite tay10_same_length; lia).
      rewrite nth_tay10 by lia.
      rewrite (nth_map _ _ _ _ _ _ 0) by (rewrite map_length; lia).
      rewrite (nth_map _ _ _ _ _ _ 0) by lia.
      rewrite !deg2rad_rad. apply vn_factor.
    + unfold ve. rewrite (map3_nth _ _ _ _ _ _ _ _ _ 0 0 0) by (rewrite ?map_length, ?tay10_same_length; lia).
      rewrite (nth_map _ _ _ _ _ _ 0) by (rewrite tay10_same_length; lia).
      rewrite nth_tay10 by lia.
      rewrite (nth_map _ _ _ _ _ _ 0) by (rewrite map_length; lia).
      rewrite (nth_map _ _ _ _ _ _ 0) by lia.
      rewrite !deg2rad_rad. apply ve_factor.
Qed.

(** ** polynomial exactness *)
Lemma diff10_ext f g k : (5 <= k)%nat -> (forall i, (k - 5 <= i <= k + 5)%nat -> f i = g i) -> diff10 f k = diff10 g k.
Proof. intros Hk H. unfold diff10. rewrite !H by lia. reflexivity. Qed.

Lemma diff10_Rsum n (f : nat -> nat -> R) k :
  diff10 (fun i => Rsum n (fun d => f d i)) k = Rsum n (fun d => diff10 (f d) k).
Proof.
  induction n as [|n IH]; cbn [Rsum].
  - unfold diff10. lra.
  - rewrite <- IH. unfold diff10. lra.
Qed.

Lemma diff10_scal c f k : diff10 (fun i => c * f i) k = c * diff10 f k.
Proof. unfold diff10. ring. Qed.

Lemma diff10_pow d k : (d <= 10)%nat -> (5 <= k)%nat ->
  diff10 (fun i => INR i ^ d) k = INR d * INR k ^ (pred d).
Proof.
  intros Hd Hk. unfold diff10. rewrite !plus_INR, !minus_INR by lia.
  set (x := INR k). clearbody x.
  do 11 (destruct d as [|d]; [cbn [INR pred]; field|]). lia.
Qed.

(** derivative of a polynomial as a sum *)
Lemma poly_derivative n c x : derivable_pt_lim (poly n c) x (Rsum n (fun d => c d * (INR d * x ^ pred d))).
Proof.
  unfold poly. induction n as [|n IH]; cbn [Rsum].
  - apply derivable_pt_lim_const.
  - apply (derivable_pt_lim_plus (fun x => Rsum n (fun d => c d * x ^ d)) (fun x => c n * x ^ n)); [exact IH|].
    apply (derivable_pt_lim_scal (fun x => x ^ n)). apply derivable_pt_lim_pow.
Qed.

Lemma diff10_poly n c k : (n <= 11)%nat -> (5 <= k)%nat ->
  diff10 (fun i => poly n c (INR i)) k = Rsum n (fun d => c d * (INR d * INR k ^ pred d)).
Proof.
  intros Hn Hk. unfold poly. rewrite diff10_Rsum. apply Rsum_ext. intros d Hd.
  rewrite diff10_scal, diff10_pow by lia. reflexivity.
Qed.

Lemma diff10_shift f c k : diff10 (fun i => f i + c) k = diff10 f k.
Proof. unfold diff10. ring. Qed.
Lemma diff10_const c k : diff10 (fun _ => c) k = 0.
Proof. unfold diff10. ring. Qed.

Lemma diff10_rev (x : list R) k : (5 <= k)%nat -> (k + 5 < length x)%nat ->
  diff10 (fun i => nth i (rev x) 0) k = - diff10 (fun i => nth i x 0) (length x - 1 - k).
Proof.
  intros H1 H2. unfold diff10. rewrite !rev_nth by lia.
  replace (length x - S (k + 1))%nat with (length x - 1 - k - 1)%nat by lia.
  replace (length x - S (k + 2))%nat with (length x - 1 - k - 2)%nat by lia.
  replace (length x - S (k + 3))%nat with (length x - 1 - k - 3)%nat by lia.
  replace (length x - S (k + 4))%nat with (length x - 1 - k - 4)%nat by lia.
  replace (length x - S (k + 5))%nat with (length x - 1 - k - 5)%nat by lia.
  replace (length x - S (k - 1))%nat with (length x - 1 - k + 1)%nat by lia.
  replace (length x - S (k - 2))%nat with (length x - 1 - k + 2)%nat by lia.
  replace (length x - S (k - 3))%nat with (length x - 1 - k + 3)%nat by lia.
  replace (length x - S (k - 4))%nat with (length x - 1 - k + 4)%nat by lia.
  replace (length x - S (k - 5))%nat with (length x - 1 - k + 5)%nat by lia.
  ring.
Qed.

Lemma parallel_is_distance phi x z : on_ellipse_with_normal phi x z -> x = parallel_radius phi.
Proof.
  intros [He [k [Hk [Hx Hz]]]]. unfold parallel_radius.
  pose proof (sqrt_radicand_pos phi) as Hs.
  assert (Ha : 0 < semi_major ^ 2) by (unfold semi_major; lra).
  assert (Hb : 0 < semi_minor ^ 2) by (unfold semi_minor; lra).
  assert (Ex : x = k * cos phi * semi_major ^ 2 / 2).
  { rewrite <- Hx. field. unfold semi_major; lra. }
  assert (Ez : z = k * sin phi * semi_minor ^ 2 / 2).
  { rewrite <- Hz. field. unfold semi_minor; lra. }
  assert (E : (k / 2 * sqrt ((semi_major * cos phi) ^ 2 + (semi_minor * sin phi) ^ 2)) ^ 2 = 1).
  { rewrite <- He. rewrite Rpow_mult_distr, pow2_sqrt by (left; apply radicand_pos).
    rewrite Ex, Ez. field. split; unfold semi_major, semi_minor; lra. }
  assert (E1 : k / 2 * sqrt ((semi_major * cos phi) ^ 2 + (semi_minor * sin phi) ^ 2) = 1).
  { set (w := k / 2 * _) in *. assert (0 < w) by (unfold w; apply Rmult_lt_0_compat; lra). nra. }
  set (s := sqrt _) in *. rewrite Ex.
  replace k with (2 / s) by (apply (Rmult_eq_reg_r (s / 2)); [field_simplify; [|lra]; lra|lra]).
  field. lra.
Qed.

(** ** explicit result *)
Definition framed (n : nat) (f : nat -> R) : list (option R) :=
  map (fun k => if ((5 <=? k)%nat && (k + 5 <? n)%nat)%bool then Some (f k) else None) (seq 0 n).

Lemma framed_ext n f g : (forall k, (5 <= k)%nat -> (k + 5 < n)%nat -> f k = g k) -> framed n f = framed n g.
Proof.
  intros H. unfold framed. apply map_ext. intros k.
  destruct (Nat.leb_spec 5 k), (Nat.ltb_spec (k + 5) n); cbn [andb]; try reflexivity. rewrite H by assumption. reflexivity.
Qed.

Lemma framed_rev n f : rev (framed n f) = framed n (fun k => f (n - 1 - k)%nat).
Proof.
  apply (list_eq_nth _ _ _ None); unfold framed.
  - rewrite rev_length, !map_length. reflexivity.
  - intros k Hk. rewrite rev_length, map_length, seq_length in Hk.
    rewrite rev_nth by (rewrite map_length, seq_length; exact Hk). rewrite map_length, seq_length.
    rewrite !nth_map_seq by lia.
    replace (n - S k)%nat with (n - 1 - k)%nat by lia.
    destruct (Nat.leb_spec 5 (n - 1 - k)), (Nat.ltb_spec (n - 1 - k + 5) n), (Nat.leb_spec 5 k), (Nat.ltb_spec (k + 5) n);
      cbn [andb]; try reflexivity; lia.
Qed.

Lemma framed_map n f h : map (option_map h) (framed n f) = framed n (fun k => h (f k)).
Proof.
  unfold framed. rewrite map_map. apply map_ext. intros k. destruct (_ && _)%bool; reflexivity.
Qed.

Lemma latlon_to_EN_eq lon lat freq : length lon = length lat -> (10 < length lon)%nat ->
  latlon_to_EN lon lat freq = Ok
   (framed (length lon) (fun k => meridian_radius (rad (nth k lat 0)) * rad (diff10 (fun i => nth i lat 0) k) * freq),
    framed (length lon) (fun k => parallel_radius (rad (nth k lat 0)) * rad (diff10 (fun i => nth i lon 0) k) * freq)).
Proof.
  intros Hl Hn. destruct (latlon_to_EN_form lon lat freq Hl Hn) as [vn [ve [E [L1 [L2 [He Hi]]]]]].
  rewrite E. f_equal.
  assert (H : forall (l : list (option R)) f, length l = length lon ->
    (forall k, (k < 5 \/ length lon - 5 <= k < length lon)%nat -> nth_error l k = Some None) ->
    (forall k, (5 <= k)%nat -> (k + 5 < length lon)%nat -> nth_error l k = Some (Some (f k))) ->
    l = framed (length lon) f).
  { intros l f Ll H1 H2. apply (list_eq_nth _ _ _ None); [unfold framed; rewrite map_length, seq_length; exact Ll|].
    intros k Hk. unfold framed. rewrite nth_map_seq by lia.
    destruct (Nat.leb_spec 5 k), (Nat.ltb_spec (k + 5) (length lon)); cbn [andb].
    - apply nth_error_nth. apply H2; assumption.
    - apply nth_error_nth. apply H1. lia.
    - apply nth_error_nth. apply H1. lia.
    - lia. }
  f_equal; apply H; auto; intros; (apply He || apply Hi); assumption.
Qed.
