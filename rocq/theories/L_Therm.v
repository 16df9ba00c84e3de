(** Lemmas for the plate cooling functions. *)
From Coq Require Import List Reals Arith Lia Lra ZArith.
From Coquelicot Require Import Coquelicot.
From Verif Require Import M_Py M_Erf M_Cursor M_Therm S_Base S_Therm L_Base L_Cursor L_Erf.
Import ListNotations.
Open Scope R_scope.

Lemma secyr_eq : secyr = year_s.
Proof. unfold secyr, year_s. lra. Qed.

Lemma therm_time_spec time u x : u <> 0 -> therm_time time u x = age_s time u x.
Proof.
  intros Hu. unfold therm_time, age_s. rewrite secyr_eq. destruct time.
  - replace 1e6 with 1000000 by lra. ring.
  - unfold year_s. field. lra.
Qed.

Lemma half_T_pos k Tm X Z : 0 < k * X -> half_T k Tm X Z = Some (Tm * erf (Z / (2 * sqrt (k * X)))).
Proof.
  intros H. unfold half_T, np_sqrt, erf_ratio. destruct (Rlt_dec (k * X) 0); [lra|].
  assert (0 < sqrt (k * X)) by (apply sqrt_lt_R0; exact H). destruct (Req_EM_T (sqrt (k * X)) 0); [lra|]. cbn. f_equal. unfold To. ring.
Qed.

Lemma half_W_pos k Tm rhom rhow a X : 0 <= k * X -> half_W k Tm rhom rhow a X = Some (2 * rhom * a * Tm / (rhom - rhow) * sqrt (k * X / PI)).
Proof.
  intros H. unfold half_W, np_sqrt. pose proof PI_RGT_0.
  assert (0 <= k * X / PI) by (apply Rmult_le_pos; [lra|left; apply Rinv_0_lt_compat; lra]).
  destruct (Rlt_dec (k * X / PI) 0); [lra|]. cbn. f_equal. unfold To. rewrite Rminus_0_r. reflexivity.
Qed.

(** ** Heat equation *)
Lemma derivable_pt_lim_is_derive (f : R -> R) x l : is_derive f x l -> derivable_pt_lim f x l.
Proof. apply is_derive_Reals. Qed.

Lemma heat_halfspace k Tm t z : 0 < k -> 0 < t -> heat_equation k (fun t z => Tm * erf (z / (2 * sqrt (k * t)))) t z.
Proof.
  intros Hk Ht. assert (H0 : 0 < k * t) by (apply Rmult_lt_0_compat; assumption). assert (Hs : 0 < sqrt (k * t)) by (apply sqrt_lt_R0; exact H0).
  pose proof sqrtPI_pos as Hpi.
  set (c := Tm * (2 / sqrt PI) / (2 * sqrt (k * t))).
  exists (fun z => c * exp (- (z / (2 * sqrt (k * t))) ^ 2)), (c * (exp (- (z / (2 * sqrt (k * t))) ^ 2) * (- (2 * z / (2 * sqrt (k * t)) ^ 2)))).
  split; [|split].
  - intros z'. apply derivable_pt_lim_is_derive.
    assert (D : is_derive (fun z => Tm * erf (z / (2 * sqrt (k * t)))) z' (Tm * scal (/ (2 * sqrt (k * t))) (2 / sqrt PI * exp (- (z' / (2 * sqrt (k * t))) ^ 2)))).
    { apply is_derive_scal. apply (is_derive_comp erf (fun z => z / (2 * sqrt (k * t)))); [apply erf_is_derive|].
      auto_derive; [exact I|]. field. lra. }
    assert (E : Tm * scal (/ (2 * sqrt (k * t))) (2 / sqrt PI * exp (- (z' / (2 * sqrt (k * t))) ^ 2)) = c * exp (- (z' / (2 * sqrt (k * t))) ^ 2)).
    { unfold c, scal. cbn [Hierarchy.ModuleSpace.sort]. change mult with Rmult. unfold Hierarchy.mult. cbn -[pow]. field. split; lra. }
    rewrite E in D. exact D.
  - apply derivable_pt_lim_is_derive. apply is_derive_scal. auto_derive; [exact I|].
    set (s := 2 * sqrt (k * t)) in *. assert (s <> 0) by (unfold s; lra). cbn [pow]. unfold Rdiv. set (e := exp _). field. exact H.
  - apply derivable_pt_lim_is_derive.
    set (g := fun t => z / (2 * sqrt (k * t))).
    assert (Dg : is_derive g t (- (z * k / (4 * (k * t) * sqrt (k * t))))).
    { unfold g. auto_derive; [repeat split; try exact H0; lra|].
      set (s := sqrt (k * t)) in *. assert (Es : s * s = k * t) by (apply sqrt_sqrt; lra).
      rewrite <- Es. field. lra. }
    assert (D : is_derive (fun t => Tm * erf (g t)) t (Tm * scal (- (z * k / (4 * (k * t) * sqrt (k * t)))) (2 / sqrt PI * exp (- (g t) ^ 2)))).
    { apply is_derive_scal. apply (is_derive_comp erf g); [apply erf_is_derive|exact Dg]. }
    assert (E : Tm * scal (- (z * k / (4 * (k * t) * sqrt (k * t)))) (2 / sqrt PI * exp (- (g t) ^ 2)) = k * (c * (exp (- (z / (2 * sqrt (k * t))) ^ 2) * (- (2 * z / (2 * sqrt (k * t)) ^ 2))))).
    { unfold c, scal. change (g t) with (z / (2 * sqrt (k * t))). cbn [Hierarchy.ModuleSpace.sort]. unfold Hierarchy.mult. cbn -[pow].
      set (e := exp _). assert (Es : sqrt (k * t) * sqrt (k * t) = k * t) by (apply sqrt_sqrt; lra).
      set (s := sqrt (k * t)) in *. replace (4 * (k * t) * s) with (4 * (s * s) * s) by (rewrite Es; ring). field. split; lra. }
    rewrite E in D. exact D.
Qed.

Lemma heat_plus k T1 T2 t z : heat_equation k T1 t z -> heat_equation k T2 t z -> heat_equation k (fun t z => T1 t z + T2 t z) t z.
Proof.
  intros [Tz1 [Tzz1 [A1 [B1 C1]]]] [Tz2 [Tzz2 [A2 [B2 C2]]]]. exists (fun z => Tz1 z + Tz2 z), (Tzz1 + Tzz2). split; [|split].
  - intros z'. apply (derivable_pt_lim_plus (T1 t) (T2 t)); auto.
  - apply (derivable_pt_lim_plus Tz1 Tz2); assumption.
  - rewrite Rmult_plus_distr_l. apply (derivable_pt_lim_plus (fun t => T1 t z) (fun t => T2 t z)); assumption.
Qed.

Lemma heat_scal k c T t z : heat_equation k T t z -> heat_equation k (fun t z => c * T t z) t z.
Proof.
  intros [Tz [Tzz [A [B C]]]]. exists (fun z => c * Tz z), (c * Tzz). split; [|split].
  - intros z'. apply (derivable_pt_lim_scal (T t)); auto.
  - apply (derivable_pt_lim_scal Tz); assumption.
  - replace (k * (c * Tzz)) with (c * (k * Tzz)) by ring. apply (derivable_pt_lim_scal (fun t => T t z)); assumption.
Qed.

Lemma heat_Rsum k n (T : nat -> R -> R -> R) t z : (forall i, heat_equation k (T i) t z) -> heat_equation k (fun t z => Rsum n (fun i => T i t z)) t z.
Proof.
  intros H. induction n as [|n IH]; cbn [Rsum].
  - exists (fun _ => 0), 0. split; [|split]; intros; [apply derivable_pt_lim_const|apply derivable_pt_lim_const|rewrite Rmult_0_r; apply derivable_pt_lim_const].
  - apply (heat_plus k (fun t z => Rsum n (fun i => T i t z)) (T n)); [exact IH|apply H].
Qed.

Lemma heat_linear k L t z : L <> 0 -> heat_equation k (fun _ z => z / L) t z.
Proof.
  intros HL. exists (fun _ => / L), 0. split; [|split].
  - intros z'. apply derivable_pt_lim_is_derive. auto_derive; [exact I|]. field. exact HL.
  - apply derivable_pt_lim_const.
  - rewrite Rmult_0_r. apply derivable_pt_lim_const.
Qed.

Lemma heat_mode k L c n t z : L <> 0 -> heat_equation k (fun t z => c * exp (- (n ^ 2 * PI ^ 2 * k * t / L ^ 2)) * sin (n * PI * z / L)) t z.
Proof.
  intros HL. set (e := fun t => exp (- (n ^ 2 * PI ^ 2 * k * t / L ^ 2))).
  exists (fun z => c * e t * (n * PI / L) * cos (n * PI * z / L)), (- (c * e t * (n * PI / L) ^ 2 * sin (n * PI * z / L))). split; [|split].
  - intros z'. apply derivable_pt_lim_is_derive. auto_derive; [exact I|]. unfold e. cbn [pow]. unfold Rdiv. ring.
  - apply derivable_pt_lim_is_derive. auto_derive; [exact I|]. cbn [pow]. unfold Rdiv. ring.
  - apply derivable_pt_lim_is_derive. unfold e. auto_derive; [exact I|]. cbn [pow]. unfold Rdiv. set (q := exp _). field. exact HL.
Qed.

(** ** Plate model *)
Lemma mode_eq c1 x1 y1 c2 x2 y2 : c1 = c2 -> x1 = x2 -> y1 = y2 -> c1 * exp x1 * sin y1 = c2 * exp x2 * sin y2.
Proof. intros; subst; reflexivity. Qed.

Lemma plate_series_spec k L Tm t z : L <> 0 -> plate_series k L Tm t z = Tm * plate_fraction k L t z.
Proof.
  intros HL. pose proof PI_RGT_0 as Hp. unfold plate_series, plate_fraction, To. cbv zeta. cbn [Rsum Nat.add].
  rewrite Rplus_0_l, Rminus_0_r. f_equal. rewrite <- !Rplus_assoc, Rplus_0_r.
  replace (INR 1) with 1 by (cbn [INR]; lra).
  replace (INR 2) with 2 by (cbn [INR]; lra).
  replace (INR 3) with 3 by (cbn [INR]; lra).
  replace (INR 4) with 4 by (cbn [INR]; lra).
  replace (INR 5) with 5 by (cbn [INR]; lra).
  replace (INR 6) with 6 by (cbn [INR]; lra).
  replace (INR 7) with 7 by (cbn [INR]; lra).
  replace (INR 8) with 8 by (cbn [INR]; lra).
  replace (INR 9) with 9 by (cbn [INR]; lra).
  replace (INR 10) with 10 by (cbn [INR]; lra).
  repeat match goal with |- Rplus _ _ = Rplus _ _ => apply f_equal2 end; try reflexivity; apply mode_eq; field; lra.
Qed.

Lemma plate_W_spec k L Tm rhom rhow a t : L <> 0 -> rhom <> rhow ->
  plate_W k L Tm rhom rhow a t = plate_subsidence rhom rhow a Tm L k t.
Proof.
  intros HL Hr. pose proof PI_RGT_0 as Hp. unfold plate_W, plate_subsidence, To. cbv zeta. rewrite Rminus_0_r. f_equal.
  cbn [Rsum Nat.add Nat.mul]. replace (INR 1) with 1 by (cbn [INR]; lra). replace (INR 3) with 3 by (cbn [INR]; lra). replace (INR 5) with 5 by (cbn [INR]; lra).
  replace (- k * PI ^ 2 * t / L ^ 2) with (- (1 ^ 2 * PI ^ 2 * k * t / L ^ 2)) by (field; lra).
  replace (- k * 9 * PI ^ 2 * t / L ^ 2) with (- (3 ^ 2 * PI ^ 2 * k * t / L ^ 2)) by (field; lra).
  replace (- k * 25 * PI ^ 2 * t / L ^ 2) with (- (5 ^ 2 * PI ^ 2 * k * t / L ^ 2)) by (field; lra).
  set (e1 := exp _). set (e3 := exp _). set (e5 := exp _). field. lra.
Qed.

Lemma sin_multiple n : sin (INR n * PI) = 0.
Proof.
  induction n as [|n IH]; [cbn; rewrite Rmult_0_l; apply sin_0|].
  rewrite S_INR, Rmult_plus_distr_r, Rmult_1_l, neg_sin, IH. ring.
Qed.

Lemma plate_fraction_top k L t : plate_fraction k L t 0 = 0.
Proof.
  unfold plate_fraction. rewrite Rsum_eq0; [unfold Rdiv; ring|]. intros i _. cbv zeta.
  replace (INR (i + 1) * PI * 0 / L) with 0 by (unfold Rdiv; ring). rewrite sin_0. ring.
Qed.

Lemma plate_fraction_base k L t : L <> 0 -> plate_fraction k L t L = 1.
Proof.
  intros HL. unfold plate_fraction. rewrite Rsum_eq0; [field; exact HL|]. intros i _. cbv zeta.
  replace (INR (i + 1) * PI * L / L) with (INR (i + 1) * PI) by (field; exact HL). rewrite sin_multiple. ring.
Qed.

Lemma PI_gt_3 : 3 < PI.
Proof. pose proof PI2_3_2. lra. Qed.

Lemma PI_lt_33 : PI < 3.3.
Proof.
  pose proof (PI_ineq 3) as [_ H]. unfold tg_alt, PI_tg in H. cbn [sum_f_R0 Nat.mul Nat.add] in H.
  cbn [pow INR] in H. lra.
Qed.

Lemma plate_decay k L t z : 0 < k -> L <> 0 -> 0 <= t -> Rabs (plate_fraction k L t z - z / L) <= 2 * exp (- (PI ^ 2 * k * t / L ^ 2)).
Proof.
  intros Hk HL Ht. pose proof PI_gt_3 as Hp.
  assert (H2 : 0 < L ^ 2) by (rewrite <- Rsqr_pow2; apply Rsqr_pos_lt; exact HL).
  assert (Hp2 : 0 < PI ^ 2) by (apply pow_lt; lra).
  unfold plate_fraction. match goal with |- Rabs (?q + ?s - ?q) <= _ => replace (q + s - q) with s by (generalize s; intros; lra) end.
  eapply Rle_trans; [apply Rsum_abs|].
  apply Rle_trans with (Rsum 10 (fun i => 2 / (INR (i + 1) * 3) * exp (- (PI ^ 2 * k * t / L ^ 2)))).
  - apply Rsum_le. intros i _. cbv zeta. assert (Hn : 1 <= INR (i + 1)) by (rewrite plus_INR; cbn [INR]; pose proof (pos_INR i); lra).
    set (n := INR (i + 1)) in *. rewrite !Rabs_mult. rewrite (Rabs_right (exp _)) by (left; apply exp_pos).
    assert (Hs : Rabs (sin (n * PI * z / L)) <= 1) by (pose proof (SIN_bound (n * PI * z / L)); apply Rabs_le; lra).
    assert (Ha : Rabs (2 / (n * PI)) <= 2 / (n * 3)).
    { rewrite Rabs_right by (apply Rle_ge, Rlt_le, Rdiv_lt_0_compat; [lra|apply Rmult_lt_0_compat; lra]).
      apply Rmult_le_compat_l; [lra|]. apply Rinv_le_contravar; [apply Rmult_lt_0_compat; lra|]. apply Rmult_le_compat_l; lra. }
    assert (He : exp (- (n ^ 2 * PI ^ 2 * k * t / L ^ 2)) <= exp (- (PI ^ 2 * k * t / L ^ 2))).
    { assert (- (n ^ 2 * PI ^ 2 * k * t / L ^ 2) <= - (PI ^ 2 * k * t / L ^ 2)).
      { assert (0 <= PI ^ 2 * k * t / L ^ 2) by (apply Rmult_le_pos; [apply Rmult_le_pos; [apply Rmult_le_pos|]; lra|left; apply Rinv_0_lt_compat; exact H2]).
        replace (n ^ 2 * PI ^ 2 * k * t / L ^ 2) with (n ^ 2 * (PI ^ 2 * k * t / L ^ 2)) by (unfold Rdiv; ring). assert (1 <= n ^ 2) by nra. nra. }
      destruct (Rle_lt_or_eq_dec _ _ H) as [L'|L']; [left; apply exp_increasing; exact L'|rewrite L'; lra]. }
    pose proof (exp_pos (- (n ^ 2 * PI ^ 2 * k * t / L ^ 2))). pose proof (Rabs_pos (2 / (n * PI))). pose proof (Rabs_pos (sin (n * PI * z / L))).
    apply Rle_trans with (Rabs (2 / (n * PI)) * exp (- (n ^ 2 * PI ^ 2 * k * t / L ^ 2)) * 1).
    + apply Rmult_le_compat_l; [apply Rmult_le_pos; lra|exact Hs].
    + rewrite Rmult_1_r. apply Rmult_le_compat; lra.
  - rewrite Rsum_scal_r. apply Rmult_le_compat_r; [left; apply exp_pos|]. cbn [Rsum Nat.add]. cbn [INR]. lra.
Qed.

Lemma arange_length start stop step i : 0 < step -> (i < length (arange start stop step))%nat <-> start + INR i * step < stop.
Proof.
  intros Hs. unfold arange. rewrite map_length, seq_length. set (q := (stop - start) / step).
  destruct (base_Int_part (- q)) as [B1 B2]. set (m := Int_part (- q)) in *.
  assert (Q : start + INR i * step < stop <-> INR i < q).
  { unfold q. split; intros H.
    - apply Rmult_lt_reg_r with step; [exact Hs|]. unfold Rdiv. rewrite Rmult_assoc, Rinv_l by lra. lra.
    - apply Rmult_lt_compat_r with (r := step) in H; [|exact Hs]. unfold Rdiv in H. rewrite Rmult_assoc, Rinv_l in H by lra. lra. }
  rewrite Q. rewrite INR_IZR_INZ. split; intros H.
  - assert (H' : (Z.of_nat i <= - m - 1)%Z) by lia. apply IZR_le in H'. rewrite minus_IZR, opp_IZR in H'. lra.
  - assert (H' : IZR (Z.of_nat i) < IZR (- m)) by (rewrite opp_IZR; lra). apply lt_IZR in H'. lia.
Qed.

Lemma arange_nth start stop step i : (i < length (arange start stop step))%nat -> nth i (arange start stop step) 0 = start + INR i * step.
Proof. intros H. unfold arange in *. rewrite map_length, seq_length in H. rewrite (nth_map_seq _ (fun i => start + INR i * step)) by exact H. reflexivity. Qed.

(** ** Heat lost *)
Lemma erfc_le_exp y : 0 <= y -> 1 - erf y <= exp (- y ^ 2).
Proof.
  intros Hy. pose proof (erf_sq_lower y) as H. pose proof (erf_bounds y) as B.
  assert (0 <= erf y) by (destruct Hy as [Hy|<-]; [left; apply erf_pos; exact Hy|rewrite erf_0; lra]). nra.
Qed.

Lemma exp_neg_bound w : 0 < w -> exp (- w) <= / w.
Proof.
  intros H. rewrite exp_Ropp. apply Rinv_le_contravar; [exact H|]. pose proof (exp_ineq1 w ltac:(lra)). lra.
Qed.

Lemma erfc_antiderivative c x : 0 < c ->
  is_derive (fun z => z * (1 - erf (z / c)) - c / sqrt PI * exp (- (z / c) ^ 2)) x (1 - erf (x / c)).
Proof.
  intros Hc. pose proof sqrtPI_pos as Hp.
  assert (D1 : is_derive (fun z => erf (z / c)) x (/ c * (2 / sqrt PI * exp (- (x / c) ^ 2)))).
  { apply (is_derive_comp erf (fun z => z / c)); [apply erf_is_derive|]. auto_derive; [exact I|]. field. lra. }
  assert (D2 : is_derive (fun z => z * (1 - erf (z / c))) x (1 * (1 - erf (x / c)) + x * (0 - / c * (2 / sqrt PI * exp (- (x / c) ^ 2))))).
  { apply (is_derive_mult (fun z => z) (fun z => 1 - erf (z / c))); [apply @is_derive_id| |intros; apply Rmult_comm].
    apply (is_derive_minus (fun _ => 1) (fun z => erf (z / c))); [apply @is_derive_const|exact D1]. }
  assert (D3 : is_derive (fun z => c / sqrt PI * exp (- (z / c) ^ 2)) x (c / sqrt PI * (- (2 * x / c ^ 2) * exp (- (x / c) ^ 2)))).
  { apply is_derive_scal. auto_derive; [exact I|]. cbn [pow]. unfold Rdiv. set (e := exp _). field. lra. }
  assert (D := is_derive_minus _ _ _ _ _ D2 D3).
  replace (1 - erf (x / c)) with (minus (1 * (1 - erf (x / c)) + x * (0 - / c * (2 / sqrt PI * exp (- (x / c) ^ 2)))) (c / sqrt PI * (- (2 * x / c ^ 2) * exp (- (x / c) ^ 2)))); [exact D|].
  unfold minus, plus, opp. cbn -[pow]. set (e := exp _). field. split; lra.
Qed.

Lemma erfc_integral_upto c Z : 0 < c ->
  is_RInt (fun z => 1 - erf (z / c)) 0 Z (Z * (1 - erf (Z / c)) - c / sqrt PI * exp (- (Z / c) ^ 2) + c / sqrt PI).
Proof.
  intros Hc. set (G := fun z => z * (1 - erf (z / c)) - c / sqrt PI * exp (- (z / c) ^ 2)).
  replace (Z * (1 - erf (Z / c)) - c / sqrt PI * exp (- (Z / c) ^ 2) + c / sqrt PI) with (minus (G Z) (G 0)).
  - apply (is_RInt_derive G); intros x _; [apply erfc_antiderivative; exact Hc|].
    apply (ex_derive_continuous (fun z => 1 - erf (z / c))). eexists.
    apply (is_derive_minus (fun _ => 1) (fun z => erf (z / c))); [apply @is_derive_const|].
    apply (is_derive_comp erf (fun z => z / c)); [apply erf_is_derive|]. auto_derive; [exact I|reflexivity].
  - unfold G, minus, plus, opp. cbn -[pow]. replace (- (0 / c) ^ 2) with 0 by (unfold Rdiv; ring). rewrite exp_0. ring.
Qed.

Lemma erfc_integral c Tm : 0 < c -> is_lim (fun Z => RInt (fun z => Tm - Tm * erf (z / c)) 0 Z) p_infty (Tm * (c / sqrt PI)).
Proof.
  intros Hc. pose proof sqrtPI_pos as Hp.
  assert (V : forall Z, RInt (fun z => Tm - Tm * erf (z / c)) 0 Z = Tm * (Z * (1 - erf (Z / c)) - c / sqrt PI * exp (- (Z / c) ^ 2) + c / sqrt PI)).
  { intros Z. apply is_RInt_unique. apply is_RInt_ext with (fun z => scal Tm (1 - erf (z / c))).
    - intros z _. unfold scal. cbn. unfold Hierarchy.mult. cbn. ring.
    - apply (is_RInt_scal (V := R_NormedModule) (fun z => 1 - erf (z / c))). apply erfc_integral_upto. exact Hc. }
  apply is_lim_ext with (fun Z => Tm * (Z * (1 - erf (Z / c)) - c / sqrt PI * exp (- (Z / c) ^ 2) + c / sqrt PI)); [intros Z; symmetry; apply V|].
  set (b := Rabs Tm * (c ^ 2 + c / sqrt PI * c ^ 2)).
  assert (Hb : 0 <= b). { unfold b. apply Rmult_le_pos; [apply Rabs_pos|]. assert (0 < c ^ 2) by (apply pow_lt; exact Hc). assert (0 < c / sqrt PI) by (apply Rdiv_lt_0_compat; assumption). nra. }
  apply is_lim_spec. intros [eps He]. cbn [pos]. exists (Rmax 1 (b / eps + 1)). intros Z HZ.
  assert (H1 : 1 < Z) by (pose proof (Rmax_l 1 (b / eps + 1)); lra). assert (H2 : b / eps + 1 < Z) by (pose proof (Rmax_r 1 (b / eps + 1)); lra).
  assert (Hy : 0 < Z / c) by (apply Rdiv_lt_0_compat; lra).
  assert (HE : exp (- (Z / c) ^ 2) <= c ^ 2 / Z ^ 2).
  { replace (c ^ 2 / Z ^ 2) with (/ ((Z / c) ^ 2)) by (field; split; lra). apply exp_neg_bound. apply pow_lt. exact Hy. }
  pose proof (erfc_le_exp (Z / c) ltac:(lra)) as HQ. pose proof (erf_bounds (Z / c)) as HB. pose proof (exp_pos (- (Z / c) ^ 2)) as HP.
  set (e := exp (- (Z / c) ^ 2)) in *. set (r := 1 - erf (Z / c)) in *.
  assert (Hr : 0 < r) by (unfold r; lra).
  assert (Hcs : 0 < c / sqrt PI) by (apply Rdiv_lt_0_compat; assumption). set (q := c / sqrt PI) in *.
  replace (Tm * (Z * r - q * e + q) - Tm * q) with (Tm * (Z * r - q * e)) by ring. rewrite Rabs_mult.
  assert (HZ2 : c ^ 2 / Z ^ 2 <= c ^ 2 / Z).
  { apply Rmult_le_compat_l; [apply pow2_ge_0|]. apply Rinv_le_contravar; [lra|]. nra. }
  assert (A1 : Z * r <= c ^ 2 / Z).
  { apply Rle_trans with (Z * (c ^ 2 / Z ^ 2)); [apply Rmult_le_compat_l; lra|]. right. field. lra. }
  assert (A2 : q * e <= q * (c ^ 2 / Z)) by (apply Rmult_le_compat_l; lra).
  assert (A3 : Rabs (Z * r - q * e) <= c ^ 2 / Z + q * (c ^ 2 / Z)).
  { assert (0 < Z * r) by (apply Rmult_lt_0_compat; lra). assert (0 < q * e) by (apply Rmult_lt_0_compat; lra). apply Rabs_le. lra. }
  apply Rle_lt_trans with (b / Z).
  - replace (b / Z) with (Rabs Tm * (c ^ 2 / Z + q * (c ^ 2 / Z))) by (unfold b; field; lra). apply Rmult_le_compat_l; [apply Rabs_pos|exact A3].
  - apply Rmult_lt_reg_r with Z; [lra|]. unfold Rdiv. rewrite Rmult_assoc, Rinv_l, Rmult_1_r by lra.
    assert (H3 : b / eps < Z) by lra. apply Rmult_lt_compat_l with (r := eps) in H3; [|exact He]. replace (eps * (b / eps)) with b in H3 by (field; lra). exact H3.
Qed.

Lemma plate_deficit k L Tm t : L <> 0 ->
  RInt (fun z => Tm - Tm * plate_fraction k L t z) 0 L =
  Tm * L * (1 / 2 - 4 / PI ^ 2 * Rsum 5 (fun i => let n := INR (2 * i + 1) in exp (- (n ^ 2 * PI ^ 2 * k * t / L ^ 2)) / n ^ 2)).
Proof.
  intros HL. pose proof PI_RGT_0 as Hp.
  set (m := fun i z => 2 / (INR (i + 1) * PI) * exp (- (INR (i + 1) ^ 2 * PI ^ 2 * k * t / L ^ 2)) * (- (L / (INR (i + 1) * PI)) * cos (INR (i + 1) * PI * z / L))).
  set (G := fun z => Tm * (z - z ^ 2 / (2 * L) - Rsum 10 (fun i => m i z))).
  assert (HN : forall i, 0 < INR (i + 1)) by (intros i; rewrite plus_INR; cbn [INR]; pose proof (pos_INR i); lra).
  assert (Hm : forall i x, is_derive (m i) x (2 / (INR (i + 1) * PI) * exp (- (INR (i + 1) ^ 2 * PI ^ 2 * k * t / L ^ 2)) * sin (INR (i + 1) * PI * x / L))).
  { intros i x. unfold m. specialize (HN i). set (n := INR (i + 1)) in *. apply is_derive_scal. auto_derive; [exact I|]. unfold Rdiv. set (s := sin _). field. repeat split; lra. }
  assert (HS : forall N x, is_derive (fun z => Rsum N (fun i => m i z)) x (Rsum N (fun i => 2 / (INR (i + 1) * PI) * exp (- (INR (i + 1) ^ 2 * PI ^ 2 * k * t / L ^ 2)) * sin (INR (i + 1) * PI * x / L)))).
  { intros N x. induction N as [|N IH]; cbn [Rsum]; [apply @is_derive_const|]. apply (is_derive_plus (fun z => Rsum N (fun i => m i z)) (m N)); [exact IH|apply Hm]. }
  assert (D : forall x, is_derive G x (Tm - Tm * plate_fraction k L t x)).
  { intros x. unfold G. replace (Tm - Tm * plate_fraction k L t x) with (Tm * (1 - x / L - Rsum 10 (fun i => 2 / (INR (i + 1) * PI) * exp (- (INR (i + 1) ^ 2 * PI ^ 2 * k * t / L ^ 2)) * sin (INR (i + 1) * PI * x / L)))) by (unfold plate_fraction; cbv zeta; ring).
    apply is_derive_scal. apply (is_derive_minus (fun z => z - z ^ 2 / (2 * L)) (fun z => Rsum 10 (fun i => m i z))); [|apply HS].
    auto_derive; [exact I|]. field. exact HL. }
  assert (I : is_RInt (fun z => Tm - Tm * plate_fraction k L t z) 0 L (minus (G L) (G 0))).
  { apply (is_RInt_derive G); intros x _; [apply D|].
    apply (continuous_ext (fun x => Tm - Tm * (x / L + Rsum 10 (fun i => 2 / (INR (i + 1) * PI) * exp (- (INR (i + 1) ^ 2 * PI ^ 2 * k * t / L ^ 2)) * sin (INR (i + 1) * PI * x / L))))); [intros; reflexivity|].
    cbn [Rsum]. apply (ex_derive_continuous (V := R_NormedModule)). auto_derive. repeat split; exact I. }
  rewrite (is_RInt_unique (V := R_CompleteNormedModule) _ _ _ _ I). unfold minus, plus, opp. cbn -[pow INR Rsum G]. unfold G.
  assert (CL : forall i, cos (INR (i + 1) * PI * L / L) = (-1) ^ (i + 1)).
  { intros i. replace (INR (i + 1) * PI * L / L) with (INR (i + 1) * PI) by (field; exact HL). induction (i + 1)%nat as [|n IH]; [cbn; rewrite Rmult_0_l; apply cos_0|].
    rewrite S_INR, Rmult_plus_distr_r, Rmult_1_l, neg_cos, IH. cbn [pow]. ring. }
  assert (C0 : forall i, cos (INR (i + 1) * PI * 0 / L) = 1) by (intros i; replace (INR (i + 1) * PI * 0 / L) with 0 by (unfold Rdiv; ring); apply cos_0).
  rewrite (Rsum_ext 10 (fun i => m i L) (fun i => 2 / (INR (i + 1) * PI) * exp (- (INR (i + 1) ^ 2 * PI ^ 2 * k * t / L ^ 2)) * (- (L / (INR (i + 1) * PI)) * (-1) ^ (i + 1)))) by (intros i _; unfold m; rewrite CL; reflexivity).
  rewrite (Rsum_ext 10 (fun i => m i 0) (fun i => 2 / (INR (i + 1) * PI) * exp (- (INR (i + 1) ^ 2 * PI ^ 2 * k * t / L ^ 2)) * (- (L / (INR (i + 1) * PI)) * 1))) by (intros i _; unfold m; rewrite C0; reflexivity).
  cbn [Rsum Nat.add Nat.mul].
  replace (INR 1) with 1 by (cbn; lra). replace (INR 2) with 2 by (cbn; lra). replace (INR 3) with 3 by (cbn; lra).
  replace (INR 4) with 4 by (cbn; lra). replace (INR 5) with 5 by (cbn; lra). replace (INR 6) with 6 by (cbn; lra). replace (INR 7) with 7 by (cbn; lra).
  replace (INR 8) with 8 by (cbn; lra). replace (INR 9) with 9 by (cbn; lra). replace (INR 10) with 10 by (cbn; lra).
  repeat match goal with |- context [exp ?x] => let e := fresh "e" in set (e := exp x) end.
  field. split; lra.
Qed.
