(** Properties C50-C53: crustal thickness. *)
From Coq Require Import List Reals Arith Lia Lra Bool.
From Verif Require Import M_Py M_Fft M_Four M_Crust S_Base S_Four S_Crust L_Base L_Np L_Fft L_Four L_Crust.
Import ListNotations.
Open Scope R_scope.

(** ** C52: taper *)
Lemma crust_wgt_taper k1 k2 k : k1 < k2 -> crust_wgt k1 k2 k = taper k1 k2 k.
Proof.
  intros H. unfold crust_wgt, taper, raised_cosine. cbv zeta.
  destruct (Rlt_dec k2 k), (Rlt_dec k1 k), (Rle_dec k k1), (Rle_dec k k2); try lra.
  replace ((k - k1) / (k2 - k1) * PI) with (PI * ((k - k1) / (k2 - k1))) by ring. lra.
Qed.

Theorem C52_taper : forall k1 k2, k1 < k2 ->
  (forall k, k <= k1 -> crust_wgt k1 k2 k = 1) /\ (forall k, k2 < k -> crust_wgt k1 k2 k = 0) /\
  (forall k, k1 <= k <= k2 -> crust_wgt k1 k2 k = (1 + cos (PI * ((k - k1) / (k2 - k1)))) / 2) /\
  (forall k, 0 <= crust_wgt k1 k2 k <= 1) /\
  (forall k k', k <= k' -> crust_wgt k1 k2 k' <= crust_wgt k1 k2 k) /\
  (forall k k', k1 <= k < k' -> k' <= k2 -> crust_wgt k1 k2 k' < crust_wgt k1 k2 k).
Proof.
  intros k1 k2 H. pose proof PI_RGT_0 as Hp.
  assert (Hr : forall k, k1 <= k <= k2 -> 0 <= (k - k1) / (k2 - k1) <= 1).
  { intros k Hk. split; [apply Rmult_le_pos; [lra|left; apply Rinv_0_lt_compat; lra]|].
    apply Rmult_le_reg_r with (k2 - k1); [lra|]. unfold Rdiv. rewrite Rmult_assoc, Rinv_l by lra. lra. }
  assert (Hs : forall k k', k1 <= k < k' -> k' <= k2 -> raised_cosine k1 k2 k' < raised_cosine k1 k2 k).
  { intros k k' Hk Hk'. unfold raised_cosine. pose proof (Hr k ltac:(lra)) as A. pose proof (Hr k' ltac:(lra)) as B.
    assert (C : (k - k1) / (k2 - k1) < (k' - k1) / (k2 - k1)) by (apply Rmult_lt_compat_r; [apply Rinv_0_lt_compat; lra|lra]).
    assert (cos (PI * ((k' - k1) / (k2 - k1))) < cos (PI * ((k - k1) / (k2 - k1)))); [|lra].
    apply cos_decreasing_1; nra. }
  assert (E1 : raised_cosine k1 k2 k1 = 1).
  { unfold raised_cosine. replace (PI * ((k1 - k1) / (k2 - k1))) with 0 by (field; lra). rewrite cos_0. lra. }
  assert (E2 : raised_cosine k1 k2 k2 = 0).
  { unfold raised_cosine. replace (PI * ((k2 - k1) / (k2 - k1))) with PI by (field; lra). rewrite cos_PI. lra. }
  assert (T : forall k, k1 <= k <= k2 -> taper k1 k2 k = raised_cosine k1 k2 k).
  { intros k Hk. unfold taper. destruct (Rle_dec k k1); [replace k with k1 by lra; lra|]. destruct (Rle_dec k k2); [reflexivity|lra]. }
  assert (B : forall k, 0 <= taper k1 k2 k <= 1).
  { intros k. unfold taper. destruct (Rle_dec k k1); [lra|]. destruct (Rle_dec k k2); [|lra]. unfold raised_cosine.
    pose proof (COS_bound (PI * ((k - k1) / (k2 - k1)))). lra. }
  assert (M : forall k k', k <= k' -> taper k1 k2 k' <= taper k1 k2 k).
  { intros k k' Hk. destruct (Rle_dec k k1) as [L|L]; [unfold taper at 2; destruct (Rle_dec k k1); [apply B|lra]|].
    destruct (Rle_dec k' k2) as [L'|L'].
    - rewrite !T by lra. destruct (Req_dec k k') as [->|N]; [lra|]. left. apply Hs; lra.
    - unfold taper at 1. destruct (Rle_dec k' k1); [lra|]. destruct (Rle_dec k' k2); [lra|]. apply B. }
  repeat split; intros; rewrite ?crust_wgt_taper by exact H; try (apply B).
  - unfold taper. destruct (Rle_dec k k1); [reflexivity|lra].
  - unfold taper. destruct (Rle_dec k k1); [lra|]. destruct (Rle_dec k k2); [lra|reflexivity].
  - apply T. assumption.
  - apply M. assumption.
  - rewrite !T by lra. apply Hs; assumption.
Qed.
Print Assumptions C52_taper.

Theorem C52_taper_continuous : forall k1 k2, k1 < k2 -> continuity (crust_wgt k1 k2).
Proof.
  intros k1 k2 H.
  assert (E : forall k, crust_wgt k1 k2 k = raised_cosine k1 k2 (Rmax k1 (Rmin k k2))).
  { intros k. destruct (C52_taper k1 k2 H) as [A [B [C _]]]. destruct (Rle_dec k k1) as [L|L].
    - rewrite A by exact L. rewrite Rmin_left, Rmax_left by lra. unfold raised_cosine.
      replace (PI * ((k1 - k1) / (k2 - k1))) with 0 by (field; lra). rewrite cos_0. lra.
    - destruct (Rle_dec k k2) as [L'|L'].
      + rewrite C by lra. rewrite Rmin_left, Rmax_right by lra. reflexivity.
      + rewrite B by lra. rewrite Rmin_right, Rmax_right by lra. unfold raised_cosine.
        replace (PI * ((k2 - k1) / (k2 - k1))) with PI by (field; lra). rewrite cos_PI. lra. }
  assert (Lip : forall a k, Rabs (Rmax k1 (Rmin k k2) - Rmax k1 (Rmin a k2)) <= Rabs (k - a)).
  { intros a k. unfold Rmax, Rmin. repeat destruct Rle_dec; unfold Rabs; repeat destruct Rcase_abs; lra. }
  assert (Cl : continuity (fun k => Rmax k1 (Rmin k k2))).
  { intros a eps He. exists eps. split; [exact He|]. intros k [_ Hk]. unfold dist in *. cbn in *. unfold R_dist in *.
    eapply Rle_lt_trans; [apply Lip|exact Hk]. }
  intros a eps He.
  destruct (continuity_comp (fun k => Rmax k1 (Rmin k k2)) (raised_cosine k1 k2) Cl) with (x := a) (eps := eps) as [d [Hd Hk]]; [|exact He|].
  { unfold raised_cosine. apply continuity_mult; [|apply continuity_const; intros ? ?; reflexivity].
    apply continuity_plus; [apply continuity_const; intros ? ?; reflexivity|].
    apply (continuity_comp (fun k => PI * ((k - k1) / (k2 - k1))) cos); [|exact continuity_cos].
    apply derivable_continuous. reg. }
  exists d. split; [exact Hd|]. intros k Hk'. rewrite !E. apply Hk. exact Hk'.
Qed.
Print Assumptions C52_taper_continuous.

Theorem C52_cutoffs_checked : forall ur nx ny dx dy zdown rho wlarge wsmall back, wlarge <= wsmall ->
  crustal_thickness_2D ur nx ny dx dy zdown rho wlarge wsmall back = Raise AssertionError.
Proof. intros. unfold crustal_thickness_2D. destruct (Rlt_dec wsmall wlarge); [lra|reflexivity]. Qed.
Print Assumptions C52_cutoffs_checked.

Theorem C52_size_checked : forall ur nx ny dx dy zdown rho wlarge wsmall back, 0 < wsmall < wlarge -> (1 <= nx)%nat -> (1 <= ny)%nat -> rho <> 0 -> dx <> 0 ->
  length ur <> (nx * ny)%nat -> crustal_thickness_2D ur nx ny dx dy zdown rho wlarge wsmall back = Raise ValueError.
Proof.
  intros ur nx ny dx dy zdown rho wlarge wsmall back Hw Hx Hy Hr Hd HL. unfold crustal_thickness_2D.
  destruct (Rlt_dec wsmall wlarge) as [_|C]; [|lra]. cbn [negb]. cbv zeta.
  destruct (Req_EM_T (wlarge * 1e5) 0) as [C|_]; [exfalso; lra|]. destruct (Req_EM_T (wsmall * 1e5) 0) as [C|_]; [exfalso; lra|].
  rewrite (proj2 (Nat.eqb_neq (nx * ny) 0)) by nia. destruct (Req_EM_T rho 0) as [C|_]; [contradiction|].
  destruct (Req_EM_T (dx * 1e5) 0) as [C|_]; [exfalso; lra|]. rewrite map_length, (proj2 (Nat.eqb_neq _ _) HL). reflexivity.
Qed.
Print Assumptions C52_size_checked.

Example C52_case : crust_wgt 2 4 1 = 1 /\ crust_wgt 2 4 3 = 1 / 2 /\ crust_wgt 2 4 5 = 0.
Proof.
  destruct (C52_taper 2 4 ltac:(lra)) as [A [B [C _]]]. repeat split; [apply A; lra| |apply B; lra].
  rewrite C by lra. replace (PI * ((3 - 2) / (4 - 2))) with (PI / 2) by field. rewrite cos_PI2. lra.
Qed.

(** ** C50: order of the output *)
Lemma phase_negmod f s M N a b i j i' j' : (f = cos /\ s = 1) \/ (f = sin /\ s = -1) -> (i < M)%nat -> (j < N)%nat ->
  f (2 * PI * INR a * INR (i + i') / INR M + 2 * PI * INR b * INR (j + j') / INR N) = s * f (phase2 M N a b (negmod M i) (negmod N j) i' j').
Proof.
  intros Hf Hi Hj. assert (HM : INR M <> 0) by (apply not_0_INR; lia). assert (HN : INR N <> 0) by (apply not_0_INR; lia).
  set (qi := if (i =? 0)%nat then 0%nat else a). set (qj := if (j =? 0)%nat then 0%nat else b).
  assert (E : 2 * PI * INR a * INR (i + i') / INR M + 2 * PI * INR b * INR (j + j') / INR N = - phase2 M N a b (negmod M i) (negmod N j) i' j' + 2 * INR (qi + qj) * PI).
  { unfold phase2, qi, qj. rewrite !negmod_cases by assumption. rewrite !plus_INR.
    destruct (Nat.eqb_spec i 0) as [->|Zi]; destruct (Nat.eqb_spec j 0) as [->|Zj]; rewrite ?minus_INR by lia; cbn [INR]; field; auto. }
  rewrite E. destruct Hf as [[-> ->]|[-> ->]]; [rewrite cos_period, cos_neg|rewrite sin_period, sin_neg]; ring.
Qed.

Lemma double_forward_filtered f s M N w u i j : (f = cos /\ s = 1) \/ (f = sin /\ s = -1) -> (i < M)%nat -> (j < N)%nat ->
  / (INR M * INR N) * double_forward M N w u f i j = s * filtered M N w u f (negmod M i) (negmod N j).
Proof.
  intros Hf Hi Hj. unfold filtered, double_forward. rewrite (Rmult_comm s), Rmult_assoc. f_equal. rewrite (Rmult_comm _ s).
  rewrite <- Rsum_scal. apply Rsum_ext. intros a _. rewrite <- Rsum_scal. apply Rsum_ext. intros b _. rewrite <- Rsum_scal. apply Rsum_ext. intros i' _.
  rewrite <- Rsum_scal. apply Rsum_ext. intros j' _. rewrite (phase_negmod f s) by assumption. ring.
Qed.

Lemma kcuts wsmall wlarge : 0 < wsmall < wlarge -> 2 * PI / (wlarge * 1e5) < 2 * PI / (wsmall * 1e5).
Proof.
  intros H. pose proof PI_RGT_0. apply Rmult_lt_compat_l; [lra|]. apply Rinv_lt_contravar; [|lra]. apply Rmult_lt_0_compat; lra.
Qed.

Lemma crust_k2 nx ny dx dy a b : (a < nx)%nat -> (b < ny)%nat -> dx <> 0 -> crust_kwn nx ny (dx * 1e5) (dy * 1e5) a b = displaced2 nx ny (dx * 1e5) (dy * 1e5) a b.
Proof. intros. apply crust_kwn_spec; try assumption. lra. Qed.

(** Everything the function returns, for every input of the right size: thickness in km is the
    filtered signal (in Gal, sign changed, mean removed) at the point-reversed position; with
    [back], both outputs are reversed once more as flat arrays.  The wavenumbers are the displaced
    ones of C51. *)
Theorem C50_output : forall ur nx ny dx dy zdown rho wlarge wsmall back,
  0 < wsmall < wlarge -> (1 <= nx)%nat -> (1 <= ny)%nat -> rho <> 0 -> dx <> 0 -> length ur = (nx * ny)%nat ->
  exists A B, crustal_thickness_2D ur nx ny dx dy zdown rho wlarge wsmall back = Ok (if back then (rev A, Some (rev B)) else (A, None)) /\
  length A = (nx * ny)%nat /\ length B = (nx * ny)%nat /\
  let u := fun i j => - (nth (i * ny + j) ur 0 - mean ur) / 1000 in
  let k := displaced2 nx ny (dx * 1e5) (dy * 1e5) in
  let wgt := fun a b => taper (2 * PI / (wlarge * 1e5)) (2 * PI / (wsmall * 1e5)) (k a b) in
  let w := fun a b => exp (k a b * (zdown * 1e5)) / (2 * PI * 6.673e-8 * rho) / 1e5 * wgt a b in
  let w' := fun a b => -1000 * wgt a b in
  forall i j, (i < nx)%nat -> (j < ny)%nat ->
    nth (i * ny + j) A C0 = (filtered nx ny w u cos (negmod nx i) (negmod ny j), filtered nx ny w u sin (negmod nx i) (negmod ny j)) /\
    nth (i * ny + j) B C0 = (mean ur + filtered nx ny w' u cos (negmod nx i) (negmod ny j), filtered nx ny w' u sin (negmod nx i) (negmod ny j)).
Proof.
  intros ur nx ny dx dy zdown rho wlarge wsmall back Hw Hx Hy Hr Hd HL.
  destruct (crustal_formula ur nx ny dx dy zdown rho wlarge wsmall back Hw Hx Hy Hr Hd HL) as [A [B [E1 [E2 [E3 E4]]]]].
  exists A, B. split; [exact E1|]. split; [exact E2|]. split; [exact E3|]. intros u k wgt w w' i j Hi Hj.
  cbv zeta in E4. destruct (E4 i j Hi Hj) as [EA EB]. fold u in EA, EB.
  assert (Sc : forall c w1 w2 f s, (f = cos /\ s = 1) \/ (f = sin /\ s = -1) -> (forall a b, (a < nx)%nat -> (b < ny)%nat -> w2 a b = c * w1 a b) ->
    / (INR nx * INR ny) * c * double_forward nx ny w1 u f i j = s * filtered nx ny w2 u f (negmod nx i) (negmod ny j)).
  { intros c w1 w2 f s Hf Hc. rewrite <- (double_forward_filtered f s) by assumption. rewrite Rmult_assoc. f_equal. unfold double_forward.
    rewrite <- Rsum_scal. apply Rsum_ext. intros a Ha. rewrite <- Rsum_scal. apply Rsum_ext. intros b Hb. rewrite <- Rsum_scal. apply Rsum_ext. intros i' _.
    rewrite <- Rsum_scal. apply Rsum_ext. intros j' _. rewrite Hc by assumption. ring. }
  assert (Hc : (cos = cos /\ 1 = 1) \/ (cos = sin /\ 1 = -1)) by (left; auto).
  assert (Hs : (sin = cos /\ -1 = 1) \/ (sin = sin /\ -1 = -1)) by (right; auto).
  set (w1 := fun a b => exp (crust_kwn nx ny (dx * 1e5) (dy * 1e5) a b * (zdown * 1e5)) * topo1_ rho *
               crust_wgt (2 * PI / (wlarge * 1e5)) (2 * PI / (wsmall * 1e5)) (crust_kwn nx ny (dx * 1e5) (dy * 1e5) a b)) in EA.
  set (w2 := fun a b => - crust_wgt (2 * PI / (wlarge * 1e5)) (2 * PI / (wsmall * 1e5)) (crust_kwn nx ny (dx * 1e5) (dy * 1e5) a b)) in EB.
  assert (W1 : forall a b, (a < nx)%nat -> (b < ny)%nat -> w a b = / 1e5 * w1 a b).
  { intros a b Ha Hb. unfold w, w1, wgt, k, topo1_. rewrite crust_k2 by assumption. rewrite crust_wgt_taper by (apply kcuts; exact Hw). unfold Rdiv. ring. }
  assert (W2 : forall a b, (a < nx)%nat -> (b < ny)%nat -> w' a b = 1000 * w2 a b).
  { intros a b Ha Hb. unfold w', w2, wgt, k. rewrite crust_k2 by assumption. rewrite crust_wgt_taper by (apply kcuts; exact Hw). ring. }
  split.
  - rewrite EA. unfold cscal. cbn [fst snd]. unfold Rdiv at 1 2. f_equal.
    + rewrite (Sc _ w1 w cos 1 Hc W1). ring.
    + rewrite Ropp_mult_distr_r_reverse, (Sc _ w1 w sin (-1) Hs W1). ring.
  - rewrite EB. unfold cadd, cscal, cre. cbn [fst snd]. f_equal.
    + rewrite (Sc _ w2 w' cos 1 Hc W2). ring.
    + rewrite Ropp_mult_distr_r_reverse, (Sc _ w2 w' sin (-1) Hs W2). ring.
Qed.
Print Assumptions C50_output.

(** All wavenumbers in the pass band. *)
Lemma wavenumber_nyquist n d m : (m < n)%nat -> d <> 0 -> 0 <= wavenumber n d m <= PI / Rabs d.
Proof.
  intros Hm Hd. pose proof PI_RGT_0. assert (0 < Rabs d) by (apply Rabs_pos_lt; exact Hd). assert (HN : 0 < INR n) by (apply lt_0_INR; lia).
  unfold wavenumber. assert (Hp : 0 < INR n * Rabs d) by (apply Rmult_lt_0_compat; assumption). split.
  - apply Rmult_le_pos; [apply Rmult_le_pos; [lra|apply pos_INR]|left; apply Rinv_0_lt_compat; exact Hp].
  - apply Rmult_le_reg_r with (INR n * Rabs d); [exact Hp|]. unfold Rdiv. rewrite Rmult_assoc, Rinv_l, Rmult_1_r by lra.
    replace (PI * / Rabs d * (INR n * Rabs d)) with (PI * INR n) by (field; lra).
    assert (2 * INR (Nat.min m (n - m)) <= INR n).
    { change 2 with (INR 2). rewrite <- mult_INR. apply le_INR. lia. }
    nra.
Qed.

Lemma pass_band nx ny dx dy w a b : (2 <= nx)%nat -> (dy <> 0 -> (2 <= ny)%nat) -> dx <> 0 -> 0 < w -> resolved dx dy w -> (a < nx)%nat -> (b < ny)%nat ->
  displaced2 nx ny (dx * 1e5) (dy * 1e5) a b <= 2 * PI / (w * 1e5).
Proof.
  intros Hx Hy Hd Hw Hr Ha Hb. pose proof PI_RGT_0 as Hp. unfold displaced2.
  assert (Q : forall n d i, (2 <= n)%nat -> d <> 0 -> (i < n)%nat -> displaced n (d * 1e5) i ^ 2 <= (2 * PI / 1e5) ^ 2 * (1 / (2 * d)) ^ 2).
  { intros n d i Hn Hd' Hi. rewrite displaced_wavenumber by assumption.
    pose proof (wavenumber_nyquist n (d * 1e5) ((i + n - 1) mod n) ltac:(apply Nat.mod_upper_bound; lia) ltac:(lra)) as [A B].
    replace ((2 * PI / 1e5) ^ 2 * (1 / (2 * d)) ^ 2) with ((PI / Rabs (d * 1e5)) ^ 2).
    - apply pow_incr. split; assumption.
    - rewrite Rabs_mult, (Rabs_right 1e5) by lra. replace ((PI / (Rabs d * 1e5)) ^ 2) with ((PI / 1e5) ^ 2 / (Rabs d) ^ 2).
      + rewrite pow2_abs. set (z := 1e5). assert (z <> 0) by (unfold z; lra). field. auto.
      + set (z := 1e5). assert (z <> 0) by (unfold z; lra). assert (Rabs d <> 0) by (apply Rabs_no_R0; exact Hd'). field. auto. }
  apply Rsqr_incr_0_var; [|apply Rmult_le_pos; [lra|left; apply Rinv_0_lt_compat; lra]].
  rewrite Rsqr_sqrt by (apply Rplus_le_le_0_compat; apply pow2_ge_0).
  apply Rle_trans with ((2 * PI / 1e5) ^ 2 * ((1 / (2 * dx)) ^ 2 + (if Req_EM_T dy 0 then 0 else (1 / (2 * dy)) ^ 2))).
  - rewrite Rmult_plus_distr_l. apply Rplus_le_compat; [apply Q; assumption|].
    destruct (Req_EM_T dy 0) as [E'|E']; destruct (Req_EM_T (dy * 1e5) 0) as [E|E].
    + right. ring.
    + exfalso. apply E. rewrite E'. ring.
    + exfalso. apply E'. lra.
    + apply Q; try assumption. apply Hy. exact E'.
  - unfold resolved in Hr. apply Rle_trans with ((2 * PI / 1e5) ^ 2 * (1 / w) ^ 2).
    + apply Rmult_le_compat_l; [apply pow2_ge_0|exact Hr].
    + right. unfold Rsqr. set (z := 1e5). assert (z <> 0) by (unfold z; lra). field. split; [assumption|lra].
Qed.

Lemma filtered_const f s M N c w u i j : (f = cos /\ s = 1) \/ (f = sin /\ s = 0) -> (i < M)%nat -> (j < N)%nat ->
  (forall a b, (a < M)%nat -> (b < N)%nat -> w a b = c) -> filtered M N w u f (negmod M i) (negmod N j) = s * (c * u (negmod M i) (negmod N j)).
Proof.
  intros Hf Hi Hj Hw. assert (HM : INR M <> 0) by (apply not_0_INR; lia). assert (HN : INR N <> 0) by (apply not_0_INR; lia).
  assert (E : exists s', ((f = cos /\ s' = 1) \/ (f = sin /\ s' = -1)) /\ (s' = 1 \/ s' = -1)).
  { destruct Hf as [[-> ->]|[-> ->]]; [exists 1|exists (-1)]; auto. }
  destruct E as [s' [Hs' Hs'']]. pose proof (double_forward_filtered f s' M N w u i j Hs' Hi Hj) as D.
  rewrite (double_forward_ext M N w (fun _ _ => c) u u) in D by (auto; reflexivity).
  rewrite (double_forward_const M N c u f) in D by (tauto || assumption).
  destruct Hf as [[-> ->]|[-> ->]].
  - destruct Hs' as [[_ ->]|[C _]].
    + rewrite cos_0 in D. rewrite Rmult_1_l in D. rewrite <- D. field. auto.
    + exfalso. assert (cos 0 = sin 0) by (rewrite C; reflexivity). rewrite cos_0, sin_0 in *. lra.
  - rewrite sin_0 in D. destruct Hs'' as [->| ->]; lra.
Qed.

(** With no downward continuation and everything in the pass band the thickness is that of a slab;
    the code returns it point-reversed, or with [back], one sample early. *)
Lemma flat_rev nx ny i j {A : Type} (l : list A) d : length l = (nx * ny)%nat -> (i < nx)%nat -> (j < ny)%nat ->
  nth (i * ny + j) (rev l) d = nth ((nx - 1 - i) * ny + (ny - 1 - j)) l d.
Proof. intros L Hi Hj. rewrite rev_nth by nia. f_equal. rewrite L. nia. Qed.

Lemma negmod_rev n i : (i < n)%nat -> negmod n (n - 1 - i) = ((i + 1) mod n)%nat.
Proof.
  intros H. rewrite negmod_cases by lia. destruct (Nat.eqb_spec (n - 1 - i) 0).
  - replace (i + 1)%nat with n by lia. symmetry. apply Nat.mod_same. lia.
  - rewrite Nat.mod_small by lia. lia.
Qed.

Theorem C50_slab_thickness_order : forall ur nx ny dx dy rho wlarge wsmall,
  0 < wsmall < wlarge -> (2 <= nx)%nat -> (1 <= ny)%nat -> (dy <> 0 -> (2 <= ny)%nat) -> rho <> 0 -> dx <> 0 -> resolved dx dy wlarge -> length ur = (nx * ny)%nat ->
  exists A A' B', crustal_thickness_2D ur nx ny dx dy 0 rho wlarge wsmall false = Ok (A, None) /\
    crustal_thickness_2D ur nx ny dx dy 0 rho wlarge wsmall true = Ok (A', Some B') /\
  length A = (nx * ny)%nat /\ length A' = (nx * ny)%nat /\
  forall i j, (i < nx)%nat -> (j < ny)%nat ->
    nth (i * ny + j) A C0 = (slab_km rho (nth (negmod nx i * ny + negmod ny j) ur 0 - mean ur), 0) /\
    nth (i * ny + j) A' C0 = (slab_km rho (nth ((i + 1) mod nx * ny + (j + 1) mod ny) ur 0 - mean ur), 0).
Proof.
  intros ur nx ny dx dy rho wlarge wsmall Hw Hx Hy Hy2 Hr Hd Hres HL. pose proof PI_RGT_0 as Hp.
  destruct (C50_output ur nx ny dx dy 0 rho wlarge wsmall false Hw ltac:(lia) Hy Hr Hd HL) as [A [B [E1 [E2 [_ E4]]]]].
  destruct (C50_output ur nx ny dx dy 0 rho wlarge wsmall true Hw ltac:(lia) Hy Hr Hd HL) as [A' [B' [F1 [F2 [_ F4]]]]].
  exists A, (rev A'), (rev B'). split; [exact E1|]. split; [exact F1|]. split; [exact E2|]. split; [rewrite rev_length; exact F2|].
  cbv zeta in E4, F4.
  set (u := fun i j => - (nth (i * ny + j) ur 0 - mean ur) / 1000) in *.
  set (w := fun a b => exp (displaced2 nx ny (dx * 1e5) (dy * 1e5) a b * (0 * 1e5)) / (2 * PI * 6.673e-8 * rho) / 1e5 *
      taper (2 * PI / (wlarge * 1e5)) (2 * PI / (wsmall * 1e5)) (displaced2 nx ny (dx * 1e5) (dy * 1e5) a b)) in *.
  assert (W : forall a b, (a < nx)%nat -> (b < ny)%nat -> w a b = 1 / (2 * PI * 6.673e-8 * rho) / 1e5).
  { intros a b Ha Hb. unfold w. pose proof (pass_band nx ny dx dy wlarge a b Hx Hy2 Hd ltac:(lra) Hres Ha Hb) as Q.
    unfold taper. destruct (Rle_dec _ _) as [_|C]; [|contradiction]. rewrite !Rmult_0_l, Rmult_0_r, exp_0. lra. }
  assert (K : forall i j, (i < nx)%nat -> (j < ny)%nat -> (filtered nx ny w u cos (negmod nx i) (negmod ny j), filtered nx ny w u sin (negmod nx i) (negmod ny j)) =
     (slab_km rho (nth (negmod nx i * ny + negmod ny j) ur 0 - mean ur), 0)).
  { intros i j Hi Hj. f_equal.
    - rewrite (filtered_const cos 1 nx ny _ w u i j ltac:(auto) Hi Hj W). unfold u, slab_km, Rdiv. ring.
    - rewrite (filtered_const sin 0 nx ny _ w u i j ltac:(auto) Hi Hj W). ring. }
  intros i j Hi Hj. split.
  - rewrite (proj1 (E4 i j Hi Hj)). apply K; assumption.
  - rewrite (flat_rev nx ny) by assumption. rewrite (proj1 (F4 (nx - 1 - i)%nat (ny - 1 - j)%nat ltac:(lia) ltac:(lia))).
    rewrite K by lia. rewrite !negmod_rev by assumption. reflexivity.
Qed.
Print Assumptions C50_slab_thickness_order.

Lemma mean3 a b c : mean [a; b; c] = (a + b + c) / 3.
Proof. unfold mean. cbn. field. Qed.

Theorem C50_input_order_refuted : exists ur nx ny dx dy zdown rho wlarge wsmall A n, 0 < wsmall < wlarge /\ resolved dx dy wlarge /\ zdown = 0 /\ length ur = (nx * ny)%nat /\ (n < nx * ny)%nat /\
  crustal_thickness_2D ur nx ny dx dy zdown rho wlarge wsmall false = Ok (A, None) /\ nth n A C0 <> (slab_km rho (nth n ur 0 - mean ur), 0).
Proof.
  destruct (C50_slab_thickness_order [0; 1; 0] 3 1 1 0 1 2 1) as [A [A' [B' [E1 [_ [E3 [_ E5]]]]]]]; try lra; try lia; try reflexivity.
  { unfold resolved. destruct (Req_EM_T 0 0); lra. }
  exists [0; 1; 0], 3%nat, 1%nat, 1, 0, 0, 1, 2, 1, A, 1%nat. split; [lra|]. split; [unfold resolved; destruct (Req_EM_T 0 0); lra|].
  split; [reflexivity|]. split; [reflexivity|]. split; [cbn; lia|]. split; [exact E1|].
  destruct (E5 1%nat 0%nat ltac:(lia) ltac:(lia)) as [H _]. change (1 * 1 + 0)%nat with 1%nat in H. rewrite H.
  change (negmod 3 1 * 1 + negmod 1 0)%nat with 2%nat. cbn [nth]. rewrite mean3. intros C. injection C as C. unfold slab_km in C.
  pose proof PI_RGT_0 as Hp. set (q := 2 * PI * 6.673e-8 * 1) in *. assert (Hq : 0 < q) by (unfold q; lra).
  unfold Rdiv in C at 1 5. apply Rmult_eq_reg_r in C; [|apply Rinv_neq_0_compat; lra].
  unfold Rdiv in C at 1 4. apply Rmult_eq_reg_r in C; [|apply Rinv_neq_0_compat; lra]. lra.
Qed.
Print Assumptions C50_input_order_refuted.

Example C50_case : negmod 5 0 = 0%nat /\ negmod 5 1 = 4%nat /\ negmod 5 4 = 1%nat.
Proof. repeat split. Qed.

(** ** C51 *)
Theorem C51_displaced_bins : forall nx ny dx dy i j, (2 <= nx)%nat -> (2 <= ny)%nat -> dx <> 0 -> (i < nx)%nat -> (j < ny)%nat ->
  crust_kwn nx ny dx dy i j =
  sqrt (wavenumber nx dx ((i + nx - 1) mod nx) ^ 2 + (if Req_EM_T dy 0 then 0 else wavenumber ny dy ((j + ny - 1) mod ny)) ^ 2).
Proof.
  intros nx ny dx dy i j Hx Hy Hd Hi Hj. rewrite crust_kwn_spec by assumption. rewrite (displaced_wavenumber nx dx i Hx Hi).
  destruct (Req_EM_T dy 0); [reflexivity|]. rewrite (displaced_wavenumber ny dy j Hy Hj). reflexivity.
Qed.
Print Assumptions C51_displaced_bins.

Theorem C51_single_line_bins : forall nx dx i, (2 <= nx)%nat -> dx <> 0 -> (i < nx)%nat ->
  crust_kwn nx 1 dx 0 i 0 = wavenumber nx dx ((i + nx - 1) mod nx).
Proof.
  intros nx dx i Hx Hd Hi. rewrite crust_kwn_spec by (assumption || lia). destruct (Req_EM_T 0 0) as [_|C]; [|contradiction].
  rewrite displaced_wavenumber by assumption. replace (wavenumber nx dx ((i + nx - 1) mod nx) ^ 2 + 0 ^ 2) with (wavenumber nx dx ((i + nx - 1) mod nx) ^ 2) by ring.
  apply sqrt_pow2. apply wavenumber_nyquist; [apply Nat.mod_upper_bound; lia|exact Hd].
Qed.
Print Assumptions C51_single_line_bins.

Theorem C51_mean_bin_wrong : forall nx dx, (2 <= nx)%nat -> dx <> 0 ->
  exists i, (i < nx)%nat /\ crust_kwn nx 1 dx 0 i 0 <> wavenumber nx dx i.
Proof.
  intros nx dx Hx Hd. exists 0%nat. split; [lia|]. rewrite C51_single_line_bins by (assumption || lia).
  rewrite Nat.mod_small by lia. rewrite wavenumber_0. apply Rgt_not_eq. apply wavenumber_pos; [lia|exact Hd].
Qed.
Print Assumptions C51_mean_bin_wrong.

Theorem C51_bin_wavenumbers_refuted : exists nx dx i, (2 <= nx)%nat /\ dx <> 0 /\ (i < nx)%nat /\ crust_kwn nx 1 dx 0 i 0 <> wavenumber nx dx i.
Proof.
  destruct (C51_mean_bin_wrong 8 1 ltac:(lia) ltac:(lra)) as [i [Hi H]]. exists 8%nat, 1, i. repeat split; [lia|lra|exact Hi|exact H].
Qed.
Print Assumptions C51_bin_wavenumbers_refuted.

Definition sin4 (m : nat) : R := match m with 1%nat => 1 | 3%nat => -1 | _ => 0 end.
Lemma sin_quarter a s : sin (2 * PI * INR a * INR s / INR 4 + 2 * PI * INR 0 * INR 0 / INR 1) = sin4 ((a * s) mod 4).
Proof.
  pose proof (Nat.div_mod (a * s) 4 ltac:(lia)) as E. pose proof (Nat.mod_upper_bound (a * s) 4 ltac:(lia)) as L.
  set (q := (a * s / 4)%nat) in *. set (r := ((a * s) mod 4)%nat) in *.
  replace (2 * PI * INR a * INR s / INR 4 + 2 * PI * INR 0 * INR 0 / INR 1) with (INR r * (PI / 2) + 2 * INR q * PI).
  - rewrite sin_period. destruct r as [|[|[|[|r]]]]; try lia; cbn [sin4 INR].
    + rewrite Rmult_0_l. apply sin_0.
    + rewrite Rmult_1_l. apply sin_PI2.
    + replace ((1 + 1) * (PI / 2)) with PI by field. apply sin_PI.
    + replace ((1 + 1 + 1) * (PI / 2)) with (3 * (PI / 2)) by field. apply sin_3PI2.
  - replace (2 * PI * INR a * INR s / INR 4) with (PI / 2 * INR (a * s)) by (rewrite mult_INR; cbn [INR]; field).
    rewrite E, plus_INR, mult_INR. cbn [INR]. field.
Qed.

(** Seen from outside: the thickness of a single cosine is not even real. *)
Theorem C51_real_thickness_refuted : exists ur nx dx zdown rho wlarge wsmall A n, 0 < wsmall < wlarge /\ resolved dx 0 wlarge /\ 0 < zdown /\ length ur = nx /\ (n < nx)%nat /\
  crustal_thickness_2D ur nx 1 dx 0 zdown rho wlarge wsmall false = Ok (A, None) /\ snd (nth n A C0) <> 0.
Proof.
  pose proof PI_RGT_0 as Hp.
  assert (Res : resolved 1 0 2) by (unfold resolved; destruct (Req_EM_T 0 0); lra).
  destruct (crustal_formula [1; 0; -1; 0] 4 1 1 0 1 1 2 1 false) as [A [B [E1 [E2 [_ E4]]]]]; try lra; try lia; try reflexivity.
  exists [1; 0; -1; 0], 4%nat, 1, 1, 1, 2, 1, A, 1%nat. split; [lra|]. split; [exact Res|]. split; [lra|]. split; [reflexivity|]. split; [lia|]. split; [exact E1|].
  cbv zeta in E4. destruct (E4 1%nat 0%nat ltac:(lia) ltac:(lia)) as [H _]. change (1 * 1 + 0)%nat with 1%nat in H. rewrite H. unfold cscal. cbn [snd].
  set (w := fun a b => exp (crust_kwn 4 1 (1 * 1e5) (0 * 1e5) a b * (1 * 1e5)) * topo1_ 1 * crust_wgt (2 * PI / (2 * 1e5)) (2 * PI / (1 * 1e5)) (crust_kwn 4 1 (1 * 1e5) (0 * 1e5) a b)).
  assert (Mn : mean [1; 0; -1; 0] = 0) by (unfold mean; cbn; field). rewrite Mn.
  assert (W : forall a, (a < 4)%nat -> w a 0%nat = exp (wavenumber 4 1e5 ((a + 4 - 1) mod 4) * 1e5) * topo1_ 1).
  { intros a Ha. unfold w. replace (1 * 1e5) with 1e5 by lra. replace (0 * 1e5) with 0 by lra.
    rewrite (C51_single_line_bins 4 1e5 a) by (lia || lra).
    assert (K : wavenumber 4 1e5 ((a + 4 - 1) mod 4) <= 2 * PI / (2 * 1e5)).
    { pose proof (wavenumber_nyquist 4 1e5 ((a + 4 - 1) mod 4) ltac:(apply Nat.mod_upper_bound; lia) ltac:(lra)) as [_ Q]. rewrite Rabs_right in Q by lra. lra. }
    assert (Hk : 2 * PI / (2 * 1e5) < 2 * PI / 1e5) by lra.
    rewrite (proj1 (C52_taper _ _ Hk)) by exact K. ring. }
  set (D := double_forward 4 1 w _ sin 1 0).
  assert (ED : D = 2 / 1000 * (w 3%nat 0%nat - w 1%nat 0%nat)).
  { unfold D, double_forward. cbn [Rsum Nat.add]. rewrite !sin_quarter.
    cbn [Nat.mul Nat.add Nat.modulo Nat.divmod Nat.sub snd fst sin4 nth]. field. }
  rewrite ED. rewrite !W by lia. change ((3 + 4 - 1) mod 4) with 2%nat. change ((1 + 4 - 1) mod 4) with 0%nat. rewrite wavenumber_0, Rmult_0_l, exp_0.
  assert (X : 1 < exp (wavenumber 4 1e5 2 * 1e5)).
  { rewrite <- exp_0 at 1. apply exp_increasing. apply Rmult_lt_0_compat; [apply wavenumber_pos; [lia|lra]|lra]. }
  assert (T : 0 < topo1_ 1) by (unfold topo1_; apply Rdiv_lt_0_compat; lra).
  apply Rlt_not_eq. set (e := exp _) in *. cbn [INR].
  assert (0 < (e - 1) * topo1_ 1) by (apply Rmult_lt_0_compat; lra). lra.
Qed.
Print Assumptions C51_real_thickness_refuted.

Example C51_case : crust_kwn 4 1 1 0 1 0 = 0 /\ 0 < wavenumber 4 1 1.
Proof.
  split; [rewrite C51_single_line_bins by (lia || lra); change ((1 + 4 - 1) mod 4) with 0%nat; apply wavenumber_0|].
  apply wavenumber_pos; [lia|lra].
Qed.

(** ** C53: recovered gravity, one sample early *)
Theorem C53_recovered_gravity : forall ur nx ny dx dy zdown rho wlarge wsmall,
  0 < wsmall < wlarge -> (2 <= nx)%nat -> (1 <= ny)%nat -> (dy <> 0 -> (2 <= ny)%nat) -> rho <> 0 -> dx <> 0 -> resolved dx dy wlarge -> length ur = (nx * ny)%nat ->
  exists A B, crustal_thickness_2D ur nx ny dx dy zdown rho wlarge wsmall true = Ok (A, Some B) /\
  length A = (nx * ny)%nat /\ length B = (nx * ny)%nat /\
  forall i j, (i < nx)%nat -> (j < ny)%nat ->
    nth (i * ny + j) B C0 = (nth ((i + 1) mod nx * ny + (j + 1) mod ny) ur 0, 0).
Proof.
  intros ur nx ny dx dy zdown rho wlarge wsmall Hw Hx Hy Hy2 Hr Hd Hres HL.
  destruct (C50_output ur nx ny dx dy zdown rho wlarge wsmall true Hw ltac:(lia) Hy Hr Hd HL) as [A [B [E1 [E2 [E3 E4]]]]].
  exists (rev A), (rev B). split; [exact E1|]. rewrite !rev_length. split; [exact E2|]. split; [exact E3|].
  intros i j Hi Hj. cbv zeta in E4. rewrite (flat_rev nx ny) by assumption.
  rewrite (proj2 (E4 (nx - 1 - i)%nat (ny - 1 - j)%nat ltac:(lia) ltac:(lia))).
  set (u := fun i j => - (nth (i * ny + j) ur 0 - mean ur) / 1000).
  set (w := fun a b => -1000 * taper (2 * PI / (wlarge * 1e5)) (2 * PI / (wsmall * 1e5)) (displaced2 nx ny (dx * 1e5) (dy * 1e5) a b)).
  assert (W : forall a b, (a < nx)%nat -> (b < ny)%nat -> w a b = -1000).
  { intros a b Ha Hb. unfold w. pose proof (pass_band nx ny dx dy wlarge a b Hx Hy2 Hd ltac:(lra) Hres Ha Hb) as Q.
    unfold taper. destruct (Rle_dec _ _) as [_|C]; [|contradiction]. ring. }
  rewrite (filtered_const cos 1 nx ny (-1000) w u _ _ ltac:(auto)) by (lia || exact W).
  rewrite (filtered_const sin 0 nx ny (-1000) w u _ _ ltac:(auto)) by (lia || exact W).
  rewrite !negmod_rev by assumption. unfold u. f_equal; field.
Qed.
Print Assumptions C53_recovered_gravity.

(** So the gravity is not recovered point by point. *)
Theorem C53_recovered_in_place_refuted : exists ur nx dx zdown rho wlarge wsmall A B n, 0 < wsmall < wlarge /\ resolved dx 0 wlarge /\ length ur = nx /\ (n < nx)%nat /\
  crustal_thickness_2D ur nx 1 dx 0 zdown rho wlarge wsmall true = Ok (A, Some B) /\ fst (nth n B C0) <> nth n ur 0.
Proof.
  destruct (C53_recovered_gravity [5; 0; 0] 3 1 1 0 10 1 2 1) as [A [B [E1 [_ [_ E4]]]]]; try lra; try lia; try reflexivity.
  { unfold resolved. destruct (Req_EM_T 0 0); lra. }
  exists [5; 0; 0], 3%nat, 1, 10, 1, 2, 1, A, B, 0%nat. split; [lra|]. split; [unfold resolved; destruct (Req_EM_T 0 0); lra|].
  split; [reflexivity|]. split; [lia|]. split; [exact E1|].
  pose proof (E4 0%nat 0%nat ltac:(lia) ltac:(lia)) as H. change (0 * 1 + 0)%nat with 0%nat in H. rewrite H.
  change ((0 + 1) mod 3 * 1 + (0 + 1) mod 1)%nat with 1%nat. cbn [fst nth]. lra.
Qed.
Print Assumptions C53_recovered_in_place_refuted.

Example C53_case : exists A B, crustal_thickness_2D [1; 2; 3; 4] 4 1 1 0 10 (2 / 5) 2 1 true = Ok (A, Some B) /\
  nth 0 B C0 = (2, 0) /\ nth 3 B C0 = (1, 0).
Proof.
  destruct (C53_recovered_gravity [1; 2; 3; 4] 4 1 1 0 10 (2 / 5) 2 1) as [A [B [E1 [_ [_ E4]]]]]; try lra; try lia; try reflexivity.
  { unfold resolved. destruct (Req_EM_T 0 0); lra. }
  exists A, B. split; [exact E1|].
  split; [exact (E4 0%nat 0%nat ltac:(lia) ltac:(lia))|exact (E4 3%nat 0%nat ltac:(lia) ltac:(lia))].
Qed.
