(** Properties C46-C49, C75 and C76: plate cooling. *)
From Coq Require Import List Reals Arith Lia Lra ZArith.
From Coquelicot Require Import Coquelicot.
From Verif Require Import M_Py M_Erf M_Cursor M_Therm S_Base S_Therm L_Base L_Cursor L_Erf L_Therm.
Import ListNotations.
Open Scope R_scope.

Notation cell T i j := (nth j (nth i T []) None).

Lemma age_s_const_pos time u x : 0 < u -> 0 <= x -> 0 <= age_s time u x.
Proof.
  intros Hu Hx. unfold age_s, year_s. destruct time; [lra|]. rewrite Rabs_right by lra.
  apply Rmult_le_pos; [|lra]. apply Rmult_le_pos; [exact Hx|left; apply Rinv_0_lt_compat; exact Hu].
Qed.

(** ** C46: half space *)
Lemma half_unfold x z u Tm time rhom rhow a k : u <> 0 -> rhom <> rhow -> z <> [] ->
  therm_halfspace x z u Tm time rhom rhow a k =
  Ok (map (fun Z => map (fun x => half_T k Tm (age_s time u x) Z) x) z, map (fun x => half_W k Tm rhom rhow a (age_s time u x)) x).
Proof.
  intros Hu Hr Hz. unfold therm_halfspace. destruct (Req_EM_T rhom rhow); [contradiction|]. destruct z as [|z0 z]; [contradiction|].
  f_equal. f_equal.
  - apply map_ext. intros Z. rewrite map_map. apply map_ext. intros y. rewrite therm_time_spec by exact Hu. reflexivity.
  - rewrite map_map. apply map_ext. intros y. rewrite therm_time_spec by exact Hu. reflexivity.
Qed.

Theorem C46_half_space_field : forall x z u Tm time rhom rhow a k, u <> 0 -> rhom <> rhow -> z <> [] ->
  exists T W, therm_halfspace x z u Tm time rhom rhow a k = Ok (T, W) /\
  length T = length z /\ length W = length x /\ (forall i, (i < length z)%nat -> length (nth i T []) = length x) /\
  forall j, (j < length x)%nat -> let t := age_s time u (nth j x 0) in
    (0 < k * t -> forall i, (i < length z)%nat -> cell T i j = Some (Tm * erf (nth i z 0 / (2 * sqrt (k * t))))) /\
    (k * t < 0 -> forall i, (i < length z)%nat -> cell T i j = None) /\
    (0 <= k * t -> nth j W None = Some (2 * rhom * a * Tm / (rhom - rhow) * sqrt (k * t / PI))) /\
    (k * t < 0 -> nth j W None = None).
Proof.
  intros x z u Tm time rhom rhow a k Hu Hr Hz. rewrite half_unfold by assumption. eexists. eexists. split; [reflexivity|].
  rewrite !map_length. split; [reflexivity|]. split; [reflexivity|]. split.
  { intros i Hi. rewrite (nth_map _ _ _ _ _ _ 0) by exact Hi. apply map_length. }
  intros j Hj t. repeat split.
  - intros Ht i Hi. rewrite (nth_map _ _ _ _ _ _ 0) by exact Hi. rewrite (nth_map _ _ _ _ _ _ 0) by exact Hj. apply half_T_pos. exact Ht.
  - intros Ht i Hi. rewrite (nth_map _ _ _ _ _ _ 0) by exact Hi. rewrite (nth_map _ _ _ _ _ _ 0) by exact Hj.
    unfold half_T, np_sqrt. fold t. destruct (Rlt_dec (k * t) 0); [reflexivity|lra].
  - intros Ht. rewrite (nth_map _ _ _ _ _ _ 0) by exact Hj. apply half_W_pos. exact Ht.
  - intros Ht. rewrite (nth_map _ _ _ _ _ _ 0) by exact Hj. unfold half_W, np_sqrt. fold t.
    assert (k * t / PI < 0) by (pose proof PI_RGT_0; pose proof (Rinv_0_lt_compat PI H); unfold Rdiv; nra).
    destruct (Rlt_dec (k * t / PI) 0); [reflexivity|lra].
Qed.
Print Assumptions C46_half_space_field.

Lemma ratio_increasing s z z' : 0 < s -> z < z' -> z / (2 * s) < z' / (2 * s).
Proof. intros Hs Hz. apply Rmult_lt_compat_r; [apply Rinv_0_lt_compat; lra|exact Hz]. Qed.

Theorem C46_temperature_physical : forall x z u Tm time rhom rhow a k T W, 0 < u -> rhom <> rhow -> 0 < Tm -> 0 < k ->
  therm_halfspace x z u Tm time rhom rhow a k = Ok (T, W) ->
  forall j, (j < length x)%nat -> let age n := age_s time u (nth n x 0) in 0 < age j ->
  forall i, (i < length z)%nat -> 0 <= nth i z 0 ->
  exists c, cell T i j = Some c /\ 0 <= c < Tm /\ (nth i z 0 = 0 -> c = 0) /\
    (forall i', (i' < length z)%nat -> nth i z 0 < nth i' z 0 -> exists c', cell T i' j = Some c' /\ c < c') /\
    (0 < nth i z 0 -> forall j', (j' < length x)%nat -> age j < age j' -> exists c', cell T i j' = Some c' /\ c' < c).
Proof.
  intros x z u Tm time rhom rhow a k T W Hu Hr HT Hk E j Hj age Hage i Hi Hz.
  assert (Hz0 : z <> []) by (intros ->; cbn in Hi; lia).
  destruct (C46_half_space_field x z u Tm time rhom rhow a k ltac:(lra) Hr Hz0) as [T' [W' [E' [_ [_ [_ C]]]]]].
  rewrite E in E'. assert (T' = T) by congruence. subst T'. clear E E'.
  assert (Hkt : 0 < k * age j) by (apply Rmult_lt_0_compat; assumption).
  destruct (C j Hj) as [Cj _]. fold (age j) in Cj. specialize (Cj Hkt).
  assert (Hs : 0 < sqrt (k * age j)) by (apply sqrt_lt_R0; exact Hkt).
  set (s := sqrt (k * age j)) in *. set (Z := nth i z 0) in *.
  assert (B := erf_bounds (Z / (2 * s))).
  assert (N : 0 <= erf (Z / (2 * s))).
  { destruct Hz as [Hz|Hz]; [left; apply erf_pos; apply Rdiv_lt_0_compat; lra|]. rewrite <- Hz. unfold Rdiv. rewrite Rmult_0_l, erf_0. lra. }
  exists (Tm * erf (Z / (2 * s))). split; [apply Cj; exact Hi|]. split; [split; [apply Rmult_le_pos; lra|nra]|]. split; [|split].
  - intros ->. unfold Rdiv. rewrite Rmult_0_l, erf_0. ring.
  - intros i' Hi' Hzz. exists (Tm * erf (nth i' z 0 / (2 * s))). split; [apply Cj; exact Hi'|].
    apply Rmult_lt_compat_l; [exact HT|]. apply erf_increasing. apply ratio_increasing; assumption.
  - intros HZ j' Hj' Ha. assert (Hkt' : k * age j < k * age j') by (apply Rmult_lt_compat_l; assumption).
    destruct (C j' Hj') as [Cj' _]. fold (age j') in Cj'. specialize (Cj' ltac:(lra) i Hi). eexists. split; [exact Cj'|].
    apply Rmult_lt_compat_l; [exact HT|]. apply erf_increasing. fold Z. apply Rmult_lt_compat_l; [exact HZ|].
    assert (s < sqrt (k * age j')) by (apply sqrt_lt_1; lra). apply Rinv_lt_contravar; [|lra]. apply Rmult_lt_0_compat; lra.
Qed.
Print Assumptions C46_temperature_physical.

Theorem C46_root_age_subsidence : forall x z u Tm time rhom rhow a k T W, 0 < u -> 0 < k ->
  therm_halfspace x z u Tm time rhom rhow a k = Ok (T, W) ->
  forall j, (j < length x)%nat -> 0 <= age_s time u (nth j x 0) ->
  nth j W None = Some (2 * rhom * a * Tm / (rhom - rhow) * sqrt (k / PI) * sqrt (age_s time u (nth j x 0))).
Proof.
  intros x z u Tm time rhom rhow a k T W Hu Hk E j Hj Ht. pose proof PI_RGT_0 as Hp.
  assert (Hr : rhom <> rhow) by (unfold therm_halfspace in E; destruct (Req_EM_T rhom rhow); [discriminate|assumption]).
  assert (Hz : z <> []) by (intros ->; unfold therm_halfspace in E; destruct (Req_EM_T rhom rhow); discriminate).
  destruct (C46_half_space_field x z u Tm time rhom rhow a k ltac:(lra) Hr Hz) as [T' [W' [E' [_ [_ [_ C]]]]]].
  rewrite E in E'. assert (W' = W) by congruence. subst W'. destruct (C j Hj) as [_ [_ [Cj _]]].
  rewrite Cj by (apply Rmult_le_pos; lra). f_equal. rewrite (Rmult_assoc _ (sqrt (k / PI))). f_equal.
  assert (0 <= k / PI) by (left; apply Rdiv_lt_0_compat; lra).
  rewrite <- sqrt_mult by assumption. f_equal. unfold Rdiv. ring.
Qed.
Print Assumptions C46_root_age_subsidence.

(** On the ridge axis: mantle temperature at depth, no temperature (NaN) at the sea floor, no subsidence. *)
Theorem C46_ridge_axis : forall x z u Tm time rhom rhow a k T W, 0 < u -> 0 < k ->
  therm_halfspace x z u Tm time rhom rhow a k = Ok (T, W) ->
  forall j, (j < length x)%nat -> nth j x 0 = 0 ->
  nth j W None = Some 0 /\
  forall i, (i < length z)%nat -> (0 < nth i z 0 -> cell T i j = Some Tm) /\ (nth i z 0 = 0 -> cell T i j = None).
Proof.
  intros x z u Tm time rhom rhow a k T W Hu Hk E j Hj Hx.
  assert (Hr : rhom <> rhow) by (unfold therm_halfspace in E; destruct (Req_EM_T rhom rhow); [discriminate|assumption]).
  assert (Hz : z <> []) by (intros ->; unfold therm_halfspace in E; destruct (Req_EM_T rhom rhow); discriminate).
  assert (H0 : age_s time u (nth j x 0) = 0) by (rewrite Hx; unfold age_s; rewrite Rabs_R0; destruct time; unfold Rdiv; ring).
  split.
  - rewrite (C46_root_age_subsidence x z u Tm time rhom rhow a k T W Hu Hk E j Hj) by (rewrite H0; lra). rewrite H0, sqrt_0. f_equal. ring.
  - rewrite half_unfold in E by (try assumption; lra). apply (f_equal (fun r => match r with Ok p => fst p | Raise _ => [] end)) in E. cbn [fst] in E. subst T.
    intros i Hi. rewrite (nth_map _ _ _ _ _ _ 0) by exact Hi. rewrite (nth_map _ _ _ _ _ _ 0) by exact Hj. rewrite H0.
    unfold half_T, np_sqrt, erf_ratio. rewrite Rmult_0_r. destruct (Rlt_dec 0 0); [lra|]. rewrite sqrt_0. destruct (Req_EM_T 0 0); [|contradiction].
    destruct (Rlt_dec 0 (nth i z 0)) as [L|L]; split; intros H; try lra.
    + cbn. f_equal. unfold To. ring.
    + destruct (Rlt_dec (nth i z 0) 0); [lra|]. reflexivity.
Qed.
Print Assumptions C46_ridge_axis.

Theorem C46_errors : forall x z u Tm time rhom rhow a k,
  (rhom = rhow -> therm_halfspace x z u Tm time rhom rhow a k = Raise ZeroDivisionError) /\
  (rhom <> rhow -> therm_halfspace x [] u Tm time rhom rhow a k = Raise IndexError).
Proof.
  intros. unfold therm_halfspace. split; intros H; destruct (Req_EM_T rhom rhow); try contradiction; reflexivity.
Qed.
Print Assumptions C46_errors.

(** Example: at a distance 3 m and 1 m/yr, the age is three years. *)
Example C46_age : age_s false 1 (-3) = 94672800 /\ age_s true 1 2 = 63115200000000.
Proof. unfold age_s, year_s. rewrite Rabs_left by lra. split; lra. Qed.

Example C46_case : exists T W t1 t2, therm_halfspace [0; 1] [0; 5] 0.01 1350 true 3300 1000 3e-5 1e-6 = Ok (T, W) /\
  T = [[None; Some 0]; [Some 1350; Some t1]] /\ W = [Some 0; Some t2] /\ 0 < t1 < 1350 /\ 0 < t2.
Proof.
  destruct (C46_half_space_field [0; 1] [0; 5] 0.01 1350 true 3300 1000 3e-5 1e-6) as [T [W [E [L1 [L2 [L3 C]]]]]]; [lra|lra|discriminate|].
  assert (R1 := L3 0%nat ltac:(cbn; lia)). assert (R2 := L3 1%nat ltac:(cbn; lia)).
  destruct T as [|r1 [|r2 [|]]]; try discriminate. cbn [nth length] in R1, R2. destruct r1 as [|a1 [|a2 [|]]]; try discriminate. destruct r2 as [|b1 [|b2 [|]]]; try discriminate.
  destruct W as [|w1 [|w2 [|]]]; try discriminate.
  destruct (C46_ridge_axis [0; 1] [0; 5] 0.01 1350 true 3300 1000 3e-5 1e-6 _ _ ltac:(lra) ltac:(lra) E 0%nat ltac:(cbn; lia) eq_refl) as [A B].
  destruct (B 0%nat ltac:(cbn; lia)) as [_ B0]. destruct (B 1%nat ltac:(cbn; lia)) as [B1 _]. cbn [nth] in A, B0, B1.
  assert (Ha : 0 < age_s true 0.01 (nth 1 [0; 1] 0)) by (unfold age_s, year_s; cbn [nth]; lra).
  destruct (C46_temperature_physical [0; 1] [0; 5] 0.01 1350 true 3300 1000 3e-5 1e-6 _ _ ltac:(lra) ltac:(lra) ltac:(lra) ltac:(lra) E 1%nat ltac:(cbn; lia) Ha 0%nat ltac:(cbn; lia) ltac:(cbn; lra)) as [c [D1 [D2 [D3 [D4 _]]]]].
  destruct (D4 1%nat ltac:(cbn; lia) ltac:(cbn; lra)) as [c' [F1 F2]]. cbn [nth] in D1, F1. rewrite (D3 eq_refl) in *.
  destruct (C46_temperature_physical [0; 1] [0; 5] 0.01 1350 true 3300 1000 3e-5 1e-6 _ _ ltac:(lra) ltac:(lra) ltac:(lra) ltac:(lra) E 1%nat ltac:(cbn; lia) Ha 1%nat ltac:(cbn; lia) ltac:(cbn; lra)) as [d [G1 [G2 _]]].
  cbn [nth] in G1. assert (c' = d) by congruence. subst d.
  pose proof (C46_root_age_subsidence [0; 1] [0; 5] 0.01 1350 true 3300 1000 3e-5 1e-6 _ _ ltac:(lra) ltac:(lra) E 1%nat ltac:(cbn; lia) ltac:(lra)) as W2. cbn [nth] in W2.
  eexists. eexists. exists c'. eexists. split; [exact E|]. rewrite B0, B1 by lra. rewrite D1, F1, A, W2. split; [reflexivity|]. split; [reflexivity|]. split; [lra|].
  apply Rmult_lt_0_compat; [apply Rmult_lt_0_compat; [lra|]|]; apply sqrt_lt_R0; [apply Rdiv_lt_0_compat; [lra|apply PI_RGT_0]|exact Ha].
Qed.

(** ** C47: isotherms of the half space *)
Theorem C47_isotherm_round_trip : forall x T u Tm time rhom rhow a k, 0 < u -> rhom <> rhow -> 0 < k -> 0 < T < Tm -> x <> [] ->
  (forall d, In d x -> 0 < age_s time u d) ->
  exists depths W, therm_Z_halfspace x T u Tm time rhom rhow a k = Ok (map (fun d => Some (Finite d)) depths, W) /\
    length depths = length x /\ (forall d, In d depths -> 0 < d) /\
    exists F, therm_halfspace x depths u Tm time rhom rhow a k = Ok (F, W) /\
      forall j, (j < length x)%nat -> cell F j j = Some T.
Proof.
  intros x T u Tm time rhom rhow a k Hu Hr Hk HT Hx Hage.
  assert (Hy : 0 < (T - Tm) / (To - Tm) < 1).
  { unfold To. replace ((T - Tm) / (0 - Tm)) with ((Tm - T) / Tm) by (field; lra).
    split; [apply Rdiv_lt_0_compat; lra|]. apply Rmult_lt_reg_r with Tm; [lra|]. unfold Rdiv. rewrite Rmult_assoc, Rinv_l by lra. lra. }
  destruct (erfcinv_spec ((T - Tm) / (To - Tm)) ltac:(lra)) as [r [Er Hr']].
  assert (Hrp : 0 < r).
  { destruct (Rlt_le_dec 0 r) as [H|H]; [exact H|]. exfalso. destruct H as [H|H]; [apply erf_neg in H; lra|subst r; rewrite erf_0 in Hr'; lra]. }
  set (depth := fun d => 2 * sqrt (k * age_s time u d) * r).
  exists (map depth x), (map (fun x => half_W k Tm rhom rhow a (age_s time u x)) x).
  assert (Hpos : forall d, In d x -> 0 < k * age_s time u d) by (intros d Hd; apply Rmult_lt_0_compat; [exact Hk|apply Hage; exact Hd]).
  split; [|split; [apply map_length|split]].
  - unfold therm_Z_halfspace. destruct (Req_EM_T Tm To) as [Q|_]; [unfold To in Q; lra|]. destruct (Req_EM_T rhom rhow); [contradiction|].
    f_equal. f_equal.
    + rewrite !map_map. apply map_ext_in. intros d Hd. rewrite therm_time_spec by lra. unfold np_sqrt. rewrite Er.
      pose proof (Hpos d Hd). destruct (Rlt_dec (k * age_s time u d) 0); [lra|]. reflexivity.
    + rewrite map_map. apply map_ext. intros d. rewrite therm_time_spec by lra. reflexivity.
  - intros d Hd. apply in_map_iff in Hd. destruct Hd as [y [<- Hy']]. unfold depth.
    apply Rmult_lt_0_compat; [|exact Hrp]. apply Rmult_lt_0_compat; [lra|]. apply sqrt_lt_R0, Hpos. exact Hy'.
  - assert (Hd0 : map depth x <> []) by (destruct x; [contradiction|discriminate]).
    rewrite half_unfold by (try assumption; lra). eexists. split; [reflexivity|].
    intros j Hj. rewrite (nth_map _ _ _ _ _ _ 0) by (rewrite map_length; exact Hj). rewrite (nth_map _ _ _ _ _ _ 0) by exact Hj.
    rewrite (nth_map _ _ _ _ _ _ 0) by exact Hj.
    assert (Hin : In (nth j x 0) x) by (apply nth_In; exact Hj). pose proof (Hpos _ Hin) as P1.
    rewrite half_T_pos by exact P1. unfold depth. assert (0 < sqrt (k * age_s time u (nth j x 0))) by (apply sqrt_lt_R0; exact P1).
    replace (2 * sqrt (k * age_s time u (nth j x 0)) * r / (2 * sqrt (k * age_s time u (nth j x 0)))) with r by (field; lra).
    f_equal. replace (erf r) with (1 - (T - Tm) / (To - Tm)) by lra. unfold To. field. lra.
Qed.
Print Assumptions C47_isotherm_round_trip.

(** The coldest isotherm is the sea floor, the mantle temperature is at infinite depth, and hotter or much colder isotherms do not exist. *)
Theorem C47_extreme_isotherms : forall x T u Tm time rhom rhow a k Z W, 0 < u -> 0 < k -> 0 < Tm ->
  therm_Z_halfspace x T u Tm time rhom rhow a k = Ok (Z, W) ->
  forall j, (j < length x)%nat -> 0 < age_s time u (nth j x 0) ->
  (T = 0 -> nth j Z None = Some (Finite 0)) /\ (T = Tm -> nth j Z None = Some p_infty) /\
  (Tm < T -> nth j Z None = None) /\ (T < - Tm -> nth j Z None = None).
Proof.
  intros x T u Tm time rhom rhow a k Z W Hu Hk HT E j Hj Ht. unfold therm_Z_halfspace in E.
  destruct (Req_EM_T Tm To) as [Q|_]; [discriminate|]. destruct (Req_EM_T rhom rhow); [discriminate|].
  apply (f_equal (fun r => match r with Ok p => fst p | Raise _ => [] end)) in E. cbn [fst] in E. subst Z.
  rewrite map_map. rewrite (nth_map _ _ _ _ _ _ 0) by exact Hj. rewrite therm_time_spec by lra. set (t := age_s time u (nth j x 0)) in *.
  assert (P1 : 0 < k * t) by (apply Rmult_lt_0_compat; assumption). assert (P2 : 0 < sqrt (k * t)) by (apply sqrt_lt_R0; exact P1).
  unfold np_sqrt. destruct (Rlt_dec (k * t) 0); [lra|]. unfold To. repeat split; intros H.
  - subst T. replace ((0 - Tm) / (0 - Tm)) with (1 - erf 0) by (rewrite erf_0; field; lra). rewrite erfcinv_erf. cbn. f_equal. f_equal. ring.
  - subst T. replace ((Tm - Tm) / (0 - Tm)) with 0 by (field; lra). rewrite erfcinv_0. unfold Rbar_mult'. destruct (Rle_dec 0 (2 * sqrt (k * t))) as [L|L]; [|lra].
    destruct (Rle_lt_or_eq_dec 0 (2 * sqrt (k * t)) L); [reflexivity|lra].
  - assert ((T - Tm) / (0 - Tm) < 0).
    { replace ((T - Tm) / (0 - Tm)) with (- ((T - Tm) / Tm)) by (field; lra). assert (0 < (T - Tm) / Tm) by (apply Rdiv_lt_0_compat; lra). lra. }
    unfold erfcinv. destruct (Rlt_dec ((T - Tm) / (0 - Tm)) 0); [reflexivity|lra].
  - assert (2 < (T - Tm) / (0 - Tm)).
    { replace ((T - Tm) / (0 - Tm)) with (2 + (- Tm - T) / Tm) by (field; lra). assert (0 < (- Tm - T) / Tm) by (apply Rdiv_lt_0_compat; lra). lra. }
    unfold erfcinv. destruct (Rlt_dec ((T - Tm) / (0 - Tm)) 0); [reflexivity|]. destruct (Rlt_dec 2 ((T - Tm) / (0 - Tm))); [reflexivity|lra].
Qed.
Print Assumptions C47_extreme_isotherms.

Lemma times_agree u v x : 0 < u -> map (therm_time true v) (map (fun d => Rabs d / u / 1000000) x) = map (therm_time false u) x.
Proof.
  intros Hu. rewrite map_map. apply map_ext. intros d. unfold therm_time, secyr. replace 1e6 with 1000000 by lra.
  replace (365.25 * 24 * 3600) with 31557600 by lra. field. lra.
Qed.

(** Ages in Myr computed from the distances give the results of the distances, whatever spreading rate is passed with them. *)
Theorem C47_distance_and_age_agree : forall x u v zL0 Tm rhom rhow a k, 0 < u -> let ages := map (fun d => Rabs d / u / 1000000) x in
  (forall z, therm_halfspace ages z v Tm true rhom rhow a k = therm_halfspace x z u Tm false rhom rhow a k) /\
  (forall T, therm_Z_halfspace ages T v Tm true rhom rhow a k = therm_Z_halfspace x T u Tm false rhom rhow a k) /\
  (forall z, therm_plate ages z v zL0 Tm true rhom rhow a k = therm_plate x z u zL0 Tm false rhom rhow a k) /\
  (forall T z0 z1 dz, therm_Z_plate ages T v zL0 Tm true z0 z1 dz rhom rhow a k = therm_Z_plate x T u zL0 Tm false z0 z1 dz rhom rhow a k).
Proof.
  intros x u v zL0 Tm rhom rhow a k Hu ages.
  assert (P : forall z, therm_plate ages z v zL0 Tm true rhom rhow a k = therm_plate x z u zL0 Tm false rhom rhow a k).
  { intros z. unfold therm_plate, ages. rewrite times_agree by exact Hu. reflexivity. }
  split; [|split; [|split]].
  - intros z. unfold therm_halfspace, ages. rewrite times_agree by exact Hu. reflexivity.
  - intros T. unfold therm_Z_halfspace, ages. rewrite times_agree by exact Hu. reflexivity.
  - exact P.
  - intros. unfold therm_Z_plate. rewrite P. unfold ages. rewrite map_length. reflexivity.
Qed.
Print Assumptions C47_distance_and_age_agree.

Theorem C47_errors : forall x T u Tm time rhom rhow a k,
  Tm = 0 \/ rhom = rhow -> therm_Z_halfspace x T u Tm time rhom rhow a k = Raise ZeroDivisionError.
Proof.
  intros x T u Tm time rhom rhow a k H. unfold therm_Z_halfspace, To. destruct (Req_EM_T Tm 0); [reflexivity|]. destruct (Req_EM_T rhom rhow); [reflexivity|].
  destruct H; contradiction.
Qed.
Print Assumptions C47_errors.

Example C47_case : exists d W, therm_Z_halfspace [4] 600 0.01 1200 true 3300 1000 3e-5 1e-6 = Ok ([Some (Finite d)], W) /\ 0 < d /\
  exists F, therm_halfspace [4] [d] 0.01 1200 true 3300 1000 3e-5 1e-6 = Ok (F, W) /\ cell F 0 0 = Some 600.
Proof.
  destruct (C47_isotherm_round_trip [4] 600 0.01 1200 true 3300 1000 3e-5 1e-6) as [ds [W [A [B [C [F [D E]]]]]]]; try lra; [discriminate| |].
  - intros d [<-|[]]. unfold age_s, year_s. lra.
  - destruct ds as [|d [|]]; try discriminate. exists d, W. split; [exact A|]. split; [apply C; left; reflexivity|]. exists F. split; [exact D|]. apply (E 0%nat). cbn. lia.
Qed.

(** ** C48: plate model *)
Notation rcell T i j := (nth j (nth i T []) 0).

Lemma plate_unfold x z u L Tm time rhom rhow a k : u <> 0 -> L <> 0 -> rhom <> rhow -> z <> [] ->
  therm_plate x z u L Tm time rhom rhow a k =
  Ok (map (fun Z => map (fun x => plate_T k L Tm (age_s time u x) Z) x) z, map (fun x => plate_subsidence rhom rhow a Tm L k (age_s time u x)) x).
Proof.
  intros Hu HL Hr Hz. unfold therm_plate. destruct (Req_EM_T rhom rhow); [contradiction|]. destruct z as [|z0 z]; [contradiction|].
  f_equal. f_equal.
  - apply map_ext. intros Z. unfold plate_row, plate_T. destruct (Rlt_dec L Z); rewrite map_map; apply map_ext; intros y; [reflexivity|].
    rewrite therm_time_spec by exact Hu. apply plate_series_spec. exact HL.
  - rewrite map_map. apply map_ext. intros y. rewrite therm_time_spec by exact Hu. apply plate_W_spec; assumption.
Qed.

Theorem C48_plate_field : forall x z u L Tm time rhom rhow a k, u <> 0 -> L <> 0 -> rhom <> rhow -> z <> [] ->
  exists T W, therm_plate x z u L Tm time rhom rhow a k = Ok (T, W) /\
  length T = length z /\ length W = length x /\ (forall i, (i < length z)%nat -> length (nth i T []) = length x) /\
  forall j, (j < length x)%nat -> let t := age_s time u (nth j x 0) in
    nth j W 0 = plate_subsidence rhom rhow a Tm L k t /\
    forall i, (i < length z)%nat ->
      (nth i z 0 <= L -> rcell T i j = Tm * plate_fraction k L t (nth i z 0)) /\
      (L <= nth i z 0 -> rcell T i j = Tm) /\ (nth i z 0 = 0 -> 0 < L -> rcell T i j = 0).
Proof.
  intros x z u L Tm time rhom rhow a k Hu HL Hr Hz. rewrite plate_unfold by assumption. eexists. eexists. split; [reflexivity|].
  rewrite !map_length. split; [reflexivity|]. split; [reflexivity|]. split.
  { intros i Hi. rewrite (nth_map _ _ _ _ _ _ 0) by exact Hi. apply map_length. }
  intros j Hj t. split; [rewrite (nth_map _ _ _ _ _ _ 0) by exact Hj; reflexivity|]. intros i Hi.
  rewrite (nth_map _ _ _ _ _ _ 0) by exact Hi. rewrite (nth_map _ _ _ _ _ _ 0) by exact Hj. fold t. unfold plate_T.
  destruct (Rlt_dec L (nth i z 0)) as [G|G]; repeat split; intros; try lra.
  - replace (nth i z 0) with L by lra. rewrite plate_fraction_base by exact HL. ring.
  - rewrite H. rewrite plate_fraction_top. ring.
Qed.
Print Assumptions C48_plate_field.

(** As the plate ages its temperature approaches the linear profile, exponentially. *)
Theorem C48_old_plate : forall x z u L Tm time rhom rhow a k T W, u <> 0 -> L <> 0 -> 0 < k ->
  therm_plate x z u L Tm time rhom rhow a k = Ok (T, W) ->
  forall i j, (i < length z)%nat -> (j < length x)%nat -> nth i z 0 <= L -> 0 <= age_s time u (nth j x 0) ->
  Rabs (rcell T i j - Tm * (nth i z 0 / L)) <= 2 * Rabs Tm * exp (- (PI ^ 2 * k * age_s time u (nth j x 0) / L ^ 2)).
Proof.
  intros x z u L Tm time rhom rhow a k T W Hu HL Hk E i j Hi Hj Hz Ht.
  assert (Hz0 : z <> []) by (intros ->; cbn in Hi; lia).
  assert (Hr : rhom <> rhow) by (unfold therm_plate in E; destruct z; [contradiction|]; destruct (Req_EM_T rhom rhow); [discriminate|assumption]).
  destruct (C48_plate_field x z u L Tm time rhom rhow a k Hu HL Hr Hz0) as [T' [W' [E' [_ [_ [_ C]]]]]].
  rewrite E in E'. assert (T' = T) by congruence. subst T'. destruct (C j Hj) as [_ Cj]. destruct (Cj i Hi) as [Ci _]. rewrite Ci by exact Hz.
  rewrite <- Rmult_minus_distr_l, Rabs_mult. replace (2 * Rabs Tm * exp (- (PI ^ 2 * k * age_s time u (nth j x 0) / L ^ 2))) with (Rabs Tm * (2 * exp (- (PI ^ 2 * k * age_s time u (nth j x 0) / L ^ 2)))) by ring.
  apply Rmult_le_compat_l; [apply Rabs_pos|]. apply plate_decay; assumption.
Qed.
Print Assumptions C48_old_plate.

Lemma exp_mode n k L t t' : 0 < k -> L <> 0 -> 0 < n -> t < t' -> exp (- (n ^ 2 * PI ^ 2 * k * t' / L ^ 2)) < exp (- (n ^ 2 * PI ^ 2 * k * t / L ^ 2)).
Proof.
  intros Hk HL Hn Ht. apply exp_increasing. apply Ropp_lt_contravar.
  assert (H2 : 0 < / L ^ 2) by (apply Rinv_0_lt_compat; rewrite <- Rsqr_pow2; apply Rsqr_pos_lt; exact HL).
  assert (0 < n ^ 2 * PI ^ 2 * k) by (apply Rmult_lt_0_compat; [apply Rmult_lt_0_compat; apply pow_lt; [exact Hn|apply PI_RGT_0]|exact Hk]).
  unfold Rdiv. apply Rmult_lt_compat_r; [exact H2|]. apply Rmult_lt_compat_l; assumption.
Qed.

(** Subsidence increases with age, stays below its asymptote and comes as near to it as the exponential allows. *)
Theorem C48_subsidence : forall x z u L Tm time rhom rhow a k T W, u <> 0 -> 0 < L -> 0 < k -> 0 < rhom * a * Tm / (rhom - rhow) ->
  therm_plate x z u L Tm time rhom rhow a k = Ok (T, W) ->
  let age n := age_s time u (nth n x 0) in let limit := rhom * a * Tm * L / (rhom - rhow) / 2 in
  forall j, (j < length x)%nat -> nth j W 0 < limit /\
    (0 <= age j -> limit * (1 - exp (- (PI ^ 2 * k * age j / L ^ 2))) < nth j W 0) /\
    (forall j', (j' < length x)%nat -> age j < age j' -> nth j W 0 < nth j' W 0).
Proof.
  intros x z u L Tm time rhom rhow a k T W Hu HL Hk Hc E age limit j Hj.
  assert (Hz0 : z <> []) by (intros ->; discriminate E).
  assert (Hr : rhom <> rhow) by (unfold therm_plate in E; destruct z; [contradiction|]; destruct (Req_EM_T rhom rhow); [discriminate|assumption]).
  destruct (C48_plate_field x z u L Tm time rhom rhow a k Hu ltac:(lra) Hr Hz0) as [T' [W' [E' [_ [_ [_ C]]]]]].
  rewrite E in E'. assert (W' = W) by congruence. subst W'. destruct (C j Hj) as [Wj _]. fold (age j) in Wj.
  set (c := rhom * a * Tm * L / (rhom - rhow)) in *. assert (HC : 0 < c).
  { unfold c. replace (rhom * a * Tm * L / (rhom - rhow)) with (rhom * a * Tm / (rhom - rhow) * L) by (unfold Rdiv; ring). apply Rmult_lt_0_compat; assumption. }
  set (q := 4 / PI ^ 2). assert (Hp := PI_gt_3). assert (Hq : 0 < q < 4 / 9).
  { unfold q. assert (9 < PI ^ 2) by nra. split; [apply Rdiv_lt_0_compat; lra|]. apply Rmult_lt_compat_l; [lra|]. apply Rinv_lt_contravar; lra. }
  assert (F : forall t, plate_subsidence rhom rhow a Tm L k t = c * (1 / 2 - q * (exp (- (1 ^ 2 * PI ^ 2 * k * t / L ^ 2)) + exp (- (3 ^ 2 * PI ^ 2 * k * t / L ^ 2)) / 9 + exp (- (5 ^ 2 * PI ^ 2 * k * t / L ^ 2)) / 25))).
  { intros t. unfold plate_subsidence. fold c. fold q. cbn [Rsum Nat.mul Nat.add]. replace (INR 1) with 1 by (cbn; lra). replace (INR 3) with 3 by (cbn; lra). replace (INR 5) with 5 by (cbn; lra). lra. }
  rewrite Wj, F. set (e1 := exp _). set (e3 := exp _). set (e5 := exp _).
  assert (P1 : 0 < e1) by apply exp_pos. assert (P3 : 0 < e3) by apply exp_pos. assert (P5 : 0 < e5) by apply exp_pos.
  assert (P : 0 < q * (e1 + e3 / 9 + e5 / 25)) by (apply Rmult_lt_0_compat; lra).
  split; [|split].
  - unfold limit. nra.
  - intros Ha. replace (PI ^ 2 * k * age j / L ^ 2) with (1 ^ 2 * PI ^ 2 * k * age j / L ^ 2) by (unfold Rdiv; ring). fold e1. unfold limit.
    assert (M : forall n, 1 <= n -> exp (- (n ^ 2 * PI ^ 2 * k * age j / L ^ 2)) <= e1).
    { intros n Hn. unfold e1. assert (H : - (n ^ 2 * PI ^ 2 * k * age j / L ^ 2) <= - (1 ^ 2 * PI ^ 2 * k * age j / L ^ 2)).
      { assert (0 <= PI ^ 2 * k * age j / L ^ 2).
        { apply Rmult_le_pos; [apply Rmult_le_pos; [apply Rmult_le_pos; [apply pow2_ge_0|lra]|exact Ha]|left; apply Rinv_0_lt_compat, pow_lt; exact HL]. }
        replace (n ^ 2 * PI ^ 2 * k * age j / L ^ 2) with (n ^ 2 * (PI ^ 2 * k * age j / L ^ 2)) by (unfold Rdiv; ring).
        replace (1 ^ 2 * PI ^ 2 * k * age j / L ^ 2) with (PI ^ 2 * k * age j / L ^ 2) by (unfold Rdiv; ring). assert (1 <= n ^ 2) by nra. nra. }
      destruct (Rle_lt_or_eq_dec _ _ H) as [L'|L']; [left; apply exp_increasing; exact L'|rewrite L'; lra]. }
    assert (M3 := M 3 ltac:(lra)). assert (M5 := M 5 ltac:(lra)). fold e3 in M3. fold e5 in M5.
    replace (c / 2 * (1 - e1)) with (c * (1 / 2 - e1 / 2)) by field. apply Rmult_lt_compat_l; [exact HC|].
    (* q * (1 + 1/9 + 1/25) < 1/2 needs PI > 3.0346 *)
    assert (Q : q * (1 + / 9 + / 25) < 1 / 2).
    { assert (Hpi : 3.04 < PI).
      { pose proof (PI_ineq 10) as [H _]. unfold tg_alt, PI_tg in H. cbn [sum_f_R0 Nat.mul Nat.add pow INR] in H. lra. }
      assert (9.24 < PI ^ 2) by nra. unfold q. apply Rmult_lt_reg_r with (PI ^ 2); [lra|].
      replace (4 / PI ^ 2 * (1 + / 9 + / 25) * PI ^ 2) with (4 * (1 + / 9 + / 25)) by (field; lra). lra. }
    assert (q * (e1 + e3 / 9 + e5 / 25) <= q * (1 + / 9 + / 25) * e1); [|nra].
    rewrite Rmult_assoc. apply Rmult_le_compat_l; [lra|]. lra.
  - intros j' Hj' Ha. destruct (C j' Hj') as [Wj' _]. fold (age j') in Wj'. rewrite Wj', F. apply Rmult_lt_compat_l; [exact HC|].
    assert (A1 := exp_mode 1 k L (age j) (age j') Hk ltac:(lra) ltac:(lra) Ha). assert (A3 := exp_mode 3 k L (age j) (age j') Hk ltac:(lra) ltac:(lra) Ha).
    assert (A5 := exp_mode 5 k L (age j) (age j') Hk ltac:(lra) ltac:(lra) Ha). fold e1 in A1. fold e3 in A3. fold e5 in A5.
    set (f1 := exp _) in A1 |- *. set (f3 := exp _) in A3 |- *. set (f5 := exp _) in A5 |- *.
    assert (q * (f1 + f3 / 9 + f5 / 25) < q * (e1 + e3 / 9 + e5 / 25)) by (apply Rmult_lt_compat_l; lra). lra.
Qed.
Print Assumptions C48_subsidence.

Lemma sin_half_multiples : sin (1 * PI / 2) = 1 /\ sin (2 * PI / 2) = 0 /\ sin (3 * PI / 2) = -1 /\ sin (4 * PI / 2) = 0 /\ sin (5 * PI / 2) = 1 /\
  sin (6 * PI / 2) = 0 /\ sin (7 * PI / 2) = -1 /\ sin (8 * PI / 2) = 0 /\ sin (9 * PI / 2) = 1 /\ sin (10 * PI / 2) = 0.
Proof.
  assert (S1 : sin (1 * PI / 2) = 1) by (replace (1 * PI / 2) with (PI / 2) by field; apply sin_PI2).
  assert (S2 : sin (2 * PI / 2) = 0) by (replace (2 * PI / 2) with PI by field; apply sin_PI).
  assert (N : forall n, sin ((n + 2) * PI / 2) = - sin (n * PI / 2)) by (intros n; replace ((n + 2) * PI / 2) with (n * PI / 2 + PI) by field; apply neg_sin).
  assert (S3 := N 1). assert (S4 := N 2). assert (S5 := N 3). assert (S6 := N 4). assert (S7 := N 5). assert (S8 := N 6). assert (S9 := N 7). assert (S10 := N 8).
  replace (1 + 2) with 3 in S3 by lra. replace (2 + 2) with 4 in S4 by lra. replace (3 + 2) with 5 in S5 by lra. replace (4 + 2) with 6 in S6 by lra.
  replace (5 + 2) with 7 in S7 by lra. replace (6 + 2) with 8 in S8 by lra. replace (7 + 2) with 9 in S9 by lra. replace (8 + 2) with 10 in S10 by lra.
  repeat split; lra.
Qed.

(** With the series cut after ten terms the plate is hotter than the mantle on the axis, whatever its parameters. *)
Theorem C48_never_above_mantle_refuted : exists x z u L Tm time rhom rhow a k T W,
  0 < u /\ 0 < L /\ 0 < k /\ 0 < Tm /\ therm_plate x z u L Tm time rhom rhow a k = Ok (T, W) /\
  exists i j, (i < length z)%nat /\ (j < length x)%nat /\ 0 <= nth i z 0 <= L /\ 0 <= age_s time u (nth j x 0) /\ Tm < rcell T i j.
Proof.
  destruct (C48_plate_field [0] [50000] 0.01 100000 1350 true 3300 1000 3e-5 1e-6) as [T [W [E [_ [_ [_ C]]]]]]; try lra; [discriminate|].
  exists [0], [50000], 0.01, 100000, 1350, true, 3300, 1000, 3e-5, 1e-6, T, W. repeat (split; [lra|]). split; [exact E|].
  exists 0%nat, 0%nat. cbn [nth length]. split; [lia|]. split; [lia|]. split; [lra|]. split; [unfold age_s, year_s; lra|].
  destruct (C 0%nat ltac:(cbn; lia)) as [_ C0]. destruct (C0 0%nat ltac:(cbn; lia)) as [Q _]. cbn [nth] in Q. rewrite Q by lra.
  assert (1 < plate_fraction 1e-6 100000 (age_s true 0.01 0) 50000); [|lra].
  unfold plate_fraction. cbv zeta. replace (age_s true 0.01 0) with 0 by (unfold age_s; ring).
  assert (X : forall n, exp (- (n ^ 2 * PI ^ 2 * 1e-6 * 0 / 100000 ^ 2)) = 1).
  { intros n. replace (- (n ^ 2 * PI ^ 2 * 1e-6 * 0 / 100000 ^ 2)) with 0 by (unfold Rdiv; ring). apply exp_0. }
  assert (Y : forall n, n * PI * 50000 / 100000 = n * PI / 2) by (intros n; field).
  rewrite (Rsum_ext 10 _ (fun i => 2 / (INR (i + 1) * PI) * 1 * sin (INR (i + 1) * PI / 2))) by (intros i _; rewrite X, Y; reflexivity).
  cbn [Rsum Nat.add]. replace (INR 1) with 1 by (cbn; lra). replace (INR 2) with 2 by (cbn; lra). replace (INR 3) with 3 by (cbn; lra).
  replace (INR 4) with 4 by (cbn; lra). replace (INR 5) with 5 by (cbn; lra). replace (INR 6) with 6 by (cbn; lra). replace (INR 7) with 7 by (cbn; lra).
  replace (INR 8) with 8 by (cbn; lra). replace (INR 9) with 9 by (cbn; lra). replace (INR 10) with 10 by (cbn; lra).
  destruct sin_half_multiples as [S1 [S2 [S3 [S4 [S5 [S6 [S7 [S8 [S9 S10]]]]]]]]]. rewrite S1, S2, S3, S4, S5, S6, S7, S8, S9, S10.
  pose proof PI_RGT_0 as Hp. pose proof PI_lt_33 as Hp'.
  assert (I : / 3.3 < / PI) by (apply Rinv_lt_contravar; [apply Rmult_lt_0_compat; lra|lra]).
  assert (D : forall n, n <> 0 -> 2 / (n * PI) = 2 / n * / PI) by (intros n Hn; field; lra).
  rewrite (D 1), (D 2), (D 3), (D 4), (D 5), (D 6), (D 7), (D 8), (D 9), (D 10) by lra. lra.
Qed.
Print Assumptions C48_never_above_mantle_refuted.

(** The subsidence series is cut after three terms, so that the axis itself has subsided. *)
Theorem C48_no_subsidence_on_axis_refuted : exists x z u L Tm time rhom rhow a k T W,
  0 < u /\ 0 < L /\ 0 < k /\ therm_plate x z u L Tm time rhom rhow a k = Ok (T, W) /\
  exists j, (j < length x)%nat /\ age_s time u (nth j x 0) = 0 /\ 0 < nth j W 0.
Proof.
  destruct (C48_plate_field [0] [50000] 0.01 100000 1350 true 3300 1000 3e-5 1e-6) as [T [W [E [_ [_ [_ C]]]]]]; try lra; [discriminate|].
  exists [0], [50000], 0.01, 100000, 1350, true, 3300, 1000, 3e-5, 1e-6, T, W. repeat (split; [lra|]). split; [exact E|].
  exists 0%nat. split; [cbn; lia|]. assert (Z : age_s true 0.01 (nth 0 [0] 0) = 0) by (unfold age_s; cbn; ring). split; [exact Z|].
  destruct (C48_subsidence [0] [50000] 0.01 100000 1350 true 3300 1000 3e-5 1e-6 T W ltac:(lra) ltac:(lra) ltac:(lra) ltac:(lra) E 0%nat ltac:(cbn; lia)) as [_ [B _]].
  cbv zeta in B. rewrite Z in B. specialize (B ltac:(lra)). replace (- (PI ^ 2 * 1e-6 * 0 / 100000 ^ 2)) with 0 in B by (unfold Rdiv; ring). rewrite exp_0 in B. lra.
Qed.
Print Assumptions C48_no_subsidence_on_axis_refuted.

Theorem C48_errors : forall x z u L Tm time rhom rhow a k,
  therm_plate x [] u L Tm time rhom rhow a k = Raise IndexError /\
  (z <> [] -> rhom = rhow -> therm_plate x z u L Tm time rhom rhow a k = Raise ZeroDivisionError).
Proof.
  intros. split; [reflexivity|]. intros Hz Hr. unfold therm_plate. destruct z; [contradiction|]. destruct (Req_EM_T rhom rhow); [reflexivity|contradiction].
Qed.
Print Assumptions C48_errors.

Example C48_case : exists T W, therm_plate [10; 20] [0; 100000; 150000] 0.01 100000 1350 true 3300 1000 3e-5 1e-6 = Ok (T, W) /\
  T = [[0; 0]; [1350; 1350]; [1350; 1350]] /\ nth 0 W 0 < nth 1 W 0.
Proof.
  destruct (C48_plate_field [10; 20] [0; 100000; 150000] 0.01 100000 1350 true 3300 1000 3e-5 1e-6) as [T [W [E [L1 [L2 [L3 C]]]]]]; try lra; [discriminate|].
  exists T, W. split; [exact E|].
  assert (R0 := L3 0%nat ltac:(cbn; lia)). assert (R1 := L3 1%nat ltac:(cbn; lia)). assert (R2 := L3 2%nat ltac:(cbn; lia)).
  destruct T as [|r0 [|r1 [|r2 [|]]]]; try discriminate. cbn [nth length] in R0, R1, R2.
  destruct r0 as [|a0 [|a1 [|]]]; try discriminate. destruct r1 as [|b0 [|b1 [|]]]; try discriminate. destruct r2 as [|c0 [|c1 [|]]]; try discriminate.
  destruct (C 0%nat ltac:(cbn; lia)) as [_ C0]. destruct (C 1%nat ltac:(cbn; lia)) as [_ C1].
  destruct (C0 0%nat ltac:(cbn; lia)) as [_ [_ A0]]. destruct (C1 0%nat ltac:(cbn; lia)) as [_ [_ A1]].
  destruct (C0 1%nat ltac:(cbn; lia)) as [_ [B0 _]]. destruct (C1 1%nat ltac:(cbn; lia)) as [_ [B1 _]].
  destruct (C0 2%nat ltac:(cbn; lia)) as [_ [D0 _]]. destruct (C1 2%nat ltac:(cbn; lia)) as [_ [D1 _]]. cbn [nth] in *.
  rewrite A0, A1, B0, B1, D0, D1 by lra. split; [reflexivity|].
  destruct (C48_subsidence [10; 20] [0; 100000; 150000] 0.01 100000 1350 true 3300 1000 3e-5 1e-6 _ W ltac:(lra) ltac:(lra) ltac:(lra) ltac:(lra) E 0%nat ltac:(cbn; lia)) as [_ [_ B]].
  apply (B 1%nat); [cbn; lia|]. unfold age_s, year_s. cbn [nth]. lra.
Qed.

(** ** C49: isotherm depths in the plate *)
Theorem C49_best_grid_depth : forall x T u L Tm time z0 z1 dz rhom rhow a k, u <> 0 -> L <> 0 -> rhom <> rhow -> 0 < dz -> z0 < z1 ->
  exists D, therm_Z_plate x T u L Tm time z0 z1 dz rhom rhow a k = Ok D /\ length D = length T /\
  (forall i, (i < length T)%nat -> length (nth i D []) = length x) /\
  forall i j, (i < length T)%nat -> (j < length x)%nat ->
    let misfit n := Rabs (plate_T k L Tm (age_s time u (nth j x 0)) (z0 + INR n * dz) - nth i T 0) in
    exists n, rcell D i j = z0 + INR n * dz /\ z0 + INR n * dz < z1 /\
      (forall m, z0 + INR m * dz < z1 -> misfit n <= misfit m) /\
      (forall m, (m < n)%nat -> misfit n < misfit m).
Proof.
  intros x T u L Tm time z0 z1 dz rhom rhow a k Hu HL Hr Hd Hz. unfold therm_Z_plate. destruct (Req_EM_T dz 0); [lra|].
  set (g := arange z0 z1 dz).
  assert (Hg : g <> []).
  { intros E. assert (H : (0 < length g)%nat) by (apply arange_length; [exact Hd|cbn [INR]; lra]). rewrite E in H. cbn in H. lia. }
  rewrite plate_unfold by assumption. cbn [bind fst].
  set (F := map (fun Z => map (fun x => plate_T k L Tm (age_s time u x) Z) x) g).
  assert (HF : forall n j, (n < length g)%nat -> (j < length x)%nat -> nth j (nth n F []) 0 = plate_T k L Tm (age_s time u (nth j x 0)) (z0 + INR n * dz)).
  { intros n' j Hn Hj. unfold F. rewrite (nth_map _ _ _ _ _ _ 0) by exact Hn. rewrite (nth_map _ _ _ _ _ _ 0) by exact Hj. unfold g. rewrite arange_nth by exact Hn. reflexivity. }
  set (col := fun Ti j => map (fun row => Rabs (nth j row 0 - Ti)) F).
  assert (HC : forall Ti j n, (n < length g)%nat -> (j < length x)%nat -> nth n (col Ti j) 0 = Rabs (plate_T k L Tm (age_s time u (nth j x 0)) (z0 + INR n * dz) - Ti)).
  { intros Ti j n' Hn Hj. unfold col. rewrite (nth_map _ _ _ _ _ _ []) by (unfold F; rewrite map_length; exact Hn). rewrite HF by assumption. reflexivity. }
  assert (Lc : forall Ti j, length (col Ti j) = length g) by (intros; unfold col, F; rewrite !map_length; reflexivity).
  set (best := fun Ti j => match argmin (col Ti j) with Ok i => i | Raise _ => O end).
  assert (Hb : forall Ti j, argmin (col Ti j) = Ok (best Ti j)).
  { intros Ti j. unfold best. destruct (argmin_ok (col Ti j)) as [i ->]; [|reflexivity]. intros E. apply (f_equal (@length R)) in E. rewrite Lc in E. destruct g; [contradiction|discriminate]. }
  assert (Hbl : forall Ti j, (best Ti j < length g)%nat) by (intros Ti j; pose proof (argmin_spec _ _ (Hb Ti j)) as [H _]; rewrite Lc in H; exact H).
  exists (map (fun Ti => map (fun j => nth (best Ti j) g 0) (seq 0 (length x))) T). split; [|rewrite map_length; split; [reflexivity|split]].
  - apply mapM_Ok_map. intros Ti _. apply mapM_Ok_map. intros j _. fold (col Ti j). rewrite Hb. cbn [bind]. unfold getr.
    rewrite (nth_error_nth' g 0) by apply Hbl. reflexivity.
  - intros i Hi. rewrite (nth_map _ _ _ _ _ _ 0) by exact Hi. rewrite map_length, seq_length. reflexivity.
  - intros i j Hi Hj. exists (best (nth i T 0) j). rewrite (nth_map _ _ _ _ _ _ 0) by exact Hi. rewrite nth_map_seq by exact Hj.
    set (b := best (nth i T 0) j) in *. pose proof (Hbl (nth i T 0) j) as B. fold b in B. unfold g at 1. rewrite arange_nth by exact B.
    pose proof (argmin_spec _ _ (Hb (nth i T 0) j)) as [_ [M1 M2]]. fold b in M1, M2. rewrite Lc in M1. rewrite HC in M1, M2 by assumption.
    split; [reflexivity|]. split; [apply arange_length; assumption|]. split.
    + intros m Hm. apply arange_length in Hm; [|exact Hd]. fold g in Hm. specialize (M1 m Hm). rewrite HC in M1 by assumption. exact M1.
    + intros m Hm. specialize (M2 m Hm). rewrite HC in M2 by (try assumption; lia). exact M2.
Qed.
Print Assumptions C49_best_grid_depth.

Theorem C49_errors : forall x T u L Tm time z0 z1 dz rhom rhow a k,
  therm_Z_plate x T u L Tm time z0 z1 0 rhom rhow a k = Raise ZeroDivisionError /\
  (0 < dz -> z1 <= z0 -> therm_Z_plate x T u L Tm time z0 z1 dz rhom rhow a k = Raise IndexError) /\
  (0 < dz -> z0 < z1 -> rhom = rhow -> therm_Z_plate x T u L Tm time z0 z1 dz rhom rhow a k = Raise ZeroDivisionError).
Proof.
  intros x T u L Tm time z0 z1 dz rhom rhow a k. split; [|split].
  - unfold therm_Z_plate. destruct (Req_EM_T 0 0); [reflexivity|contradiction].
  - intros Hd Hz. unfold therm_Z_plate. destruct (Req_EM_T dz 0); [lra|].
    assert (E : arange z0 z1 dz = []).
    { destruct (arange z0 z1 dz) as [|r l] eqn:E; [reflexivity|]. assert (H : (0 < length (arange z0 z1 dz))%nat) by (rewrite E; cbn; lia).
      apply arange_length in H; [|exact Hd]. cbn [INR] in H. lra. }
    rewrite E. reflexivity.
  - intros Hd Hz Hr. unfold therm_Z_plate. destruct (Req_EM_T dz 0); [lra|].
    assert (H : (0 < length (arange z0 z1 dz))%nat) by (apply arange_length; [exact Hd|cbn [INR]; lra]).
    destruct (C48_errors x (arange z0 z1 dz) u L Tm time rhom rhow a k) as [_ C]. rewrite C; [reflexivity| |exact Hr].
    intros E. rewrite E in H. cbn in H. lia.
Qed.
Print Assumptions C49_errors.

(** The grid of the default spacing does not include the base of the plate. *)
Example C49_case : exists d, therm_Z_plate [5] [2000] 0.01 100 1350 true 0 200 90 3300 1000 3e-5 1e-6 = Ok [[d]] /\ (d = 0 \/ d = 90 \/ d = 180).
Proof.
  destruct (C49_best_grid_depth [5] [2000] 0.01 100 1350 true 0 200 90 3300 1000 3e-5 1e-6) as [D [E [L1 [L2 C]]]]; try lra.
  destruct D as [|r [|]]; try discriminate. specialize (L2 0%nat ltac:(cbn; lia)). cbn in L2. destruct r as [|d [|]]; try discriminate.
  exists d. split; [exact E|]. destruct (C 0%nat 0%nat ltac:(cbn; lia) ltac:(cbn; lia)) as [n [A [B _]]]. cbn [nth] in A. rewrite A.
  destruct n as [|[|[|n]]]; [left; cbn; lra|right; left; cbn; lra|right; right; cbn; lra|].
  exfalso. rewrite !S_INR in B. pose proof (pos_INR n). lra.
Qed.

(** ** C75: heat equation *)
Theorem C75_half_space_diffusion : forall u Tm rhom rhow a k, 0 < u -> rhom <> rhow -> 0 < k ->
  exists F : R -> R -> R,
    (forall x z time T W, therm_halfspace x z u Tm time rhom rhow a k = Ok (T, W) ->
       forall i j, (i < length z)%nat -> (j < length x)%nat -> 0 < age_s time u (nth j x 0) -> cell T i j = Some (F (age_s time u (nth j x 0)) (nth i z 0))) /\
    (forall t z, 0 < t -> heat_equation k F t z) /\
    (forall t, F t 0 = 0) /\
    (forall z eps, 0 < z -> 0 < eps -> exists d, 0 < d /\ forall t, 0 < t < d -> Rabs (F t z - Tm) < eps).
Proof.
  intros u Tm rhom rhow a k Hu Hr Hk. exists (fun t z => Tm * erf (z / (2 * sqrt (k * t)))). split; [|split; [|split]].
  - intros x z time T W E i j Hi Hj Ht. assert (Hz0 : z <> []) by (intros ->; cbn in Hi; lia).
    destruct (C46_half_space_field x z u Tm time rhom rhow a k ltac:(lra) Hr Hz0) as [T' [W' [E' [_ [_ [_ C]]]]]].
    rewrite E in E'. assert (T' = T) by congruence. subst T'. apply C; [exact Hj|apply Rmult_lt_0_compat; assumption|exact Hi].
  - intros t z Ht. apply heat_halfspace; assumption.
  - intros t. unfold Rdiv. rewrite Rmult_0_l, erf_0. ring.
  - intros z eps Hz He.
    assert (Hc : 0 <= 1 - eps / (Rabs Tm + eps) < 1).
    { pose proof (Rabs_pos Tm). assert (0 < eps / (Rabs Tm + eps)) by (apply Rdiv_lt_0_compat; lra). split; [|lra].
      assert (eps / (Rabs Tm + eps) <= 1); [|lra]. apply Rmult_le_reg_r with (Rabs Tm + eps); [lra|]. unfold Rdiv. rewrite Rmult_assoc, Rinv_l by lra. lra. }
    destruct (erf_above _ Hc) as [y [Hy Ey]].
    assert (Hd : 0 < (z / (2 * y)) ^ 2 / k) by (apply Rdiv_lt_0_compat; [apply pow_lt, Rdiv_lt_0_compat; lra|exact Hk]).
    exists ((z / (2 * y)) ^ 2 / k). split; [exact Hd|]. intros t Ht.
    assert (Hkt : 0 < k * t < (z / (2 * y)) ^ 2).
    { split; [apply Rmult_lt_0_compat; lra|]. destruct Ht as [_ Ht]. apply Rmult_lt_compat_l with (r := k) in Ht; [|exact Hk].
      replace (k * ((z / (2 * y)) ^ 2 / k)) with ((z / (2 * y)) ^ 2) in Ht by (field; lra). exact Ht. }
    assert (Hs : 0 < sqrt (k * t)) by (apply sqrt_lt_R0; lra).
    assert (Hs' : sqrt (k * t) < z / (2 * y)).
    { rewrite <- (sqrt_pow2 (z / (2 * y))) by (left; apply Rdiv_lt_0_compat; lra). apply sqrt_lt_1; lra. }
    assert (Hy' : y < z / (2 * sqrt (k * t))).
    { apply Rmult_lt_reg_r with (2 * sqrt (k * t)); [lra|]. unfold Rdiv. rewrite Rmult_assoc, Rinv_l by lra. rewrite Rmult_1_r.
      apply Rmult_lt_compat_l with (r := 2 * y) in Hs'; [|lra]. replace (2 * y * (z / (2 * y))) with z in Hs' by (field; lra). lra. }
    apply erf_increasing in Hy'. pose proof (erf_bounds (z / (2 * sqrt (k * t)))) as B. set (e := erf (z / (2 * sqrt (k * t)))) in *.
    replace (Tm * e - Tm) with (- (Tm * (1 - e))) by ring. rewrite Rabs_Ropp, Rabs_mult, (Rabs_right (1 - e)) by lra.
    assert (H1 : 1 - e < eps / (Rabs Tm + eps)) by lra. pose proof (Rabs_pos Tm) as H2.
    apply Rle_lt_trans with (Rabs Tm * (eps / (Rabs Tm + eps))); [apply Rmult_le_compat_l; lra|].
    replace (Rabs Tm * (eps / (Rabs Tm + eps))) with (eps - eps * (eps / (Rabs Tm + eps))) by (field; lra).
    assert (0 < eps / (Rabs Tm + eps)) by (apply Rdiv_lt_0_compat; lra). assert (0 < eps * (eps / (Rabs Tm + eps))) by (apply Rmult_lt_0_compat; assumption). lra.
Qed.
Print Assumptions C75_half_space_diffusion.

Theorem C75_plate_diffusion : forall u L Tm rhom rhow a k, u <> 0 -> 0 < L -> rhom <> rhow ->
  exists F : R -> R -> R,
    (forall x z time T W, therm_plate x z u L Tm time rhom rhow a k = Ok (T, W) ->
       forall i j, (i < length z)%nat -> (j < length x)%nat -> nth i z 0 <= L -> rcell T i j = F (age_s time u (nth j x 0)) (nth i z 0)) /\
    (forall t z, heat_equation k F t z) /\ (forall t, F t 0 = 0) /\ (forall t, F t L = Tm).
Proof.
  intros u L Tm rhom rhow a k Hu HL Hr. exists (fun t z => Tm * plate_fraction k L t z). split; [|split; [|split]].
  - intros x z time T W E i j Hi Hj Hz. assert (Hz0 : z <> []) by (intros ->; cbn in Hi; lia).
    destruct (C48_plate_field x z u L Tm time rhom rhow a k Hu ltac:(lra) Hr Hz0) as [T' [W' [E' [_ [_ [_ C]]]]]].
    rewrite E in E'. assert (T' = T) by congruence. subst T'. destruct (C j Hj) as [_ Cj]. destruct (Cj i Hi) as [Ci _]. apply Ci. exact Hz.
  - intros t z. apply heat_scal. unfold plate_fraction. apply (heat_plus k (fun _ z => z / L)); [apply heat_linear; lra|].
    apply heat_Rsum. intros i. apply heat_mode. lra.
  - intros t. rewrite plate_fraction_top. ring.
  - intros t. rewrite plate_fraction_base by lra. ring.
Qed.
Print Assumptions C75_plate_diffusion.

(** The notion is not trivial: a field that warms at constant rate without curvature is not a solution. *)
Example C75_not_every_field : ~ heat_equation 1 (fun t z => t) 1 0.
Proof.
  intros [Tz [Tzz [A [B C]]]]. assert (E : forall z, Tz z = 0) by (intros z; apply (uniqueness_limite (fun _ => 1) z); [apply A|apply derivable_pt_lim_const]).
  assert (Z : Tzz = 0).
  { apply (uniqueness_limite Tz 0); [exact B|]. intros eps He. exists (mkposreal 1 Rlt_0_1). intros h _ _. rewrite !E. replace ((0 - 0) / h - 0) with 0 by (unfold Rdiv; ring). rewrite Rabs_R0. exact He. }
  subst Tzz. assert (1 = 1 * 0); [|lra]. apply (uniqueness_limite (fun t => t) 1); [apply derivable_pt_lim_id|exact C].
Qed.

(** ** C76: subsidence and temperature *)
Theorem C76_half_space_isostasy : forall u Tm rhom rhow a k x z time T W, 0 < u -> 0 < k ->
  therm_halfspace x z u Tm time rhom rhow a k = Ok (T, W) ->
  forall j, (j < length x)%nat -> 0 < age_s time u (nth j x 0) ->
  exists (F : R -> R) (w : R),
    (forall i, (i < length z)%nat -> cell T i j = Some (F (nth i z 0))) /\ nth j W None = Some (rhom * a / (rhom - rhow) * w) /\
    is_lim (fun Z => RInt (fun z => Tm - F z) 0 Z) p_infty w.
Proof.
  intros u Tm rhom rhow a k x z time T W Hu Hk E j Hj Ht.
  assert (Hr : rhom <> rhow) by (unfold therm_halfspace in E; destruct (Req_EM_T rhom rhow); [discriminate|assumption]).
  assert (Hz : z <> []) by (intros ->; unfold therm_halfspace in E; destruct (Req_EM_T rhom rhow); discriminate).
  destruct (C46_half_space_field x z u Tm time rhom rhow a k ltac:(lra) Hr Hz) as [T' [W' [E' [_ [_ [_ C]]]]]].
  rewrite E in E'. assert (T' = T) by congruence. assert (W' = W) by congruence. subst T' W'. destruct (C j Hj) as [Cj [_ [Wj _]]].
  set (t := age_s time u (nth j x 0)) in *. assert (H0 : 0 < k * t) by (apply Rmult_lt_0_compat; assumption).
  exists (fun z => Tm * erf (z / (2 * sqrt (k * t)))), (Tm * (2 * sqrt (k * t) / sqrt PI)). split; [|split].
  - apply Cj. exact H0.
  - rewrite Wj by lra. f_equal. rewrite sqrt_div by (try apply PI_RGT_0; lra). pose proof sqrtPI_pos. field. split; lra.
  - apply erfc_integral. assert (0 < sqrt (k * t)) by (apply sqrt_lt_R0; exact H0). lra.
Qed.
Print Assumptions C76_half_space_isostasy.

(** In the plate the subsidence leaves out the seventh and ninth of the ten terms kept in the temperature. *)
Theorem C76_plate_isostasy : forall u L Tm rhom rhow a k x z time T W, u <> 0 -> 0 < L ->
  therm_plate x z u L Tm time rhom rhow a k = Ok (T, W) ->
  forall j, (j < length x)%nat -> let t := age_s time u (nth j x 0) in
  exists F : R -> R,
    (forall i, (i < length z)%nat -> nth i z 0 <= L -> rcell T i j = F (nth i z 0)) /\
    nth j W 0 = rhom * a / (rhom - rhow) *
      (RInt (fun z => Tm - F z) 0 L +
       Tm * L * (4 / PI ^ 2) * (exp (- (7 ^ 2 * PI ^ 2 * k * t / L ^ 2)) / 7 ^ 2 + exp (- (9 ^ 2 * PI ^ 2 * k * t / L ^ 2)) / 9 ^ 2)).
Proof.
  intros u L Tm rhom rhow a k x z time T W Hu HL E j Hj t.
  assert (Hz0 : z <> []) by (intros ->; discriminate E).
  assert (Hr : rhom <> rhow) by (unfold therm_plate in E; destruct z; [contradiction|]; destruct (Req_EM_T rhom rhow); [discriminate|assumption]).
  destruct (C48_plate_field x z u L Tm time rhom rhow a k Hu ltac:(lra) Hr Hz0) as [T' [W' [E' [_ [_ [_ C]]]]]].
  rewrite E in E'. assert (T' = T) by congruence. assert (W' = W) by congruence. subst T' W'. destruct (C j Hj) as [Wj Cj]. fold t in Wj, Cj.
  exists (fun z => Tm * plate_fraction k L t z). split.
  - intros i Hi Hz. destruct (Cj i Hi) as [Ci _]. apply Ci. exact Hz.
  - rewrite Wj. rewrite plate_deficit by lra. unfold plate_subsidence. cbn [Rsum Nat.mul Nat.add].
    replace (INR 1) with 1 by (cbn; lra). replace (INR 3) with 3 by (cbn; lra). replace (INR 5) with 5 by (cbn; lra). replace (INR 7) with 7 by (cbn; lra). replace (INR 9) with 9 by (cbn; lra).
    set (e1 := exp (- (1 ^ 2 * _ * _ * _ / _))). set (e3 := exp (- (3 ^ 2 * _ * _ * _ / _))). set (e5 := exp (- (5 ^ 2 * _ * _ * _ / _))). set (e7 := exp (- (7 ^ 2 * _ * _ * _ / _))). set (e9 := exp (- (9 ^ 2 * _ * _ * _ / _))).
    pose proof PI_RGT_0. field. split; lra.
Qed.
Print Assumptions C76_plate_isostasy.

Example C76_case : exists T W w F, therm_halfspace [1] [5; 10] 0.01 1350 true 3300 1000 3e-5 1e-6 = Ok (T, [Some w]) /\ W = [Some w] /\
  cell T 1 0 = Some (F 10) /\ is_lim (fun Z => RInt (fun z => 1350 - F z) 0 Z) p_infty (w / (3300 * 3e-5 / (3300 - 1000))).
Proof.
  destruct (C46_half_space_field [1] [5; 10] 0.01 1350 true 3300 1000 3e-5 1e-6) as [T [W [E [_ [L2 _]]]]]; [lra|lra|discriminate|].
  destruct (C76_half_space_isostasy 0.01 1350 3300 1000 3e-5 1e-6 [1] [5; 10] true T W ltac:(lra) ltac:(lra) E 0%nat ltac:(cbn; lia) ltac:(unfold age_s, year_s; cbn [nth]; lra)) as [F [w [A [B C]]]].
  destruct W as [|w1 [|]]; try discriminate. cbn [nth] in B. subst w1.
  exists T, [Some (3300 * 3e-5 / (3300 - 1000) * w)], (3300 * 3e-5 / (3300 - 1000) * w), F. split; [exact E|]. split; [reflexivity|]. split; [apply (A 1%nat); cbn; lia|].
  replace (3300 * 3e-5 / (3300 - 1000) * w / (3300 * 3e-5 / (3300 - 1000))) with w; [exact C|]. set (q := 3300 * 3e-5 / (3300 - 1000)). assert (0 < q) by (unfold q; lra). field. lra.
Qed.
