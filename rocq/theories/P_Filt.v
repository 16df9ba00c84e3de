(** Property C81: the low-pass filter of the example scripts. *)
From Coq Require Import ZArith Reals Lia Lra Arith List Bool.
From Verif Require Import M_Py L_Base S_Base M_Np L_Np M_CC L_CC S_Filt M_Filt L_Filt.
Import ListNotations.
Open Scope R_scope.

(** Fixed weights, applied forwards and backwards to the series continued by point reflection; a series of at most 1440 samples raises. *)
Theorem C81_filter : exists h, four_minute_low_pass h /\ forall x,
  ((length x <= 1440)%nat -> script_filter x = Raise ValueError) /\
  ((1440 < length x)%nat -> exists y, script_filter x = Ok y /\ length y = length x /\
     forall m, (m < length x)%nat -> nth m y 0 = forwards_backwards h (reflected x) (Z.of_nat m)).
Proof.
  exists hw. split; [exact hw_low_pass|]. intros x. split.
  - intros H. apply filtfilt_short. rewrite script_B_length. lia.
  - intros H. exact (script_filter_fb x H).
Qed.
Print Assumptions C81_filter.

(** The description determines the weights. *)
Theorem C81_weights_unique : forall h h', four_minute_low_pass h -> four_minute_low_pass h' -> forall k, (k < 480)%nat -> h k = h' k.
Proof.
  intros h h' [S1 [K1 H1]] [S2 [K2 H2]].
  set (r := fun k : nat => sin (2 * PI * (INR k - 239.5) / 240) * taper k / (PI * (INR k - 239.5))).
  assert (Nz : forall k, PI * (INR k - 239.5) <> 0).
  { intros k E. apply Rmult_integral in E. destruct E as [E|E]; [apply PI_neq0 in E; exact E|].
    assert (E2 : INR (2 * k) = 479) by (rewrite mult_INR; cbn [INR]; lra). rewrite INR_IZR_INZ in E2. apply eq_IZR in E2. lia. }
  assert (F : forall (g : nat -> R) K, (forall k, (k < 480)%nat -> g k * (PI * (INR k - 239.5)) = K * sin (2 * PI * (INR k - 239.5) / 240) * taper k) -> forall k, (k < 480)%nat -> g k = K * r k).
  { intros g K H k Hk. apply (Rmult_eq_reg_r (PI * (INR k - 239.5))); [|apply Nz]. rewrite (H k Hk). unfold r, Rdiv. rewrite !Rmult_assoc, Rinv_l by apply Nz. ring. }
  pose proof (F h K1 H1) as F1. pose proof (F h' K2 H2) as F2.
  rewrite (Rsum_ext 480 h (fun k => K1 * r k) F1), Rsum_scal in S1. rewrite (Rsum_ext 480 h' (fun k => K2 * r k) F2), Rsum_scal in S2.
  assert (E : K1 = K2). { revert S1 S2. generalize (Rsum 480 r). intros s S1 S2. apply (Rmult_eq_reg_r s); [lra|]. intros ->. lra. }
  intros k Hk. rewrite (F1 k Hk), (F2 k Hk), E. reflexivity.
Qed.
Print Assumptions C81_weights_unique.

(** Straight lines, and so constant offsets, pass unchanged up to the very ends. *)
Theorem C81_lines_kept : forall x a b, (1440 < length x)%nat -> (forall k, (k < length x)%nat -> nth k x 0 = a + b * INR k) -> script_filter x = Ok x.
Proof.
  intros x a b H Hx. destruct (script_filter_fb x H) as (y & E & L & V). rewrite E. f_equal. apply (nth_ext _ _ 0 0 L). rewrite L. intros m Hm.
  rewrite (V m Hm), (Hx m Hm). rewrite (fb_ext hw (reflected x) (fun z => a + b * IZR z)) by (intros z Hz; apply reflected_line; [exact Hx|lia|lia]).
  rewrite fb_line by apply hw_low_pass. rewrite <- INR_IZR_INZ. reflexivity.
Qed.
Print Assumptions C81_lines_kept.

(** Linear. *)
Theorem C81_linear : forall x y a b fx fy, length y = length x -> script_filter x = Ok fx -> script_filter y = Ok fy ->
  script_filter (map2 (fun u v => a * u + b * v) x y) = Ok (map2 (fun u v => a * u + b * v) fx fy).
Proof.
  intros x y a b fx fy L Ex Ey. pose proof (script_filter_len _ _ Ex) as H.
  assert (Lm : length (map2 (fun u v => a * u + b * v) x y) = length x) by (rewrite map2_length; lia).
  destruct (script_filter_fb x H) as (x' & E1 & L1 & V1). destruct (script_filter_fb y ltac:(lia)) as (y' & E2 & L2 & V2).
  rewrite E1 in Ex. injection Ex as <-. rewrite E2 in Ey. injection Ey as <-.
  destruct (script_filter_fb (map2 (fun u v => a * u + b * v) x y) ltac:(lia)) as (z' & E3 & L3 & V3). rewrite E3. f_equal.
  apply (nth_ext _ _ 0 0); [rewrite map2_length; lia|]. intros m Hm. rewrite L3, Lm in Hm.
  rewrite V3 by lia. rewrite (map2_nth _ _ _ (fun u v => a * u + b * v) x' y' m 0 0 0) by lia. rewrite V1, V2 by lia. rewrite <- fb_linear. apply fb_ext. intros z Hz. apply reflected_linear; lia.
Qed.
Print Assumptions C81_linear.

(** No shift in time: filtering the reversed record gives the reversed result. *)
Theorem C81_reversal : forall x y, script_filter x = Ok y -> script_filter (rev x) = Ok (rev y).
Proof.
  intros x y Ex. pose proof (script_filter_len _ _ Ex) as H.
  destruct (script_filter_fb x H) as (x' & E1 & L1 & V1). rewrite E1 in Ex. injection Ex as <-.
  destruct (script_filter_fb (rev x)) as (z' & E3 & L3 & V3); [rewrite rev_length; exact H|]. rewrite E3. rewrite rev_length in *. f_equal.
  apply (nth_ext _ _ 0 0); [rewrite rev_length; lia|]. intros m Hm. rewrite L3 in Hm. rewrite V3 by lia. rewrite rev_nth' by lia. rewrite V1 by lia.
  rewrite (fb_ext hw (reflected (rev x)) (fun z => reflected x (Z.of_nat (length x) - 1 - z))) by (intros z Hz; apply reflected_rev; lia).
  rewrite fb_flip. f_equal. rewrite L1. lia.
Qed.
Print Assumptions C81_reversal.

(** Away from the ends the filter sees only the record: 479 samples to either side. *)
Theorem C81_interior : forall h f n y, four_minute_low_pass h -> script_filter (map (fun k => f (Z.of_nat k)) (seq 0 n)) = Ok y ->
  forall m, (479 <= m)%nat -> (m + 480 <= n)%nat -> nth m y 0 = forwards_backwards h f (Z.of_nat m).
Proof.
  intros h f n y Hh Ex m H1 H2. assert (Lx : length (map (fun k => f (Z.of_nat k)) (seq 0 n)) = n) by (rewrite map_length, seq_length; reflexivity).
  pose proof (script_filter_len _ _ Ex) as H. rewrite Lx in H.
  destruct (script_filter_fb _ ltac:(rewrite Lx; exact H)) as (y' & E & L & V). rewrite E in Ex. injection Ex as <-. rewrite Lx in *. rewrite V by lia.
  assert (W : forall k, (k < 480)%nat -> hw k = h k) by (apply C81_weights_unique; [exact hw_low_pass|exact Hh]).
  unfold forwards_backwards. apply Rsum_ext. intros i Hi. apply Rsum_ext. intros j Hj. rewrite !W by assumption. f_equal.
  replace (Z.of_nat m + Z.of_nat i - Z.of_nat j)%Z with (Z.of_nat (m + i - j)) by lia. rewrite reflected_in by (rewrite Lx; lia).
  rewrite nth_map_seq by lia. reflexivity.
Qed.
Print Assumptions C81_interior.

(** A wave keeps its phase; its amplitude is multiplied by the gain. *)
Theorem C81_waves : forall h w ph n y, four_minute_low_pass h -> script_filter (map (fun k => cos (w * INR k + ph)) (seq 0 n)) = Ok y ->
  forall m, (479 <= m)%nat -> (m + 480 <= n)%nat -> nth m y 0 = gain h w * cos (w * INR m + ph).
Proof.
  intros h w ph n y Hh Ex m H1 H2. rewrite (C81_interior h (fun z => cos (w * IZR z + ph)) n y Hh); [|rewrite <- Ex; f_equal; apply map_ext; intros k; rewrite <- INR_IZR_INZ; reflexivity|exact H1|exact H2].
  rewrite fb_wave, <- INR_IZR_INZ. reflexivity.
Qed.
Print Assumptions C81_waves.

(** The scripts cut off 480 samples at the start and 240 at the end.  At the start this leaves only values that do not depend on the continuation ... *)
Theorem C81_trimmed_start : forall h f n y, four_minute_low_pass h -> script_filter (map (fun k => f (Z.of_nat k)) (seq 0 n)) = Ok y ->
  length (script_trim y) = (n - 720)%nat /\
  forall m, (m + 960 <= n)%nat -> nth m (script_trim y) 0 = forwards_backwards h f (Z.of_nat (m + 480)).
Proof.
  intros h f n y Hh Ex. assert (Lx : length (map (fun k => f (Z.of_nat k)) (seq 0 n)) = n) by (rewrite map_length, seq_length; reflexivity).
  assert (Ly : length y = n /\ (1440 < n)%nat).
  { pose proof (script_filter_len _ _ Ex) as H. rewrite Lx in H.
    destruct (script_filter_fb _ ltac:(rewrite Lx; exact H)) as (y' & E & L & _). rewrite E in Ex. injection Ex as <-. rewrite Lx in L. auto. }
  destruct Ly as [Ly H]. unfold script_trim, script_taps. split; [rewrite slice_length; lia|]. intros m Hm. rewrite nth_slice by lia.
  rewrite (C81_interior h f n y Hh Ex) by lia. f_equal. lia.
Qed.
Print Assumptions C81_trimmed_start.
(** ... but not at the end. *)
Theorem C81_trimmed_free_of_edges_refuted : exists f n y m, script_filter (map (fun k => f (Z.of_nat k)) (seq 0 n)) = Ok y /\ (m < length (script_trim y))%nat /\
  forall h, four_minute_low_pass h -> nth m (script_trim y) 0 <> forwards_backwards h f (Z.of_nat (m + 480)).
Proof.
  set (f := fun z : Z => if (z =? 1736)%Z then 1 else 0).
  assert (Ez : map (fun k => f (Z.of_nat k)) (seq 0 1500) = map (fun k => 0 + 0 * INR k) (seq 0 1500)).
  { apply map_ext_in. intros k Hk. apply in_seq in Hk. unfold f. replace (Z.of_nat k =? 1736)%Z with false by (symmetry; apply Z.eqb_neq; lia). ring. }
  exists f, 1500%nat, (map (fun k => 0 + 0 * INR k) (seq 0 1500)), 779%nat. split; [|split].
  - rewrite Ez. apply (C81_lines_kept _ 0 0); rewrite map_length, seq_length; [lia|]. intros k Hk. rewrite nth_map_seq by exact Hk. reflexivity.
  - unfold script_trim. rewrite slice_length, map_length, seq_length. unfold script_taps. lia.
  - intros h Hh. unfold script_trim, script_taps. rewrite map_length, seq_length. rewrite nth_slice by (rewrite ?map_length, ?seq_length; lia). rewrite nth_map_seq by lia.
    replace (0 + 0 * INR (480 + 779)) with 0 by ring.
    assert (W : forall k, (k < 480)%nat -> h k = hw k) by (apply C81_weights_unique; [exact Hh|exact hw_low_pass]).
    pose proof raw_sum_pos as Hs.
    assert (B0 : window 239.5 = 0). { unfold window. replace (2 * PI * 239.5 / 479) with PI by lra. rewrite cos_PI. lra. }
    assert (R0 : raw 0 = 0) by (rewrite raw_form by (cbn [INR]; lra); rewrite (blackman_center 0 239.5), B0 by (right; cbn [INR]; lra); ring).
    assert (R479 : raw 479 = 0).
    { change 479%nat with (240 + 239)%nat. rewrite raw_right. unfold wave. replace (INR 239 + 0.5) with 239.5 by (replace (INR 239) with 239 by (rewrite INR_IZR_INZ; reflexivity); lra). rewrite B0. ring. }
    assert (E238 : INR 238 + 0.5 = 238.5) by (replace (INR 238) with 238 by (rewrite INR_IZR_INZ; reflexivity); lra).
    assert (R478 : raw 478 = wave 238.5) by (change 478%nat with (240 + 238)%nat; rewrite raw_right, E238; reflexivity).
    assert (R1 : raw 1 = wave 238.5) by (change 1%nat with (240 - 1 - 238)%nat; rewrite raw_left, E238 by lia; reflexivity).
    assert (Wn : wave 238.5 <> 0).
    { unfold wave. pose proof PI_RGT_0 as HP. apply Rmult_integral_contrapositive. split.
      - apply Rmult_integral_contrapositive. split.
        + replace (PI * 238.5 / 120) with (- (PI * 1.5 / 120) + 2 * INR 1 * PI) by (cbn [INR]; lra). rewrite sin_period, sin_neg.
          assert (0 < sin (PI * 1.5 / 120)) by (apply sin_gt_0; lra). lra.
        + apply Rinv_neq_0_compat. apply Rmult_integral_contrapositive. lra.
      - unfold window. replace (2 * PI * 238.5 / 479) with (- (2 * PI / 479) + PI) by lra. rewrite neg_cos, cos_neg.
        assert (C : cos (2 * PI / 479) < 1) by (apply cos_lt_1; lra). pose proof (COS_bound (2 * PI / 479)). nra. }
    unfold forwards_backwards. rewrite (Rsum_single 480 478); [|lia|].
    + rewrite (Rsum_single 480 1); [|lia|].
      * change (f (Z.of_nat (779 + 480) + Z.of_nat 478 - Z.of_nat 1)%Z) with 1. rewrite !W by lia. rewrite !hw_raw by lia. rewrite R478, R1.
        intros E. symmetry in E. rewrite Rmult_1_r in E.
        assert (N : wave 238.5 / Rsum 480 raw <> 0) by (apply Rmult_integral_contrapositive; split; [exact Wn|apply Rinv_neq_0_compat; lra]).
        apply Rmult_integral in E. destruct E as [E|E]; exact (N E).
      * intros j Hj Nj. unfold f. destruct (Z.eqb_spec (Z.of_nat (779 + 480) + Z.of_nat 478 - Z.of_nat j) 1736) as [E|_]; [lia|ring].
    + intros i Hi Ni. apply Rsum_eq0. intros j Hj. unfold f.
      destruct (Z.eqb_spec (Z.of_nat (779 + 480) + Z.of_nat i - Z.of_nat j) 1736) as [E|_]; [|ring]. rewrite Rmult_1_r.
      assert (C : (i = 477 /\ j = 0 \/ i = 479 /\ j = 2)%nat) by lia. rewrite !W by assumption. rewrite !hw_raw by assumption.
      destruct C as [[-> ->]|[-> ->]]; rewrite ?R0, ?R479; unfold Rdiv; ring.
Qed.
Print Assumptions C81_trimmed_free_of_edges_refuted.
Example C81_case : script_filter (map (fun k => 7 - 2 * INR k) (seq 0 2000)) = Ok (map (fun k => 7 - 2 * INR k) (seq 0 2000)) /\
  script_filter (map INR (seq 0 1440)) = Raise ValueError /\ reflected [1; 2; 5] (-1) = 0 /\ reflected [1; 2; 5] 3 = 8.
Proof.
  split; [|split; [|split]].
  - apply (C81_lines_kept _ 7 (-2)); rewrite map_length, seq_length; [lia|]. intros k Hk. rewrite nth_map_seq by exact Hk. ring.
  - apply filtfilt_short. rewrite script_B_length, map_length, seq_length. lia.
  - change (2 * 1 - 2 = 0). lra.
  - change (2 * 5 - 2 = 8). lra.
Qed.
