(** Lemmas on zero-phase filtering. *)
From Coq Require Import ZArith Reals Lia Lra Arith List Bool.
From Verif Require Import M_Py L_Base S_Base M_Np L_Np M_Nav M_CC L_CC S_Filt M_Filt.
Import ListNotations.
Open Scope R_scope.

Lemma rev_nth' (l : list R) k d : (k < length l)%nat -> nth k (rev l) d = nth (length l - 1 - k) l d.
Proof. intros H. rewrite rev_nth by exact H. f_equal. lia. Qed.
Lemma odd_ext_length x e : (e < length x)%nat -> length (odd_ext x e) = (length x + 2 * e)%nat.
Proof. intros H. unfold odd_ext. rewrite !app_length, !map_length, !rev_length, !slice_length. lia. Qed.
Lemma map_nth0 (f : R -> R) l k : (k < length l)%nat -> nth k (map f l) 0 = f (nth k l 0).
Proof. intros H. rewrite (nth_indep _ 0 (f 0)) by (rewrite map_length; exact H). apply map_nth. Qed.
Lemma nth_odd_ext x e p : (e < length x)%nat -> (p < length x + 2 * e)%nat ->
  nth p (odd_ext x e) 0 = reflected x (Z.of_nat p - Z.of_nat e).
Proof.
  intros He Hp. unfold odd_ext, reflected.
  set (L := map (fun v => 2 * nth 0 x 0 - v) (rev (slice x 1 (e + 1)))).
  assert (LL : length L = e) by (unfold L; rewrite map_length, rev_length, slice_length; lia).
  destruct (Nat.lt_ge_cases p e) as [H1|H1].
  - replace (Z.of_nat p - Z.of_nat e <? 0)%Z with true by (symmetry; apply Z.ltb_lt; lia).
    rewrite app_nth1 by lia. unfold L. rewrite map_nth0 by (rewrite rev_length, slice_length; lia).
    rewrite rev_nth' by (rewrite slice_length; lia). rewrite slice_length. rewrite nth_slice by lia. do 2 f_equal. lia.
  - replace (Z.of_nat p - Z.of_nat e <? 0)%Z with false by (symmetry; apply Z.ltb_ge; lia).
    rewrite app_nth2 by lia. rewrite LL.
    destruct (Nat.lt_ge_cases (p - e) (length x)) as [H2|H2].
    + replace (Z.of_nat p - Z.of_nat e <? Z.of_nat (length x))%Z with true by (symmetry; apply Z.ltb_lt; lia).
      rewrite app_nth1 by lia. f_equal. lia.
    + replace (Z.of_nat p - Z.of_nat e <? Z.of_nat (length x))%Z with false by (symmetry; apply Z.ltb_ge; lia).
      rewrite app_nth2 by lia. rewrite map_nth0 by (rewrite rev_length, slice_length; lia).
      rewrite rev_nth' by (rewrite slice_length; lia). rewrite slice_length. rewrite nth_slice by lia. do 2 f_equal. lia.
Qed.
Lemma lfilter_start_length b x c : length (lfilter_start b x c) = length x.
Proof. unfold lfilter_start. rewrite map_length, seq_length. reflexivity. Qed.
Lemma nth_lfilter_start b x c k : (k < length x)%nat -> (length b <= S k)%nat ->
  nth k (lfilter_start b x c) 0 = Rsum (length b) (fun j => nth j b 0 * nth (k - j) x 0).
Proof.
  intros H Hb. unfold lfilter_start. rewrite nth_map_seq by exact H. rewrite nth_lfilter by assumption.
  rewrite (nth_overflow (lfilter_zi b)) by (unfold lfilter_zi; rewrite map_length, seq_length; lia). ring.
Qed.
Lemma filtfilt_short b x : (length x <= 3 * Nat.max 1 (length b))%nat -> filtfilt b x = Raise ValueError.
Proof. intros H. unfold filtfilt. apply Nat.leb_le in H. rewrite H. reflexivity. Qed.
Lemma filtfilt_ok b x : (1 <= length b)%nat -> (3 * length b < length x)%nat ->
  exists y, filtfilt b x = Ok y /\ length y = length x /\
  forall m, (m < length x)%nat -> nth m y 0 =
    Rsum (length b) (fun i => Rsum (length b) (fun j => nth i b 0 * nth j b 0 * reflected x (Z.of_nat m + Z.of_nat i - Z.of_nat j))).
Proof.
  intros Hb H. unfold filtfilt. replace (Nat.max 1 (length b)) with (length b) by lia. set (e := (3 * length b)%nat) in *.
  replace (length x <=? e)%nat with false by (symmetry; apply Nat.leb_gt; lia).
  set (ext := odd_ext x e). set (y1 := lfilter_start b ext (nth 0 ext 0)). set (y0 := nth (length y1 - 1) y1 0).
  set (y2 := rev (lfilter_start b (rev y1) y0)).
  assert (Le : length ext = (length x + 2 * e)%nat) by (apply odd_ext_length; exact H).
  assert (L1 : length y1 = length ext) by apply lfilter_start_length.
  assert (L2 : length y2 = length ext) by (unfold y2; rewrite rev_length, lfilter_start_length, rev_length; exact L1).
  assert (N1 : forall k, (k < length ext)%nat -> (length b <= S k)%nat -> nth k y1 0 = Rsum (length b) (fun j => nth j b 0 * nth (k - j) ext 0)) by (intros k K1 K2; apply nth_lfilter_start; assumption).
  eexists. split; [reflexivity|]. split; [rewrite slice_length; lia|]. intros m Hm.
  rewrite nth_slice by lia. unfold y2. rewrite rev_nth' by (rewrite lfilter_start_length, rev_length; lia). rewrite lfilter_start_length, rev_length.
  rewrite nth_lfilter_start by (rewrite ?rev_length; lia). apply Rsum_ext. intros i Hi.
  rewrite rev_nth' by lia. rewrite N1 by lia.
  rewrite <- Rsum_scal. apply Rsum_ext. intros j Hj. rewrite <- Rmult_assoc. f_equal. unfold ext. rewrite nth_odd_ext by lia. f_equal. fold ext. lia.
Qed.

(** ** The weights *)
Lemma INR_479 : INR (480 - 1) = 479.
Proof. replace (480 - 1)%nat with 479%nat by reflexivity. rewrite INR_IZR_INZ. reflexivity. Qed.
Definition raw (k : nat) : R := firwin_raw 480 (1 / 240 / (1 / 2)) k.
Definition window (p : R) : R := (1 + cos (2 * PI * p / 479)) * (0.34 + 0.16 * cos (2 * PI * p / 479)).
Definition wave (p : R) : R := sin (PI * p / 120) / (PI * p) * window p.
Lemma blackman_center k p : INR k - 239.5 = p \/ 239.5 - INR k = p -> blackman 480 k = window p.
Proof.
  intros H. unfold blackman. cbv zeta. rewrite INR_479, cos_2a_cos.
  assert (E : cos (2 * PI * INR k / 479) = - cos (2 * PI * p / 479)).
  { destruct H as [<-|<-].
    - replace (2 * PI * INR k / 479) with (2 * PI * (INR k - 239.5) / 479 + PI) by lra. apply neg_cos.
    - replace (2 * PI * INR k / 479) with (- (2 * PI * (239.5 - INR k) / 479) + PI) by lra. rewrite neg_cos, cos_neg. reflexivity. }
  rewrite E. unfold window. generalize (cos (2 * PI * p / 479)). intros c. lra.
Qed.
Lemma sinc_form f x : x <> 0 -> f <> 0 -> f * np_sinc (f * x) = sin (PI * (f * x)) / (PI * x).
Proof.
  intros H F. unfold np_sinc. destruct (Req_EM_T (f * x) 0) as [E|E]; [exfalso; apply Rmult_integral in E; tauto|]. pose proof PI_neq0. field. auto.
Qed.
Lemma raw_form k : INR k - 239.5 <> 0 -> raw k = sin (2 * PI * (INR k - 239.5) / 240) / (PI * (INR k - 239.5)) * blackman 480 k.
Proof.
  intros H. unfold raw, firwin_raw. cbv zeta. rewrite INR_479.
  replace (INR k - 0.5 * 479) with (INR k - 239.5) by lra. rewrite sinc_form; [|exact H|lra].
  replace (PI * (1 / 240 / (1 / 2) * (INR k - 239.5))) with (2 * PI * (INR k - 239.5) / 240) by lra. reflexivity.
Qed.
Lemma raw_right i : raw (240 + i) = wave (INR i + 0.5).
Proof.
  assert (E : INR (240 + i) - 239.5 = INR i + 0.5) by (rewrite plus_INR; replace (INR 240) with 240 by (rewrite INR_IZR_INZ; reflexivity); lra).
  pose proof (pos_INR i). rewrite raw_form by (rewrite E; lra). rewrite (blackman_center _ (INR i + 0.5)) by (left; exact E). rewrite E. unfold wave.
  replace (2 * PI * (INR i + 0.5) / 240) with (PI * (INR i + 0.5) / 120) by lra. reflexivity.
Qed.
Lemma raw_left i : (i < 240)%nat -> raw (240 - 1 - i) = wave (INR i + 0.5).
Proof.
  intros Hi. assert (E : INR (240 - 1 - i) - 239.5 = - (INR i + 0.5)).
  { replace (240 - 1 - i)%nat with (239 - i)%nat by lia. rewrite minus_INR by lia. replace (INR 239) with 239 by (rewrite INR_IZR_INZ; reflexivity). lra. }
  pose proof (pos_INR i). rewrite raw_form by (rewrite E; lra). rewrite (blackman_center _ (INR i + 0.5)) by (right; lra). rewrite E. unfold wave.
  replace (2 * PI * - (INR i + 0.5) / 240) with (- (PI * (INR i + 0.5) / 120)) by lra. rewrite sin_neg. f_equal. pose proof PI_neq0. field. split; [lra|exact H0].
Qed.
Lemma window_mono p q : 0 <= p < q -> q <= 239.5 -> window q < window p /\ 0 <= window q.
Proof.
  intros H Hq. unfold window. pose proof PI_RGT_0.
  assert (C : cos (2 * PI * q / 479) < cos (2 * PI * p / 479)) by (apply cos_decreasing_1; nra).
  pose proof (COS_bound (2 * PI * q / 479)). pose proof (COS_bound (2 * PI * p / 479)). revert C H1 H2. generalize (cos (2 * PI * q / 479)) (cos (2 * PI * p / 479)).
  intros a b C A B. split; nra.
Qed.
Lemma wave_pair p : 0 < p -> p <= 119.5 -> 0 < wave p + wave (p + 120).
Proof.
  intros H1 H2. unfold wave. pose proof PI_RGT_0 as HP. destruct (window_mono p (p + 120)) as [W1 W2]; [lra|lra|].
  replace (PI * (p + 120) / 120) with (PI * p / 120 + PI) by field. rewrite neg_sin.
  assert (S : 0 < sin (PI * p / 120)) by (apply sin_gt_0; nra).
  replace (sin (PI * p / 120) / (PI * p) * window p + - sin (PI * p / 120) / (PI * (p + 120)) * window (p + 120))
    with (sin (PI * p / 120) / PI * ((window p * (p + 120) - window (p + 120) * p) / (p * (p + 120)))) by (field; lra).
  apply Rmult_lt_0_compat; [apply Rdiv_lt_0_compat; assumption|]. apply Rdiv_lt_0_compat; nra.
Qed.
Lemma raw_sum_pos : 0 < Rsum 480 raw.
Proof.
  change 480%nat with (240 + 240)%nat. rewrite Rsum_split, (Rsum_rev 240 raw).
  rewrite (Rsum_ext 240 (fun i => raw (240 - 1 - i)) (fun i => wave (INR i + 0.5))) by (intros i Hi; apply raw_left; exact Hi).
  rewrite (Rsum_ext 240 (fun i => raw (240 + i)) (fun i => wave (INR i + 0.5))) by (intros; apply raw_right).
  assert (P : 0 < Rsum 240 (fun i => wave (INR i + 0.5))); [|lra].
  change 240%nat with (120 + 120)%nat. rewrite Rsum_split, <- Rsum_plus. apply Rsum_pos; [lia|]. intros i Hi.
  replace (INR (120 + i) + 0.5) with (INR i + 0.5 + 120) by (rewrite plus_INR; replace (INR 120) with 120 by (rewrite INR_IZR_INZ; reflexivity); lra).
  apply wave_pair; [pose proof (pos_INR i); lra|]. apply le_INR in Hi. rewrite S_INR in Hi. replace (INR 120) with 120 in Hi by (rewrite INR_IZR_INZ; reflexivity). lra.
Qed.
Definition hw (k : nat) : R := nth k script_B 0.
Lemma script_B_length : length script_B = 480%nat.
Proof. unfold script_B, firwin. rewrite !map_length, seq_length. reflexivity. Qed.
Lemma hw_raw k : (k < 480)%nat -> hw k = raw k / Rsum 480 raw.
Proof.
  intros H. unfold hw, script_B, firwin, script_taps. rewrite pysum_map_seq. rewrite (nth_map _ _ _ _ _ _ 0) by (rewrite map_length, seq_length; exact H).
  rewrite nth_map_seq by exact H. reflexivity.
Qed.
Lemma hw_low_pass : four_minute_low_pass hw.
Proof.
  pose proof raw_sum_pos as Hs. split.
  - rewrite (Rsum_ext 480 hw (fun k => raw k / Rsum 480 raw)) by (intros; apply hw_raw; assumption). rewrite Rsum_div. field. lra.
  - exists (/ Rsum 480 raw). intros k Hk. cbv zeta. rewrite hw_raw by exact Hk. revert Hs. generalize (Rsum 480 raw). intros s Hs.
    assert (Hm : INR k - 239.5 <> 0).
    { intros E. assert (E2 : INR (2 * k) = 479) by (rewrite mult_INR; cbn [INR]; lra). rewrite INR_IZR_INZ in E2. apply eq_IZR in E2. lia. }
    rewrite raw_form by exact Hm. assert (E : blackman 480 k = taper k).
    { unfold blackman, taper. cbv zeta. rewrite INR_479. replace (2 * (2 * PI * INR k / 479)) with (4 * PI * INR k / 479) by field. reflexivity. }
    rewrite E. pose proof PI_neq0. field. repeat split; first [exact Hm|exact H|lra].
Qed.

(** ** Signals *)
Lemma fb_ext h f g m : (forall z, (m - 480 < z < m + 480)%Z -> f z = g z) -> forwards_backwards h f m = forwards_backwards h g m.
Proof. intros H. unfold forwards_backwards. apply Rsum_ext. intros i Hi. apply Rsum_ext. intros j Hj. rewrite H by lia. reflexivity. Qed.
Lemma fb_linear h f g a b m : forwards_backwards h (fun z => a * f z + b * g z) m = a * forwards_backwards h f m + b * forwards_backwards h g m.
Proof.
  unfold forwards_backwards. rewrite <- !Rsum_scal, <- Rsum_plus. apply Rsum_ext. intros i Hi. rewrite <- !Rsum_scal, <- Rsum_plus. apply Rsum_ext. intros j Hj. ring.
Qed.
Lemma fb_flip h f c m : forwards_backwards h (fun z => f (c - z)%Z) m = forwards_backwards h f (c - m)%Z.
Proof.
  unfold forwards_backwards. rewrite Rsum_swap. apply Rsum_ext. intros i Hi. apply Rsum_ext. intros j Hj. rewrite (Rmult_comm (h j)). do 2 f_equal. lia.
Qed.
Lemma IZR_shift m i j : IZR (m + Z.of_nat i - Z.of_nat j) = IZR m + INR i - INR j.
Proof. rewrite minus_IZR, plus_IZR, <- !INR_IZR_INZ. reflexivity. Qed.
Lemma Rsum_prod n f g : Rsum n (fun i => Rsum n (fun j => f i * g j)) = Rsum n f * Rsum n g.
Proof. rewrite <- Rsum_scal_r. apply Rsum_ext. intros i Hi. apply Rsum_scal. Qed.
Lemma fb_line h a b m : Rsum 480 h = 1 -> forwards_backwards h (fun z => a + b * IZR z) m = a + b * IZR m.
Proof.
  intros H. unfold forwards_backwards.
  rewrite (Rsum_ext 480 _ (fun i => Rsum 480 (fun j => ((a + b * IZR m) * h i) * h j) + (Rsum 480 (fun j => (b * (INR i * h i)) * h j) - Rsum 480 (fun j => (b * h i) * (INR j * h j))))).
  - rewrite Rsum_plus, Rsum_minus, (Rsum_prod 480 (fun i => (a + b * IZR m) * h i) h), (Rsum_prod 480 (fun i => b * (INR i * h i)) h), (Rsum_prod 480 (fun i => b * h i) (fun j => INR j * h j)).
    rewrite !Rsum_scal, H. ring.
  - intros i Hi. rewrite <- Rsum_minus, <- Rsum_plus. apply Rsum_ext. intros j Hj. rewrite IZR_shift. ring.
Qed.
Lemma fb_wave h w ph m : forwards_backwards h (fun z => cos (w * IZR z + ph)) m = gain h w * cos (w * IZR m + ph).
Proof.
  unfold forwards_backwards, gain. set (C := fun j => h j * cos (w * INR j)). set (S := fun j => h j * sin (w * INR j)). set (t := w * IZR m + ph).
  rewrite (Rsum_ext 480 _ (fun i => Rsum 480 (fun j => (cos t * C i) * C j) + Rsum 480 (fun j => (cos t * S i) * S j) + (Rsum 480 (fun j => (sin t * C i) * S j) - Rsum 480 (fun j => (sin t * S i) * C j)))).
  - rewrite !Rsum_plus, Rsum_minus, (Rsum_prod 480 (fun i => cos t * C i) C), (Rsum_prod 480 (fun i => cos t * S i) S), (Rsum_prod 480 (fun i => sin t * C i) S), (Rsum_prod 480 (fun i => sin t * S i) C).
    rewrite !Rsum_scal. ring.
  - intros i Hi. rewrite <- Rsum_minus, <- !Rsum_plus. apply Rsum_ext. intros j Hj. rewrite IZR_shift.
    replace (w * (IZR m + INR i - INR j) + ph) with (t + (w * INR i - w * INR j)) by (unfold t; ring).
    rewrite cos_plus, cos_minus, sin_minus. unfold C, S. ring.
Qed.
Lemma reflected_in x k : (k < length x)%nat -> reflected x (Z.of_nat k) = nth k x 0.
Proof.
  intros H. unfold reflected. replace (Z.of_nat k <? 0)%Z with false by (symmetry; apply Z.ltb_ge; lia).
  replace (Z.of_nat k <? Z.of_nat (length x))%Z with true by (symmetry; apply Z.ltb_lt; lia). rewrite Nat2Z.id. reflexivity.
Qed.
Lemma reflected_line x a b z : (forall k, (k < length x)%nat -> nth k x 0 = a + b * INR k) -> (0 < length x)%nat ->
  (- Z.of_nat (length x) < z < 2 * Z.of_nat (length x) - 1)%Z -> reflected x z = a + b * IZR z.
Proof.
  intros H L Hz. unfold reflected. destruct (Z.ltb_spec z 0) as [H1|H1].
  - rewrite !H by lia. cbn [INR]. rewrite INR_IZR_INZ, Z2Nat.id by lia. rewrite opp_IZR. ring.
  - destruct (Z.ltb_spec z (Z.of_nat (length x))) as [H2|H2].
    + rewrite H by lia. rewrite INR_IZR_INZ, Z2Nat.id by lia. reflexivity.
    + rewrite !H by lia. rewrite !INR_IZR_INZ, Z2Nat.id by lia. rewrite Nat2Z.inj_sub by lia. rewrite !minus_IZR, mult_IZR, minus_IZR. cbn [Z.of_nat Pos.of_succ_nat]. ring.
Qed.
Lemma reflected_linear x y a b z : length y = length x -> (0 < length x)%nat -> (- Z.of_nat (length x) < z < 2 * Z.of_nat (length x) - 1)%Z ->
  reflected (map2 (fun u v => a * u + b * v) x y) z = a * reflected x z + b * reflected y z.
Proof.
  intros L L0 Hz. assert (Lm : length (map2 (fun u v => a * u + b * v) x y) = length x) by (rewrite map2_length; lia).
  assert (N : forall k, (k < length x)%nat -> nth k (map2 (fun u v => a * u + b * v) x y) 0 = a * nth k x 0 + b * nth k y 0) by (intros k K; apply (map2_nth _ _ _ (fun u v => a * u + b * v) x y k 0 0 0); lia).
  unfold reflected. rewrite Lm, L. destruct (Z.ltb_spec z 0) as [H1|H1]; [rewrite !N by lia; ring|].
  destruct (Z.ltb_spec z (Z.of_nat (length x))) as [H2|H2]; rewrite !N by lia; ring.
Qed.
Lemma reflected_rev x z : (0 < length x)%nat -> (- Z.of_nat (length x) < z < 2 * Z.of_nat (length x) - 1)%Z ->
  reflected (rev x) z = reflected x (Z.of_nat (length x) - 1 - z).
Proof.
  intros L Hz. unfold reflected. rewrite rev_length.
  destruct (Z.ltb_spec z 0) as [H1|H1].
  - destruct (Z.ltb_spec (Z.of_nat (length x) - 1 - z) 0); [lia|]. destruct (Z.ltb_spec (Z.of_nat (length x) - 1 - z) (Z.of_nat (length x))); [lia|].
    rewrite !rev_nth' by lia. f_equal; [f_equal; f_equal; lia|f_equal; lia].
  - destruct (Z.ltb_spec z (Z.of_nat (length x))) as [H2|H2].
    + destruct (Z.ltb_spec (Z.of_nat (length x) - 1 - z) 0); [lia|]. destruct (Z.ltb_spec (Z.of_nat (length x) - 1 - z) (Z.of_nat (length x))); [|lia].
      rewrite !rev_nth' by lia. f_equal; lia.
    + destruct (Z.ltb_spec (Z.of_nat (length x) - 1 - z) 0); [|lia].
      rewrite !rev_nth' by lia. f_equal; [f_equal; f_equal; lia|f_equal; lia].
Qed.
Lemma script_filter_fb x : (1440 < length x)%nat -> exists y, script_filter x = Ok y /\ length y = length x /\
  forall m, (m < length x)%nat -> nth m y 0 = forwards_backwards hw (reflected x) (Z.of_nat m).
Proof.
  intros H. destruct (filtfilt_ok script_B x) as (y & E & L & V); rewrite ?script_B_length; [lia|lia|]. exists y. split; [exact E|]. split; [exact L|].
  intros m Hm. rewrite (V m Hm), script_B_length. unfold forwards_backwards, hw. reflexivity.
Qed.
Lemma script_filter_len x y : script_filter x = Ok y -> (1440 < length x)%nat.
Proof.
  intros H. destruct (Nat.le_gt_cases (length x) 1440) as [S|L]; [|exact L]. unfold script_filter in H. rewrite (filtfilt_short script_B x) in H by (rewrite script_B_length; lia). discriminate.
Qed.
