(** Property C100: crustal thickness along the line (RMBA_calc.py 229-258). *)
From Coq Require Import List Reals Arith Lia Lra Bool.
From Coquelicot Require Import Rbar.
From Verif Require Import M_Py M_CC M_Fft M_Four M_Crust M_Therm M_Faa M_Ext M_Rmba M_Thick S_Base S_Four S_Crust S_Faa S_Rmba S_Thick L_Base L_Np L_CC L_Fft L_Four L_Crust L_Faa L_Thick P_Crust P_Ext P_Rmba.
Import ListNotations.
Open Scope R_scope.

Lemma inr1000 : INR 1000 = 1000.
Proof. change 1000%nat with (Z.to_nat 1000). rewrite INR_IZR_INZ, Z2Nat.id by lia. reflexivity. Qed.

Lemma xobs_length xpts : length (line_xobs xpts) = 1000%nat.
Proof. unfold line_xobs, linspace. rewrite map_length, seq_length. reflexivity. Qed.

(** The spacing is that of the 1000 positions, in km. *)
Theorem C100_spacing : forall xpts, line_dx (line_xobs xpts) = last xpts 0 / 999 / 1000.
Proof.
  intros xpts. unfold line_dx. rewrite np_mean_mean. unfold mean. rewrite np_diff_length, xobs_length.
  rewrite (Rsum_ext _ _ (fun _ => last xpts 0 / 999)).
  - rewrite Rsum_const, inr999. unfold Rdiv. lra.
  - intros i Hi. rewrite nth_np_diff by (rewrite xobs_length; lia). unfold line_xobs. rewrite !linspace_nth by lia. rewrite inr999, S_INR. lra.
Qed.
Print Assumptions C100_spacing.

Lemma values_some l : values (map Some l) = Some l.
Proof. induction l as [|x t IH]; cbn; [reflexivity|rewrite IH; reflexivity]. Qed.
Lemma values_none l : In None l -> values l = None.
Proof. induction l as [|[x|] t IH]; cbn; [tauto| |reflexivity]. intros [H|H]; [discriminate|]. rewrite IH by exact H. reflexivity. Qed.

Lemma displaced_bin P m : 0 < P -> (1 <= m <= 500)%nat ->
  displaced 1000 (P / 1000 * 1e5) m = harmonic_k P (fst (neighbours m)) / 1e5 /\
  displaced 1000 (P / 1000 * 1e5) (1000 - m) = harmonic_k P (snd (neighbours m)) / 1e5.
Proof.
  intros HP Hm. unfold displaced, harmonic_k, neighbours. cbn [fst snd]. rewrite inr1000. rewrite (Rabs_right (P / 1000 * 1e5)) by lra. split.
  - rewrite (proj2 (Nat.leb_le _ _)) by lia. rewrite minus_INR by lia. change (INR 1) with 1. rewrite Rabs_right.
    + field. lra.
    + assert (INR 1 <= INR m) by (apply le_INR; lia). change (INR 1) with 1 in *. lra.
  - destruct (Nat.leb_spec (2 * (1000 - m)) (1000 + 2)) as [L|L].
    + replace (Rabs (INR (1000 - m) - 1)) with (INR (Nat.min (m + 1) (999 - m))); [field; lra|].
      replace (INR (1000 - m)) with (INR (999 - m) + 1) by (rewrite <- S_INR; f_equal; lia). replace (INR (999 - m) + 1 - 1) with (INR (999 - m)) by ring.
      rewrite Rabs_right by (apply Rle_ge, pos_INR). f_equal. lia.
    + replace (1000 + 1 - (1000 - m))%nat with (Nat.min (m + 1) (999 - m)) by lia. field. lra.
Qed.

Lemma displaced2_line n d a : displaced2 n 1 d (0 * 1e5) a 0 = displaced n d a.
Proof.
  unfold displaced2. destruct (Req_EM_T (0 * 1e5) 0) as [_|C]; [|exfalso; apply C; ring]. replace (displaced n d a ^ 2 + 0 ^ 2) with (displaced n d a * displaced n d a) by ring.
  apply sqrt_square, displaced_nonneg.
Qed.

Lemma harmonics_hsum c A B t : harmonics c A B t = c + hsum 500 1000 A B t.
Proof. unfold harmonics, hsum. rewrite inr1000. reflexivity. Qed.
Lemma hsum_ext H N A A' B B' t : (forall m, (1 <= m <= H)%nat -> A m = A' m /\ B m = B' m) -> hsum H N A B t = hsum H N A' B' t.
Proof. intros E. unfold hsum. apply Rsum_ext. intros i Hi. destruct (E (S i) ltac:(lia)) as [-> ->]. reflexivity. Qed.
Lemma hsum_scal H N A B c t : c * hsum H N A B t = hsum H N (fun m => c * A m) (fun m => c * B m) t.
Proof. unfold hsum. rewrite <- Rsum_scal. apply Rsum_ext. intros i _. ring. Qed.
Lemma hsum_period H N A B t : (0 < N)%nat -> hsum H N A B (t + INR N) = hsum H N A B t.
Proof.
  intros HN. assert (Nz : INR N <> 0) by (apply not_0_INR; lia). unfold hsum. apply Rsum_ext. intros i _.
  replace (2 * PI * INR (S i) * (t + INR N) / INR N) with (2 * PI * INR (S i) * t / INR N + 2 * INR (S i) * PI) by (field; exact Nz).
  rewrite cos_period, sin_period. reflexivity.
Qed.

Lemma taper_5 k : taper (2 * PI / (30 * 1e5)) (2 * PI / (5 * 1e5)) (k / 1e5) = share k.
Proof.
  unfold share. replace (2 * PI / (30 * 1e5)) with (2 * PI / 30 / 1e5) by lra. replace (2 * PI / (5 * 1e5)) with (2 * PI / 5 / 1e5) by lra. apply taper_scale. lra.
Qed.

(** Every series of 1000 values is such a sum, so that the theorem below says all about the two curves. *)
Theorem C100_every_series : forall x, length x = 1000%nat -> exists c A B, forall j, (j < 1000)%nat -> nth j x 0 = harmonics c A B (INR j).
Proof.
  intros x L. destruct (every_series 500 (fun j => nth j x 0) ltac:(lia)) as (c & A & B & E). exists c, A, B. intros j Hj. rewrite harmonics_hsum. apply E. exact Hj.
Qed.
Print Assumptions C100_every_series.

(** The two curves the script draws: each harmonic with its gain, one sample early. *)
Theorem C100_curves : forall xpts RM c A B, 0 < last xpts 0 -> length RM = 1000%nat -> (forall j, (j < 1000)%nat -> nth j RM 0 = harmonics c A B (INR j)) ->
  let P := last xpts 0 / 999 in
  exists T G, line_crust (line_xobs xpts) (map Some RM) = Ok (map Some T, map Some G) /\ length T = 1000%nat /\ length G = 1000%nat /\
    forall j, (j < 1000)%nat ->
      nth j G 0 = harmonics c (fun m => halves P share m * A m) (fun m => halves P share m * B m) (INR j + 1) /\
      nth j T 0 = harmonics 0 (fun m => slab_km 0.4 (halves P (fun k => exp (5 * k) * share k) m * A m)) (fun m => slab_km 0.4 (halves P (fun k => exp (5 * k) * share k) m * B m)) (INR j + 1).
Proof.
  intros xpts RM c A B HX LR HR P. assert (HP : 0 < P) by (unfold P; lra). pose proof PI_RGT_0 as Hpi.
  destruct (C50_output RM 1000 1 (P / 1000) 0 5 0.4 30 5 true ltac:(lra) ltac:(lia) ltac:(lia) ltac:(lra) ltac:(lra) ltac:(rewrite LR; lia)) as (U & V & E & LU & LV & F). cbv zeta in F.
  rewrite Nat.mul_1_r in LU, LV.
  exists (map fst (rev U)), (map fst (rev V)). unfold line_crust. rewrite values_some, xobs_length, C100_spacing. fold P. rewrite E. cbn [bind].
  split; [rewrite !map_map; reflexivity|]. split; [rewrite map_length, rev_length; exact LU|]. split; [rewrite map_length, rev_length; exact LV|]. intros j Hj.
  assert (M : mean RM = c).
  { unfold mean. rewrite LR. rewrite (Rsum_ext _ _ (fun i => c + hsum 500 1000 A B (INR i))) by (intros i Hi; rewrite HR by exact Hi; apply harmonics_hsum).
    rewrite Rsum_plus, Rsum_const, hsum_mean by lia. rewrite inr1000. field. }
  rewrite !(nth_map _ _ _ _ _ _ C0) by (rewrite rev_length; rewrite ?LU, ?LV; exact Hj). rewrite !rev_nth by (rewrite ?LU, ?LV; exact Hj). rewrite LU, LV.
  destruct (F (1000 - S j)%nat 0%nat ltac:(lia) ltac:(lia)) as [FU FV]. rewrite Nat.mul_1_r, Nat.add_0_r in FU, FV.
  rewrite FU, FV. cbn [fst]. rewrite M. change (negmod 1 0) with 0%nat. set (i := negmod 1000 (1000 - S j)).
  assert (Wave : forall A B, hsum 500 1000 A B (INR i) = hsum 500 1000 A B (INR j + 1)).
  { intros A' B'. unfold i. rewrite negmod_cases by lia. destruct (Nat.eqb_spec (1000 - S j) 0) as [Z|Z].
    - rewrite <- (hsum_period 500 1000 A' B' (INR 0)) by lia. f_equal. rewrite <- S_INR. replace (S j) with 1000%nat by lia. cbn [INR]. ring.
    - rewrite <- S_INR. f_equal. f_equal. lia. }
  assert (Uu : forall w, filtered 1000 1 w (fun i0 j0 => - (nth (i0 * 1 + j0) RM 0 - c) / 1000) cos i 0 = - / 1000 * hsum 500 1000 (fun m => (w m 0%nat + w (1000 - m)%nat 0%nat) / 2 * A m) (fun m => (w m 0%nat + w (1000 - m)%nat 0%nat) / 2 * B m) (INR j + 1)).
  { intros w. rewrite <- Wave, <- filtered_hsum by lia. rewrite !filtered_line. f_equal. apply Rsum_ext. intros a _. apply Rsum_ext. intros l Hl. f_equal. f_equal.
    rewrite Nat.mul_1_r, Nat.add_0_r. rewrite HR by exact Hl. rewrite harmonics_hsum. lra. }
  rewrite !Uu. rewrite !harmonics_hsum, !hsum_scal. split.
  - f_equal. apply hsum_ext. intros m Hm. destruct (displaced_bin P m HP Hm) as [D1 D2]. rewrite !displaced2_line, D1, D2.
    rewrite !taper_5. unfold halves, share. split; lra.
  - rewrite Rplus_0_l. apply hsum_ext. intros m Hm. destruct (displaced_bin P m HP Hm) as [D1 D2]. rewrite !displaced2_line, D1, D2.
    rewrite !taper_5. unfold halves. set (k1 := harmonic_k P (fst (neighbours m))). set (k2 := harmonic_k P (snd (neighbours m))).
    replace (k1 / 1e5 * (5 * 1e5)) with (5 * k1) by lra. replace (k2 / 1e5 * (5 * 1e5)) with (5 * k2) by lra. unfold slab_km, share.
    split; field; lra.
Qed.
Print Assumptions C100_curves.

(** A wavelength so long that its neighbour is above 30 km too is recovered unchanged, but its thickness comes out too large by the hyperbolic cosine of
    5 km times the wavenumber of the line; one so short that its neighbour is below 5 km is removed. *)
Theorem C100_gains : forall P m, 0 < P -> (1 <= m <= 499)%nat ->
  (30 * INR (m + 1) <= P -> halves P share m = 1 /\ halves P (fun k => exp (5 * k) * share k) m = cosh (10 * PI / P) * exp (5 * harmonic_k P m)) /\
  (P < 5 * INR (m - 1) -> halves P share m = 0 /\ halves P (fun k => exp (5 * k) * share k) m = 0).
Proof.
  intros P m HP Hm. pose proof PI_RGT_0 as Hpi. unfold halves, neighbours. cbn [fst snd]. replace (Nat.min (m + 1) (999 - m)) with (m + 1)%nat by lia.
  assert (HM : 1 <= INR m) by (apply (le_INR 1); lia).
  assert (E1 : INR (m - 1) = INR m - 1) by (rewrite minus_INR by lia; reflexivity). assert (E2 : INR (m + 1) = INR m + 1) by (rewrite plus_INR; reflexivity).
  assert (L : forall a b, 0 < b -> (2 * PI * a / P <= 2 * PI / b <-> b * a <= P)).
  { intros a b Hb. replace (2 * PI * a / P) with (2 * PI / (P * b) * (b * a)) by (field; lra). replace (2 * PI / b) with (2 * PI / (P * b) * P) by (field; lra).
    assert (Q : 0 < 2 * PI / (P * b)) by (apply Rdiv_lt_0_compat; [lra|apply Rmult_lt_0_compat; lra]). split; intros H; [apply Rmult_le_reg_l in H; assumption|apply Rmult_le_compat_l; lra]. }
  unfold harmonic_k, share, taper. rewrite E1, E2. split; intros H.
  - destruct (Rle_dec (2 * PI * (INR m - 1) / P) (2 * PI / 30)) as [_|C]; [|exfalso; apply C; apply L; lra].
    destruct (Rle_dec (2 * PI * (INR m + 1) / P) (2 * PI / 30)) as [_|C]; [|exfalso; apply C; apply L; lra]. split; [lra|].
    unfold cosh. replace (5 * (2 * PI * (INR m - 1) / P)) with (5 * (2 * PI * INR m / P) + - (10 * PI / P)) by (field; lra).
    replace (5 * (2 * PI * (INR m + 1) / P)) with (5 * (2 * PI * INR m / P) + (10 * PI / P)) by (field; lra). rewrite !exp_plus. field.
  - assert (Z : forall a, 5 * a > P -> ~ 2 * PI * a / P <= 2 * PI / 5 /\ ~ 2 * PI * a / P <= 2 * PI / 30) by (intros a Ha; split; intros C; apply L in C; lra).
    destruct (Z (INR m - 1) ltac:(lra)) as [Z1 Z2]. destruct (Z (INR m + 1) ltac:(lra)) as [Z3 Z4].
    destruct (Rle_dec (2 * PI * (INR m - 1) / P) (2 * PI / 30)); [tauto|]. destruct (Rle_dec (2 * PI * (INR m + 1) / P) (2 * PI / 30)); [tauto|].
    destruct (Rle_dec (2 * PI * (INR m - 1) / P) (2 * PI / 5)); [tauto|]. destruct (Rle_dec (2 * PI * (INR m + 1) / P) (2 * PI / 5)); [tauto|]. split; lra.
Qed.
Print Assumptions C100_gains.

(** The mean is not part of the thickness, but is of the recovered gravity; without variation there is no thickness. *)
Theorem C100_constant : forall xpts c, 0 < last xpts 0 -> line_crust (line_xobs xpts) (map Some (repeat c 1000)) = Ok (map Some (repeat 0 1000), map Some (repeat c 1000)).
Proof.
  intros xpts c HX. destruct (C100_curves xpts (repeat c 1000) c (fun _ => 0) (fun _ => 0) HX (repeat_length _ _)) as (T & G & E & LT & LG & F).
  { intros j Hj. rewrite nth_repeat_lt by exact Hj. unfold harmonics. rewrite Rsum_eq0 by (intros; ring). ring. }
  rewrite E. f_equal. f_equal; f_equal; apply (list_eq_nth _ _ _ 0); rewrite ?repeat_length; try assumption; intros j Hj; rewrite nth_repeat_lt by lia;
    destruct (F j ltac:(lia)) as [F1 F2]; rewrite ?F1, ?F2; unfold harmonics, slab_km; rewrite Rsum_eq0; try ring; intros; lra.
Qed.
Print Assumptions C100_constant.

(** One missing value leaves nothing; the sizes have to agree; the drawn part is without the first and last hundred values. *)
Theorem C100_missing : forall xpts RM, (In None RM -> length RM = 1000%nat -> line_crust (line_xobs xpts) RM = Ok (repeat None 1000, repeat None 1000)) /\
  (0 < last xpts 0 -> length RM <> 1000%nat -> line_crust (line_xobs xpts) RM = Raise ValueError).
Proof.
  intros xpts RM. unfold line_crust. rewrite xobs_length. split.
  - intros H L. rewrite (values_none _ H), L. reflexivity.
  - intros HX L. destruct (values RM) as [ur|] eqn:V.
    + assert (length ur = length RM). { clear L. revert ur V. induction RM as [|[x|] t IH]; intros ur V; cbn in V; [injection V as <-; reflexivity| |discriminate]. destruct (values t) as [u|]; [|discriminate]. injection V as <-. cbn. rewrite (IH u eq_refl). reflexivity. }
      rewrite C52_size_checked; [reflexivity|lra|lia|lia|lra| |lia]. rewrite C100_spacing. lra.
    + replace (length RM =? 1000 * 1)%nat with false by (symmetry; apply Nat.eqb_neq; lia). reflexivity.
Qed.
Print Assumptions C100_missing.
Theorem C100_drawn : forall (A : Type) (T : list A) d, length T = 1000%nat -> length (cut_ends T) = 800%nat /\ forall j, (j < 800)%nat -> nth j (cut_ends T) d = nth (j + 100) T d.
Proof.
  intros A T d L. unfold cut_ends, slice_neg, slice. rewrite L. split; [rewrite firstn_length, skipn_length, L; reflexivity|].
  intros j Hj. rewrite nth_firstn by lia. rewrite nth_skipn. f_equal. lia.
Qed.
Print Assumptions C100_drawn.

(** So the recovered curve does not lie on the given one, even for one long wave along a long line. *)
Theorem C100_recovered_in_place_refuted : exists xpts RM T G j, 0 < last xpts 0 /\ (j < 1000)%nat /\
  (forall i, (i < 1000)%nat -> nth i RM 0 = cos (2 * PI * INR i / 1000)) /\ halves (last xpts 0 / 999) share 1 = 1 /\
  line_crust (line_xobs xpts) (map Some RM) = Ok (map Some T, map Some G) /\ nth j G 0 <> nth j RM 0.
Proof.
  set (xpts := [0; 99900]). set (RM := map (fun i => cos (2 * PI * INR i / 1000)) (seq 0 1000)).
  assert (H1 : forall i, (i < 1000)%nat -> nth i RM 0 = cos (2 * PI * INR i / 1000)) by (intros i Hi; unfold RM; rewrite nth_map_seq by exact Hi; reflexivity).
  assert (H0 : 0 < last xpts 0) by (cbn; lra).
  assert (Hh : forall t, harmonics 0 (fun m => if (m =? 1)%nat then 1 else 0) (fun _ => 0) t = cos (2 * PI * t / 1000)).
  { intros t. unfold harmonics. rewrite (Rsum_single 500 0) by (try lia; intros k Hk Nk; cbv zeta; rewrite (proj2 (Nat.eqb_neq (S k) 1)) by lia; ring). cbv zeta. cbn [Nat.eqb INR]. rewrite Rmult_1_r. ring. }
  destruct (C100_curves xpts RM 0 (fun m => if (m =? 1)%nat then 1 else 0) (fun _ => 0) H0) as (T & G & E & _ & _ & F).
  { unfold RM. rewrite map_length, seq_length. reflexivity. }
  { intros j Hj. rewrite H1 by exact Hj. symmetry. apply Hh. }
  exists xpts, RM, T, G, 0%nat. split; [exact H0|]. split; [lia|]. split; [exact H1|].
  assert (S1 : halves (last xpts 0 / 999) share 1 = 1). { apply (C100_gains (last xpts 0 / 999) 1 ltac:(cbn; lra) ltac:(lia)). cbn. lra. }
  split; [exact S1|]. split; [exact E|]. destruct (F 0%nat ltac:(lia)) as [-> _]. rewrite H1 by lia.
  replace (harmonics _ _ _ _) with (cos (2 * PI * (INR 0 + 1) / 1000)).
  - cbn [INR]. replace (2 * PI * 0 / 1000) with 0 by field. pose proof PI_RGT_0 as Hpi. apply Rlt_not_eq. apply cos_decreasing_1; lra.
  - rewrite <- Hh. unfold harmonics. f_equal. apply Rsum_ext. intros i Hi. cbv zeta. destruct (Nat.eqb_spec (S i) 1) as [->|N]; [rewrite S1|]; ring.
Qed.
Print Assumptions C100_recovered_in_place_refuted.

Example C100_case : line_dx (line_xobs [0; 99900]) = 1 / 10 /\ line_crust (line_xobs [0; 99900]) (map Some (repeat 7 1000)) = Ok (map Some (repeat 0 1000), map Some (repeat 7 1000)) /\
  neighbours 3 = (2%nat, 4%nat) /\ halves 100 share 1 = 1 /\ halves 100 share 30 = 0.
Proof.
  split; [rewrite C100_spacing; cbn; lra|]. split; [apply C100_constant; cbn; lra|]. split; [reflexivity|]. split.
  - apply (C100_gains 100 1); cbn; lia || lra.
  - apply (C100_gains 100 30); [lra|lia|]. rewrite INR_IZR_INZ. cbn. lra.
Qed.
