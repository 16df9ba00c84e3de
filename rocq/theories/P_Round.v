(** C98: the gaussian filter in double precision. *)
From Coq Require Import List ZArith Reals Lia Lra FunctionalExtensionality.
From Flocq Require Import Core.
From Verif Require Import M_Py S_Base L_Base M_Gauss S_Gauss L_Gauss P_Gauss M_Round S_Round L_Round L_RoundGauss.
Import ListNotations.
Open Scope R_scope.

(** C98: with every operation rounded to the nearest double and an exponential good to one
    unit in the last place, each output differs from the exact weighted moving sum by at most
    (2n + 311) roundoffs of the largest sample, n being the number of weights. *)
Theorem C98_filter_error : forall fexp x fl X, good_exp fexp -> (1 <= fl <= 2000000)%Z ->
  (fl < Z.of_nat (length x))%Z -> (forall v, In v x -> Rabs v <= X) ->
  exists out, gaussian_filter_fl b64 fexp x fl = Ok out /\ length out = length x /\
    forall i, (i < length x)%nat ->
      Rabs (nth i out 0 - moving x fl i) <=
      (2 * INR (win_len fl) + 311) * / 2 ^ 53 * X + INR (win_len fl) * / 2 ^ 1073.
Proof.
  intros fexp x fl X E Hfl Hx HX.
  destruct (filter_close b64 fexp x fl X b64_good E Hfl Hx) as (o & ot & H1 & H2 & HF);
    [apply Forall_forall; exact HX|].
  apply gaussian_filter_ok_inv in H1. destruct H1 as (_ & _ & HL & Hn).
  exists ot. split; [exact H2|].
  pose proof (Forall2_length' _ _ _ _ _ HF) as HL2. split; [congruence|].
  intros i Hi. rewrite <- Hn by exact Hi.
  assert (Hio : (i < length o)%nat) by lia. clear - HF Hio.
  assert (K : Rabs (nth i ot 0 - nth i o 0) <=
    (2 * INR (win_len fl) + 311) * u64 * X + 4 * INR (win_len fl) * eta64).
  { revert i Hio. induction HF as [|a b l lt Hab _ IH]; intros [|i] Hio; cbn [nth length] in *; try lia;
    [exact Hab|apply IH; lia]. }
  eapply Rle_trans; [exact K|]. fold u64. apply Rplus_le_compat_l.
  rewrite (Rmult_comm 4), Rmult_assoc. apply Rmult_le_compat_l; [apply pos_INR|].
  unfold eta64. replace 1075%nat with (1073 + 2)%nat by reflexivity. rewrite pow_add.
  rewrite Rinv_mult. right. generalize (/ 2 ^ 1073). intros q. lra.
Qed.
Print Assumptions C98_filter_error.

(** For a filter of up to 10000 samples and readings up to a million mGal, that is less than
    3 nanogal (3e-6 mGal). *)
Theorem C98_working_precision : forall fexp x fl, good_exp fexp -> (1 <= fl <= 10000)%Z ->
  (fl < Z.of_nat (length x))%Z -> (forall v, In v x -> Rabs v <= 1000000) ->
  exists out, gaussian_filter_fl b64 fexp x fl = Ok out /\
    forall i, (i < length x)%nat -> Rabs (nth i out 0 - moving x fl i) <= 3 / 1000000.
Proof.
  intros fexp x fl E Hfl Hx HX.
  destruct (C98_filter_error fexp x fl 1000000 E ltac:(lia) Hx HX) as (out & H1 & _ & H2).
  exists out. split; [exact H1|]. intros i Hi. eapply Rle_trans; [apply H2; exact Hi|].
  assert (HN : INR (win_len fl) <= 10001).
  { unfold win_len. rewrite INR_IZR_INZ. apply IZR_le. 
    pose proof (Z.mul_div_le fl 2 ltac:(lia)). pose proof (Z.div_pos fl 2). lia. }
  assert (He : / 2 ^ 1073 <= / 10 ^ 20).
  { apply Rinv_le_contravar; [apply pow_lt; lra|].
    apply Rle_trans with (2 ^ 100); [lra|]. apply Rle_pow; [lra|lia]. }
  pose proof (pos_INR (win_len fl)).
  assert (INR (win_len fl) * / 2 ^ 1073 <= 10001 * / 10 ^ 20).
  { apply Rmult_le_compat; try lra; left; apply Rinv_0_lt_compat, pow_lt; lra. }
  fold u64. rewrite u64_val. lra.
Qed.
Print Assumptions C98_working_precision.

(** C98: a constant series comes back within the same bound once the window is full. *)
Theorem C98_constant : forall fexp c n fl, good_exp fexp -> (1 <= fl <= 2000000)%Z ->
  (fl < Z.of_nat n)%Z ->
  exists out, gaussian_filter_fl b64 fexp (repeat c n) fl = Ok out /\
    forall i, (2 * Z.to_nat (fl / 2) <= i < n)%nat ->
      Rabs (nth i out 0 - c) <=
      (2 * INR (win_len fl) + 311) * / 2 ^ 53 * Rabs c + INR (win_len fl) * / 2 ^ 1073.
Proof.
  intros fexp c n fl E Hfl Hn.
  destruct (C98_filter_error fexp (repeat c n) fl (Rabs c) E Hfl) as (out & H1 & _ & H2).
  { rewrite repeat_length. exact Hn. }
  { intros v Hv. apply repeat_spec in Hv. subst. lra. }
  exists out. split; [exact H1|]. intros i Hi. rewrite repeat_length in H2.
  destruct (proj2 (gaussian_filter_spec (repeat c n) fl ltac:(lia))) as (o & Ho & _ & Hm).
  { rewrite repeat_length. exact Hn. }
  rewrite repeat_length in Hm.
  pose proof (C04_constant c n fl o Ho i Hi) as Hc. rewrite Hm in Hc by lia.
  specialize (H2 i ltac:(lia)). rewrite Hc in H2. exact H2.
Qed.
Print Assumptions C98_constant.

(** C98: rounding never changes which calls raise, nor what they raise. *)
Theorem C98_same_exceptions : forall rnd fexp x fl e,
  gaussian_filter_fl rnd fexp x fl = Raise e <-> gaussian_filter x fl = Raise e.
Proof.
  intros rnd fexp x fl e.
  destruct (Z.leb_spec 1 fl) as [Hfl|Hfl].
  - unfold gaussian_filter_fl, gaussian_filter. destruct (Z.leb_spec (Z.of_nat (length x)) fl); [reflexivity|].
    rewrite coeffs_form, coeffs_fl_form by lia. cbn [bind]. split; discriminate.
  - rewrite gaussian_filter_bad_fl by lia. unfold gaussian_filter_fl, gaussian_coeffs_fl.
    destruct (Z.leb_spec (Z.of_nat (length x)) fl) as [Hx|Hx].
    + assert (fl = 0)%Z by lia. subst fl. destruct x; [|cbn [length] in Hx; lia]. reflexivity.
    + destruct (Z.eqb_spec fl 0) as [->|Hn0]; [destruct x; [cbn in Hx; lia|reflexivity]|].
      destruct (Z.ltb_spec (fl / 2 + 1) 0) as [Hc|Hc]; destruct (Z.ltb_spec fl (-2)) as [H2|H2].
      * reflexivity.
      * exfalso. assert (- (2) / 2 <= fl / 2)%Z by (apply Z.div_le_mono; lia). cbn in H. lia.
      * exfalso. assert (fl / 2 <= - (3) / 2)%Z by (apply Z.div_le_mono; lia). cbn in H. lia.
      * assert (fl / 2 + 1 = 0)%Z.
        { assert (fl / 2 <= - (1) / 2)%Z by (apply Z.div_le_mono; lia). cbn in H. lia. }
        rewrite H. cbn [Z.to_nat range_down repeat fold_left bind]. reflexivity.
Qed.
Print Assumptions C98_same_exceptions.

(** C98: the rounded filter is the filter of M_Gauss.v when nothing is rounded. *)
Theorem C98_unrounded : forall x fl,
  gaussian_filter_fl (fun v => v) exp x fl = gaussian_filter x fl.
Proof.
  intros x fl.
  assert (HC : gaussian_coeffs_fl (fun v => v) exp fl = gaussian_coeffs fl).
  { unfold gaussian_coeffs_fl, gaussian_coeffs.
    assert (HS : gauss_step_fl (fun v => v) exp (fl / 2) (6 / IZR fl) = gauss_step (fl / 2) (6 / IZR fl)).
    { apply functional_extensionality. intros [m g]. apply functional_extensionality. intros i.
      cbn [gauss_step_fl gauss_step]. do 2 f_equal. f_equal. ring. }
    rewrite HS. reflexivity. }
  assert (HL : forall c r, gf_loop_fl (fun v => v) c r x = gf_loop c r x).
  { intros c. induction x as [|a x IH]; intros r; cbn [gf_loop_fl gf_loop]; [reflexivity|].
    f_equal. apply IH. }
  unfold gaussian_filter_fl, gaussian_filter. rewrite HC.
  destruct (Z.of_nat (length x) <=? fl)%Z; [reflexivity|].
  destruct (gaussian_coeffs fl); cbn [bind]; [|reflexivity]. rewrite HL. reflexivity.
Qed.
Print Assumptions C98_unrounded.

(** The correctly rounded exponential is a good one, and rounding is not the identity. *)
Example C98_case : good_exp (fun x => b64 (exp x)) /\ b64 (1 / 3) <> 1 / 3 /\
  exists out, gaussian_filter_fl b64 (fun x => b64 (exp x)) [1; 2; 3; 4] 2 = Ok out /\
    Rabs (nth 3 out 0 - moving [1; 2; 3; 4] 2 3) <= / 10 ^ 12.
Proof.
  assert (GE : good_exp (fun x => b64 (exp x))).
  { intros x Hx. eapply Rle_trans.
    - apply (proj2 b64_good). right. rewrite Rabs_pos_eq by (left; apply exp_pos).
      apply Rle_trans with (exp (-20)).
      + replace (-20) with (-18 + - (1 + 1)) by lra. rewrite exp_plus, exp_Ropp, exp_plus.
        pose proof exp18. pose proof exp_le_3. pose proof (exp_pos 1).
        apply Rle_trans with (/ 10 ^ 9 * / (3 * 3)); [lra|].
        apply Rmult_le_compat; try lra. apply Rinv_le_contravar; [apply Rmult_lt_0_compat; lra|].
        apply Rmult_le_compat; lra.
      + destruct (Req_dec x (-20)) as [->|]; [lra|]. left. apply exp_increasing. lra.
    - rewrite Rabs_pos_eq by (left; apply exp_pos). apply Rmult_le_compat_r; [left; apply exp_pos|].
      rewrite u64_val. lra. }
  split; [exact GE|]. split.
  - intros H.
    assert (F : generic_format radix2 (FLT_exp (-1074) 53) (1 / 3)).
    { rewrite <- H. apply generic_format_round; [apply FLT_exp_valid; reflexivity|apply valid_rnd_N]. }
    apply FLT_format_generic in F; [|reflexivity]. destruct F as [f Hf _ He].
    unfold F2R in Hf.
    destruct (Z.le_gt_cases 0 (Fexp f)) as [Hp|Hp].
    + assert (E : 1 / 3 = IZR (Fnum f * Zpower radix2 (Fexp f))).
      { rewrite mult_IZR, IZR_Zpower by exact Hp. exact Hf. }
      assert (E3 : IZR 1 = IZR (3 * (Fnum f * Zpower radix2 (Fexp f)))) by (rewrite (mult_IZR 3), <- E; lra).
      apply eq_IZR in E3. lia.
    + assert (E : IZR (Zpower radix2 (- Fexp f)) = IZR (3 * Fnum f)).
      { rewrite mult_IZR, IZR_Zpower by lia. rewrite bpow_opp.
        pose proof (bpow_gt_0 radix2 (Fexp f)) as Hb.
        apply Rmult_eq_reg_r with (bpow radix2 (Fexp f)); [|lra]. rewrite Rinv_l by lra.
        rewrite Rmult_assoc, <- Hf. lra. }
      apply eq_IZR in E.
      assert (M : (Zpower radix2 (- Fexp f) mod 3 = 0)%Z) by (rewrite E, Z.mul_comm; apply Z_mod_mult).
      assert (forall n, (2 ^ Z.of_nat n mod 3 <> 0)%Z).
      { clear. induction n as [|n IH]; [cbn; lia|]. rewrite Nat2Z.inj_succ, Z.pow_succ_r by lia.
        rewrite Z.mul_mod by lia. 
        pose proof (Z.mod_pos_bound (2 ^ Z.of_nat n) 3 ltac:(lia)).
        assert (2 ^ Z.of_nat n mod 3 = 1 \/ 2 ^ Z.of_nat n mod 3 = 2)%Z as [-> | ->] by lia; cbn; lia. }
      apply (H0 (Z.to_nat (- Fexp f))). rewrite Z2Nat.id by lia. exact M.
  - destruct (C98_filter_error (fun x => b64 (exp x)) [1; 2; 3; 4] 2 4 GE) as (out & H1 & _ & H2).
    + lia.
    + cbn; lia.
    + intros v [<-|[<-|[<-|[<-|[]]]]]; rewrite Rabs_pos_eq; lra.
    + exists out. split; [exact H1|]. eapply Rle_trans; [apply H2; cbn; lia|].
      change (win_len 2) with 3%nat.
      assert (He : / 2 ^ 1073 <= / 10 ^ 20).
      { apply Rinv_le_contravar; [apply pow_lt; lra|].
        apply Rle_trans with (2 ^ 100); [lra|]. apply Rle_pow; [lra|lia]. }
      assert (EI : INR 3 = 3) by (cbn; lra). rewrite EI.
      fold u64. rewrite u64_val. lra.
Qed.
