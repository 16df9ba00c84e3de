(** Rounding errors of the gaussian filter. *)
From Coq Require Import List ZArith Reals Lia Lra Psatz.
From Flocq Require Import Core.
From Verif Require Import M_Py S_Base L_Base L_Np M_Gauss S_Gauss L_Gauss M_Round S_Round L_Round.
Import ListNotations.
Open Scope R_scope.

Lemma exp_rel x d : Rabs d <= 150 * u64 -> rel 150.01 (exp x) (exp (x + d)).
Proof.
  intros Hd. unfold rel. rewrite exp_plus. pose proof (exp_pos x) as Hx.
  rewrite (Rabs_pos_eq (exp x)) by lra.
  replace (exp x * exp d - exp x) with (exp x * (exp d - 1)) by ring.
  rewrite Rabs_mult, (Rabs_pos_eq (exp x)) by lra.
  rewrite Rmult_comm. apply Rmult_le_compat_r; [lra|].
  apply Rabs_le_inv in Hd.
  rewrite u64_val in *.
  pose proof (exp_ineq1_le d) as L. pose proof (exp_ineq1_le (- d)) as M.
  rewrite exp_Ropp in M. pose proof (exp_pos d) as Hp.
  assert (U : exp d * (1 - d) <= 1).
  { apply Rmult_le_reg_l with (/ exp d); [apply Rinv_0_lt_compat; lra|].
    rewrite <- Rmult_assoc, Rinv_l by lra. lra. }
  apply Rabs_le. split; [lra|].
  apply Rle_trans with (/ (1 - d) - 1).
  - apply Rplus_le_compat_r. apply Rmult_le_reg_r with (1 - d); [lra|]. rewrite Rinv_l by lra. exact U.
  - apply Rmult_le_reg_r with (1 - d); [lra|]. rewrite Rmult_minus_distr_r, Rinv_l by lra. lra.
Qed.

(** the value written by one pass of the coefficient loop *)
Definition raw (half : Z) (frac : R) (i : Z) : R :=
  exp (- (1 / 2) * ((IZR half - IZR i) * frac) ^ 2).
Definition raw_fl (rnd fexp : R -> R) (half : Z) (frac : R) (i : Z) : R :=
  fexp (rnd (- (1 / 2) * rnd (rnd (rnd (IZR half - IZR i) * frac) * rnd (rnd (IZR half - IZR i) * frac)))).

Lemma raw_err rnd fexp fl i : good_rnd rnd -> good_exp fexp ->
  (1 <= fl <= 2000000)%Z -> (1 <= i <= fl / 2 + 1)%Z ->
  rel 153 (raw (fl / 2) (6 / IZR fl) i) (raw_fl rnd fexp (fl / 2) (rnd (6 / IZR fl)) i) /\
  exp (-18) <= raw (fl / 2) (6 / IZR fl) i <= 1.
Proof.
  intros G E Hfl Hi. pose proof u64_pos as Hu.
  assert (Hf : 1 <= IZR fl <= 2000000) by (split; apply IZR_le; lia).
  set (a := IZR (fl / 2) - IZR i). set (f := 6 / IZR fl).
  assert (Hf6 : 6 / 2000000 <= f <= 6).
  { unfold f. split; apply Rmult_le_reg_r with (IZR fl); try lra;
    unfold Rdiv; rewrite ?Rmult_assoc, ?Rinv_l by lra; lra. }
  assert (Ha : a = 0 \/ 1 <= Rabs a).
  { unfold a. rewrite <- minus_IZR. destruct (Z.eq_dec (fl / 2 - i) 0) as [->|H]; [left; reflexivity|right].
    rewrite <- abs_IZR. apply IZR_le. lia. }
  assert (Haf : Rabs (a * f) <= 6).
  { rewrite Rabs_mult, (Rabs_pos_eq f) by lra.
    unfold f. apply Rmult_le_reg_r with (IZR fl); [lra|].
    replace (Rabs a * (6 / IZR fl) * IZR fl) with (6 * Rabs a) by (field; lra).
    apply Rmult_le_compat_l; [lra|]. unfold a. rewrite <- minus_IZR, <- abs_IZR. apply IZR_le.
    pose proof (Z.div_le_upper_bound fl 2 fl ltac:(lia) ltac:(lia)). lia. }
  assert (R1 : rel 1.001 a (rnd a)).
  { eapply rel_le; [apply rel_rnd with (k := 0); [exact G|lra| |apply rel_refl]|lra].
    destruct Ha as [->|Ha]; [left; reflexivity|right]. lra. }
  assert (R2 : rel 1.001 f (rnd f)).
  { eapply rel_le; [apply rel_rnd with (k := 0); [exact G|lra| |apply rel_refl]|lra].
    right. rewrite Rabs_pos_eq by lra. lra. }
  assert (Hz : a * f = 0 \/ 6 / 2000000 <= Rabs (a * f)).
  { destruct Ha as [->|Ha]; [left; ring|right]. rewrite Rabs_mult, (Rabs_pos_eq f) by lra.
    apply Rle_trans with (1 * f); [lra|]. apply Rmult_le_compat_r; lra. }
  assert (R3 : rel 3.01 (a * f) (rnd (rnd a * rnd f))).
  { eapply rel_le; [apply rel_rnd with (k := 1.001 + 1.001 + / 1000); [exact G|lra| |apply rel_mult; try lra; assumption]|lra].
    destruct Hz as [->|Hz]; [left; reflexivity|right]. lra. }
  set (y := rnd (rnd a * rnd f)) in *.
  assert (Hz2 : a * f * (a * f) = 0 \/ / 10 ^ 20 <= Rabs (a * f * (a * f))).
  { destruct Hz as [->|Hz]; [left; ring|right]. rewrite Rabs_mult.
    apply Rle_trans with (6 / 2000000 * (6 / 2000000)); [lra|].
    apply Rmult_le_compat; lra. }
  assert (R4 : rel 7.1 (a * f * (a * f)) (rnd (y * y))).
  { eapply rel_le; [apply rel_rnd with (k := 3.01 + 3.01 + / 1000); [exact G|lra| |apply rel_mult; try lra; assumption]|lra].
    destruct Hz2 as [->|H]; [left; reflexivity|right]. lra. }
  assert (R5 : rel 8.2 (- (1 / 2) * (a * f * (a * f))) (rnd (- (1 / 2) * rnd (y * y)))).
  { eapply rel_le; [apply rel_rnd with (k := 0 + 7.1 + / 1000); [exact G|lra| |apply rel_mult; try lra; [apply rel_refl|exact R4]]|lra].
    destruct Hz2 as [->|H]; [left; ring|right]. rewrite Rabs_mult.
    replace (Rabs (- (1 / 2))) with (1 / 2) by (rewrite Rabs_Ropp, Rabs_pos_eq; lra). lra. }
  assert (Hsq : a * f * (a * f) <= 36).
  { rewrite <- (Rabs_pos_eq (a * f * (a * f))) by apply Rle_0_sqr. rewrite Rabs_mult.
    replace 36 with (6 * 6) by ring. apply Rmult_le_compat; try apply Rabs_pos; exact Haf. }
  assert (Hsq0 : 0 <= a * f * (a * f)) by apply Rle_0_sqr.
  set (x := - (1 / 2) * (a * f * (a * f))) in *.
  set (xt := rnd (- (1 / 2) * rnd (y * y))) in *.
  assert (Hx : -18 <= x <= 0) by (unfold x; lra).
  assert (Hd : Rabs (xt - x) <= 150 * u64).
  { eapply Rle_trans; [exact R5|]. rewrite (Rabs_left1 x) by lra.
    apply Rle_trans with (8.2 * u64 * 18); [apply Rmult_le_compat_l; lra|]. lra. }
  assert (Hraw : raw (fl / 2) f i = exp x) by (unfold raw; fold a; f_equal; unfold x; ring).
  rewrite Hraw. split.
  2: { split; [destruct (Req_dec x (-18)) as [->|]; [lra|left; apply exp_increasing; lra]|].
       destruct (Req_dec x 0) as [->|]; [rewrite exp_0; lra|]. rewrite <- exp_0. left. apply exp_increasing. lra. }
  assert (Hfl2 : raw_fl rnd fexp (fl / 2) (rnd f) i = fexp xt) by reflexivity.
  rewrite Hfl2.
  pose proof (exp_rel x (xt - x) Hd) as R6. replace (x + (xt - x)) with xt in R6 by ring.
  assert (Hxt : -20 <= xt <= 1).
  { assert (Hd' : Rabs (xt - x) <= 1) by (eapply Rle_trans; [exact Hd|rewrite u64_val; lra]).
    apply Rabs_le_inv in Hd'. lra. }
  specialize (E xt Hxt). replace (/ 2 ^ 52) with (2 * u64) in E by (rewrite u64_val; lra).
  assert (H15 : 0 <= 150.01) by lra.
  pose proof (rel_abs _ _ _ H15 R6) as R7. unfold rel in *.
  rewrite (Rabs_pos_eq (exp xt)) in R7 by (left; apply exp_pos).
  pose proof (exp_pos x) as Px. rewrite (Rabs_pos_eq (exp x)) in * by lra.
  replace (fexp xt - exp x) with ((fexp xt - exp xt) + (exp xt - exp x)) by ring.
  eapply Rle_trans; [apply Rabs_triang|].
  assert (2 * u64 * exp xt <= 2 * u64 * ((1 + 150.01 * u64) * exp x)) by (apply Rmult_le_compat_l; lra).
  set (ex := exp x) in *. set (et := exp xt) in *.
  assert (2 * u64 * (150.01 * u64 * ex) <= 2 * u64 * (/ 1000 * ex)).
  { apply Rmult_le_compat_l; [lra|]. apply Rmult_le_compat_r; [lra|]. rewrite u64_val; lra. }
  assert (0 <= u64 * ex) by (apply Rmult_le_pos; lra).
  clear - H H0 H1 E R6. lra.
Qed.

(** ** The coefficient loops *)
Lemma upd_app_here A (pre : list A) a l v : upd (pre ++ a :: l) (length pre) v = pre ++ v :: l.
Proof. induction pre; cbn [app length upd]; [reflexivity|]. f_equal. assumption. Qed.

Lemma fill_loop (F : Z -> R) (step : nat * list R -> Z -> nat * list R) :
  (forall m g i, step (m, g) i = (S m, upd g m (F i))) ->
  forall l pre, snd (fold_left step l (length pre, pre ++ repeat 0 (length l))) = pre ++ map F l.
Proof.
  intros H. induction l as [|i l IH]; intros pre; cbn [fold_left length repeat map]; [reflexivity|].
  rewrite H, upd_app_here.
  replace (S (length pre)) with (length (pre ++ [F i])) by (rewrite app_length; cbn [length]; lia).
  replace (pre ++ F i :: repeat 0 (length l)) with ((pre ++ [F i]) ++ repeat 0 (length l))
    by (rewrite <- app_assoc; reflexivity).
  rewrite IH, <- app_assoc. reflexivity.
Qed.

Definition reflected (g : list R) : list R :=
  match g with [] => [] | g0 :: t => rev t ++ [g0] ++ t end.

Lemma coeffs_form fl : (1 <= fl)%Z ->
  let full := reflected (map (raw (fl / 2) (6 / IZR fl)) (range_down (Z.to_nat (fl / 2 + 1)))) in
  gaussian_coeffs fl = Ok (map (fun c => c / pysum full) full).
Proof.
  intros H full. unfold gaussian_coeffs.
  assert (Hh : (0 <= fl / 2)%Z) by (apply Z.div_pos; lia).
  destruct (Z.eqb_spec fl 0); [lia|]. destruct (Z.ltb_spec (fl / 2 + 1) 0); [lia|].
  pose proof (fill_loop (raw (fl / 2) (6 / IZR fl)) (gauss_step (fl / 2) (6 / IZR fl)) (fun _ _ _ => eq_refl)
    (range_down (Z.to_nat (fl / 2 + 1))) []) as E. rewrite range_down_length in E.
  cbn [length app] in E. unfold full.
  replace (Z.to_nat (fl / 2 + 1)) with (S (Z.to_nat (fl / 2))) in * by lia.
  destruct (fold_left _ _ _) as [m g]. cbn [snd] in E. rewrite E. cbn [range_down map reflected]. reflexivity.
Qed.

Lemma coeffs_fl_form rnd fexp fl : (1 <= fl)%Z ->
  let full := reflected (map (raw_fl rnd fexp (fl / 2) (rnd (6 / IZR fl))) (range_down (Z.to_nat (fl / 2 + 1)))) in
  gaussian_coeffs_fl rnd fexp fl = Ok (map (fun c => rnd (c / pysum_fl rnd full)) full).
Proof.
  intros H full. unfold gaussian_coeffs_fl.
  assert (Hh : (0 <= fl / 2)%Z) by (apply Z.div_pos; lia).
  destruct (Z.eqb_spec fl 0); [lia|]. destruct (Z.ltb_spec (fl / 2 + 1) 0); [lia|].
  pose proof (fill_loop (raw_fl rnd fexp (fl / 2) (rnd (6 / IZR fl)))
    (gauss_step_fl rnd fexp (fl / 2) (rnd (6 / IZR fl))) (fun _ _ _ => eq_refl)
    (range_down (Z.to_nat (fl / 2 + 1))) []) as E. rewrite range_down_length in E.
  cbn [length app] in E. unfold full.
  replace (Z.to_nat (fl / 2 + 1)) with (S (Z.to_nat (fl / 2))) in * by lia.
  destruct (fold_left _ _ _) as [m g]. cbn [snd] in E. rewrite E. cbn [range_down map reflected]. reflexivity.
Qed.

Lemma Forall2_rev' A B (P : A -> B -> Prop) l1 l2 : Forall2 P l1 l2 -> Forall2 P (rev l1) (rev l2).
Proof. induction 1; cbn [rev]; [constructor|]. apply Forall2_app; [assumption|]. constructor; [assumption|constructor]. Qed.

Lemma Forall2_reflected (P : R -> R -> Prop) g gt : Forall2 P g gt -> Forall2 P (reflected g) (reflected gt).
Proof.
  destruct 1; cbn [reflected]; [constructor|]. apply Forall2_app; [apply Forall2_rev'; assumption|].
  constructor; assumption.
Qed.

Lemma reflected_length g : (0 < length g)%nat -> length (reflected g) = (2 * (length g - 1) + 1)%nat.
Proof. destruct g; cbn [length reflected]; intros; [lia|]. rewrite app_length, rev_length. cbn [length app]. lia. Qed.

(** ** Sums of lists that are relatively close *)
Definition prel (k : R) (a b : R) : Prop := 0 <= a /\ rel k a b.

Lemma prel_sum k : 0 <= k -> forall l lt, Forall2 (prel k) l lt ->
  0 <= pysum l /\ rel k (pysum l) (pysum lt) /\ asum lt <= (1 + k * u64) * pysum l.
Proof.
  intros Hk. induction 1 as [|a b l lt [Ha Hr] _ [I0 [I1 I2]]].
  - unfold asum. cbn [map]. rewrite pysum_nil. split; [lra|]. split; [apply rel_le with 0; [apply rel_refl|lra]|lra].
  - rewrite !pysum_cons. split; [lra|]. split.
    + unfold rel in *. rewrite (Rabs_pos_eq a) in Hr by exact Ha.
      rewrite (Rabs_pos_eq (pysum l)) in I1 by exact I0. rewrite (Rabs_pos_eq (a + pysum l)) by lra.
      replace (b + pysum lt - (a + pysum l)) with ((b - a) + (pysum lt - pysum l)) by ring.
      eapply Rle_trans; [apply Rabs_triang|]. lra.
    + unfold asum in *. cbn [map]. rewrite pysum_cons.
      pose proof (rel_abs k a b Hk Hr) as Hb. rewrite (Rabs_pos_eq a) in Hb by exact Ha. lra.
Qed.

Lemma Forall2_length' A B (P : A -> B -> Prop) l1 l2 : Forall2 P l1 l2 -> length l1 = length l2.
Proof. induction 1; cbn; congruence. Qed.

Lemma exp18 : / 10 ^ 9 <= exp (-18).
Proof.
  replace (-18) with (- (18)) by lra. rewrite exp_Ropp. apply Rinv_le_contravar; [apply exp_pos|].
  replace (exp 18) with (exp 1 ^ 18).
  - apply Rle_trans with (3 ^ 18); [|lra]. apply pow_incr. split; [left; apply exp_pos|apply exp_le_3].
  - replace 18 with (INR 18) by (cbn; lra). 
    generalize 18%nat. induction n as [|n IH]; [cbn; rewrite exp_0; reflexivity|].
    rewrite S_INR, exp_plus, <- IH. cbn [pow]. ring.
Qed.

Lemma pysum_ge c : forall l, Forall (fun v => c <= v) l -> INR (length l) * c <= pysum l.
Proof.
  induction 1; [rewrite pysum_nil; cbn; lra|]. rewrite pysum_cons. cbn [length]. rewrite S_INR. lra.
Qed.

Lemma pysum_le c : forall l, Forall (fun v => v <= c) l -> pysum l <= INR (length l) * c.
Proof.
  induction 1; [rewrite pysum_nil; cbn; lra|]. rewrite pysum_cons. cbn [length]. rewrite S_INR. lra.
Qed.

Lemma prel_norm rnd l lt : good_rnd rnd -> (0 < length l)%nat -> INR (length l) <= 2000003 ->
  Forall2 (prel 153) l lt -> Forall (fun v => exp (-18) <= v <= 1) l ->
  Forall2 (prel (INR (length l) + 309)) (map (fun c => c / pysum l) l)
                     (map (fun c => rnd (c / pysum_fl rnd lt)) lt).
Proof.
  intros G H0 HN HF HB. pose proof u64_pos as Hu. pose proof eta64_pos as He.
  assert (H153 : 0 <= 153) by lra.
  destruct (prel_sum 153 H153 l lt HF) as [S0 [S1 S2]].
  pose proof (Forall2_length' _ _ _ _ _ HF) as HL.
  pose proof exp18 as H18.
  assert (Slo : INR (length l) * exp (-18) <= pysum l)
    by (apply pysum_ge; eapply Forall_impl; [|exact HB]; cbn; intros; lra).
  assert (Shi : pysum l <= INR (length l) * 1)
    by (apply pysum_le; eapply Forall_impl; [|exact HB]; cbn; intros; lra).
  assert (HN1 : 1 <= INR (length l)) by (apply (le_INR 1); lia).
  assert (Spos : exp (-18) <= pysum l).
  { eapply Rle_trans; [|exact Slo]. pose proof (exp_pos (-18)).
    apply Rle_trans with (1 * exp (-18)); [lra|]. apply Rmult_le_compat_r; lra. }
  set (N := INR (length l)) in *. set (S0' := pysum l) in *.
  assert (RS : rel (N + 154) S0' (pysum_fl rnd lt)).
  { unfold rel in *. rewrite (Rabs_pos_eq S0') in * by exact S0.
    replace (pysum_fl rnd lt - S0') with ((pysum_fl rnd lt - pysum lt) + (pysum lt - S0')) by ring.
    eapply Rle_trans; [apply Rabs_triang|].
    pose proof (pysum_fl_err rnd lt G) as HE. rewrite <- HL in HE. fold N in HE. specialize (HE HN).
    assert (A1 : (N + / 1000) * u64 * asum lt <= (N + / 1000) * u64 * ((1 + 153 * u64) * S0'))
      by (apply Rmult_le_compat_l; [apply Rmult_le_pos; lra|exact S2]).
    assert (A2 : (N + / 1000) * u64 * (153 * u64 * S0') <= / 2 * u64 * S0').
    { replace ((N + / 1000) * u64 * (153 * u64 * S0')) with ((N + / 1000) * (153 * u64) * (u64 * S0')) by ring.
      replace (/ 2 * u64 * S0') with (/ 2 * (u64 * S0')) by ring.
      apply Rmult_le_compat_r; [apply Rmult_le_pos; lra|].
      apply Rle_trans with (2000004 * (153 * u64)); [apply Rmult_le_compat_r; lra|]. rewrite u64_val; lra. }
    assert (A3 : 2 * N * eta64 <= / 4 * u64 * S0').
    { apply Rle_trans with (5000000 * / 10 ^ 60).
      - apply Rmult_le_compat; try lra. apply eta64_small.
      - apply Rle_trans with (/ 4 * u64 * exp (-18)).
        + apply Rle_trans with (/ 4 * u64 * / 10 ^ 9); [rewrite u64_val; lra|]. apply Rmult_le_compat_l; lra.
        + apply Rmult_le_compat_l; lra. }
    assert (A4 : 0 <= u64 * S0') by (apply Rmult_le_pos; lra).
    clear - HE A1 A2 A3 A4 S1. lra. }
  assert (HB' : forall a, In a l -> exp (-18) <= a <= 1) by (apply Forall_forall; exact HB).
  clear HB Slo Shi S1 S2 HL H0.
  assert (Gen : forall a b, exp (-18) <= a <= 1 -> prel 153 a b ->
    prel (N + 309) (a / S0') (rnd (b / pysum_fl rnd lt))).
  { intros a b Hab [Pa Ra]. split.
    - unfold Rdiv. apply Rmult_le_pos; [exact Pa|]. left. apply Rinv_0_lt_compat. pose proof (exp_pos (-18)); lra.
    - eapply rel_le; [apply rel_rnd with (k := 153 + (N + 154) + / 100); [exact G|lra| |]|lra].
      + right. rewrite Rabs_pos_eq.
        * apply Rle_trans with (/ 10 ^ 9 * / 2000003); [lra|]. unfold Rdiv.
          apply Rmult_le_compat; try lra. 
          apply Rinv_le_contravar; [pose proof (exp_pos (-18)); lra|].
          assert (Hle : S0' <= INR (length l) * 1).
          { apply pysum_le. apply Forall_forall. intros v Hv. apply HB' in Hv. lra. }
          fold N in Hle. lra.
        * unfold Rdiv. apply Rmult_le_pos; [exact Pa|]. left. apply Rinv_0_lt_compat. pose proof (exp_pos (-18)); lra.
      + apply rel_div; try lra; [exact Ra|exact RS]. }
  clear RS. clearbody N S0'. generalize dependent (pysum_fl rnd lt). intros st Gen.
  clear Spos S0. induction HF as [|a b l lt Hab _ IH]; cbn [map]; constructor.
  - apply Gen; [apply HB'; left; reflexivity|exact Hab].
  - apply IH. intros v Hv. apply HB'. right. exact Hv.
Qed.

(** ** One output sample *)
Lemma dot_terms rnd k X : good_rnd rnd -> 0 <= k <= 3000000 -> 0 <= X -> forall c ct, Forall2 (prel k) c ct ->
  forall r, length r = length c -> Forall (fun v => Rabs v <= X) r ->
  Rabs (pysum (map2 (fun a b => rnd (a * b)) r ct) - pysum (map2 Rmult r c))
    <= (k + 1.01) * u64 * X * pysum c + INR (length c) * eta64 /\
  asum (map2 (fun a b => rnd (a * b)) r ct) <= (1 + (k + 1.01) * u64) * X * pysum c + INR (length c) * eta64.
Proof.
  intros [G _] Hk HX. pose proof u64_pos as Hu. pose proof eta64_pos as He.
  assert (Hku : k * u64 <= / 1000) by (rewrite u64_val; lra).
  assert (Hku0 : 0 <= k * u64) by (apply Rmult_le_pos; lra).
  induction 1 as [|c ct cs cts [Hc Hr] _ IH]; intros r Hlen HB.
  - destruct r; [|discriminate]. cbn [map2]. unfold asum. cbn [map]. rewrite !pysum_nil.
    cbn [length INR]. rewrite Rminus_0_r, Rabs_R0. lra.
  - destruct r as [|a r]; [discriminate|]. cbn [map2 length] in *. inversion HB as [|? ? Ha HB']; subst.
    injection Hlen as Hlen. destruct (IH r Hlen HB') as [I1 I2]. clear IH.
    unfold asum in *. cbn [map]. rewrite !pysum_cons. rewrite S_INR.
    set (p := pysum (map2 Rmult r cs)) in *.
    set (pt := pysum (map2 (fun a b => rnd (a * b)) r cts)) in *.
    set (A := pysum (map Rabs (map2 (fun a b => rnd (a * b)) r cts))) in *.
    pose proof (rel_abs k c ct ltac:(lra) Hr) as Hct. rewrite (Rabs_pos_eq c) in Hct by exact Hc.
    unfold rel in Hr. rewrite (Rabs_pos_eq c) in Hr by exact Hc.
    pose proof (G (a * ct)) as Hg. rewrite Rabs_mult in Hg.
    pose proof (Rabs_pos a) as Pa.
    assert (T1 : Rabs a * Rabs ct <= X * ((1 + k * u64) * c)) by (apply Rmult_le_compat; try lra; apply Rabs_pos).
    assert (T2 : u64 * (Rabs a * Rabs ct) <= u64 * (X * ((1 + k * u64) * c))) by (apply Rmult_le_compat_l; lra).
    assert (T3 : Rabs (a * (ct - c)) <= X * (k * u64 * c)).
    { rewrite Rabs_mult. apply Rmult_le_compat; try lra. apply Rabs_pos. }
    assert (HXc : 0 <= X * c) by (apply Rmult_le_pos; lra).
    assert (T4 : u64 * (X * c) * (k * u64) <= u64 * (X * c) * / 1000)
      by (apply Rmult_le_compat_l; [apply Rmult_le_pos; lra|lra]).
    assert (HuXc : 0 <= u64 * (X * c)) by (apply Rmult_le_pos; lra).
    assert (T5 : Rabs (rnd (a * ct) - a * c) <= (k + 1.01) * u64 * X * c + eta64).
    { replace (rnd (a * ct) - a * c) with ((rnd (a * ct) - a * ct) + a * (ct - c)) by ring.
      eapply Rle_trans; [apply Rabs_triang|]. lra. }
    split.
    + replace (rnd (a * ct) + pt - (a * c + p)) with ((rnd (a * ct) - a * c) + (pt - p)) by ring.
      eapply Rle_trans; [apply Rabs_triang|]. lra.
    + assert (Rabs (a * c) <= X * c).
      { rewrite Rabs_mult, (Rabs_pos_eq c) by exact Hc. apply Rmult_le_compat_r; lra. }
      assert (Rabs (rnd (a * ct)) <= Rabs (rnd (a * ct) - a * c) + Rabs (a * c)).
      { replace (rnd (a * ct)) with ((rnd (a * ct) - a * c) + a * c) at 1 by ring. apply Rabs_triang. }
      lra.
Qed.

Lemma dot_err rnd X c ct r : good_rnd rnd -> 0 <= X -> INR (length c) <= 2000003 ->
  pysum c = 1 -> Forall2 (prel (INR (length c) + 309)) c ct ->
  length r = length c -> Forall (fun v => Rabs v <= X) r ->
  Rabs (pysum_fl rnd (map2 (fun a b => rnd (a * b)) r ct) - pysum (map2 Rmult r c))
  <= (2 * INR (length c) + 311) * u64 * X + 4 * INR (length c) * eta64.
Proof.
  intros G HX HN H1 HF HL HB. pose proof u64_pos as Hu. pose proof eta64_pos as He.
  pose proof (pos_INR (length c)) as HN0.
  destruct (dot_terms rnd (INR (length c) + 309) X G ltac:(lra) HX c ct HF r HL HB) as [D1 D2].
  rewrite H1, !Rmult_1_r in *.
  assert (HLt : length (map2 (fun a b => rnd (a * b)) r ct) = length c).
  { rewrite map2_length. rewrite HL, <- (Forall2_length' _ _ _ _ _ HF). apply Nat.min_id. }
  pose proof (pysum_fl_err rnd (map2 (fun a b => rnd (a * b)) r ct) G) as HE. rewrite HLt in HE.
  specialize (HE HN). set (N := INR (length c)) in *.
  set (l := map2 (fun a b => rnd (a * b)) r ct) in *. set (p := pysum (map2 Rmult r c)) in *.
  assert (E1 : (N + / 1000) * u64 * asum l <= (N + / 1000) * u64 * ((1 + (N + 309 + 1.01) * u64) * X + N * eta64))
    by (apply Rmult_le_compat_l; [apply Rmult_le_pos; lra|exact D2]).
  assert (Nu : (N + / 1000) * u64 <= / 1000) by (rewrite u64_val; lra).
  assert (Nu0 : 0 <= (N + / 1000) * u64) by (apply Rmult_le_pos; lra).
  assert (Ne : 0 <= N * eta64) by (apply Rmult_le_pos; lra).
  assert (E2 : (N + / 1000) * u64 * (N * eta64) <= / 1000 * (N * eta64)) by (apply Rmult_le_compat_r; lra).
  assert (E3 : (N + / 1000) * u64 * ((N + 309 + 1.01) * u64) <= / 100 * u64).
  { replace ((N + / 1000) * u64 * ((N + 309 + 1.01) * u64)) with ((N + / 1000) * (N + 309 + 1.01) * u64 * u64) by ring.
    apply Rmult_le_compat_r; [lra|].
    apply Rle_trans with (2000004 * 2000400 * u64); [|rewrite u64_val; lra].
    apply Rmult_le_compat_r; [lra|]. apply Rmult_le_compat; lra. }
  assert (E4 : (N + / 1000) * u64 * ((N + 309 + 1.01) * u64) * X <= / 100 * u64 * X) by (apply Rmult_le_compat_r; lra).
  assert (E5 : 0 <= u64 * X) by (apply Rmult_le_pos; lra).
  replace (pysum_fl rnd l - p) with ((pysum_fl rnd l - pysum l) + (pysum l - p)) by ring.
  eapply Rle_trans; [apply Rabs_triang|]. clear - HE D1 E1 E2 E4 E5 Ne. lra.
Qed.

(** ** The whole filter *)
Lemma gf_loops rnd X c ct B : 0 <= X ->
  (forall r, length r = length c -> Forall (fun v => Rabs v <= X) r ->
     Rabs (pysum_fl rnd (map2 (fun a b => rnd (a * b)) r ct) - pysum (map2 Rmult r c)) <= B) ->
  (0 < length c)%nat ->
  forall x r, length r = length c -> Forall (fun v => Rabs v <= X) r -> Forall (fun v => Rabs v <= X) x ->
  Forall2 (fun y yt => Rabs (yt - y) <= B) (gf_loop c r x) (gf_loop_fl rnd ct r x).
Proof.
  intros HX H Hc. induction x as [|a x IH]; intros r Hr HB Hx; cbn [gf_loop gf_loop_fl]; [constructor|].
  inversion Hx as [|? ? Ha Hx']; subst.
  assert (Hr' : length (tl r ++ [a]) = length c) by (rewrite app_length, length_tl; cbn [length]; lia).
  assert (HB' : Forall (fun v => Rabs v <= X) (tl r ++ [a])).
  { apply Forall_app. split; [|constructor; [exact Ha|constructor]].
    destruct r; [constructor|]. inversion HB; assumption. }
  constructor; [apply H; assumption|]. apply IH; assumption.
Qed.

Lemma range_down_In n i : In i (range_down n) -> (1 <= i <= Z.of_nat n)%Z.
Proof.
  induction n as [|n IH]; [intros []|]. change (range_down (S n)) with (Z.of_nat (S n) :: range_down n).
  intros [<-|H]; [lia|]. specialize (IH H). lia.
Qed.

Lemma coeffs_close rnd fexp fl : good_rnd rnd -> good_exp fexp -> (1 <= fl <= 2000000)%Z ->
  exists w wt, gaussian_coeffs fl = Ok w /\ gaussian_coeffs_fl rnd fexp fl = Ok wt /\
    length w = win_len fl /\ INR (length w) <= 2000003 /\ pysum w = 1 /\
    Forall2 (prel (INR (length w) + 309)) w wt.
Proof.
  intros G E Hfl.
  assert (Hh : (0 <= fl / 2 <= 1000000)%Z).
  { split; [apply Z.div_pos; lia|]. apply Z.div_le_upper_bound; lia. }
  set (is := range_down (Z.to_nat (fl / 2 + 1))).
  set (g := map (raw (fl / 2) (6 / IZR fl)) is).
  set (gt := map (raw_fl rnd fexp (fl / 2) (rnd (6 / IZR fl))) is).
  assert (HI : forall i, In i is -> (1 <= i <= fl / 2 + 1)%Z).
  { intros i Hi. apply range_down_In in Hi. lia. }
  assert (HF : Forall2 (fun a b => prel 153 a b /\ exp (-18) <= a <= 1) g gt).
  { unfold g, gt. clear g gt. clearbody is. induction is as [|i is IH]; cbn [map]; [constructor|].
    constructor; [|apply IH; intros j Hj; apply HI; right; exact Hj].
    destruct (raw_err rnd fexp fl i G E Hfl (HI i (or_introl eq_refl))) as [R1 R2].
    split; [split; [left; apply exp_pos|exact R1]|exact R2]. }
  apply Forall2_reflected in HF.
  assert (Hlen : length (reflected g) = win_len fl).
  { rewrite reflected_length; unfold g, is; rewrite map_length, range_down_length; unfold win_len; lia. }
  assert (HN : INR (length (reflected g)) <= 2000003).
  { rewrite Hlen. unfold win_len. rewrite INR_IZR_INZ. apply IZR_le. lia. }
  exists (map (fun c => c / pysum (reflected g)) (reflected g)),
         (map (fun c => rnd (c / pysum_fl rnd (reflected gt))) (reflected gt)).
  assert (HW : gaussian_coeffs fl = Ok (map (fun c => c / pysum (reflected g)) (reflected g)))
    by (apply coeffs_form; lia).
  split; [exact HW|]. split; [apply coeffs_fl_form; lia|].
  rewrite map_length. split; [exact Hlen|]. split; [exact HN|]. split.
  - rewrite gaussian_coeffs_closed in HW by lia. 
    assert (HW' : map (weight fl) (seq 0 (win_len fl)) = map (fun c => c / pysum (reflected g)) (reflected g)) by congruence.
    rewrite <- HW', pysum_map_seq. apply weight_sum. lia.
  - apply prel_norm; [exact G|rewrite Hlen; apply win_len_pos; lia|exact HN| |].
    + clear - HF. induction HF as [|? ? ? ? [H _]]; constructor; assumption.
    + clear - HF. induction HF as [|? ? ? ? [_ H]]; constructor; assumption.
Qed.

Lemma filter_close rnd fexp x fl X : good_rnd rnd -> good_exp fexp -> (1 <= fl <= 2000000)%Z ->
  (fl < Z.of_nat (length x))%Z -> Forall (fun v => Rabs v <= X) x ->
  exists out outt, gaussian_filter x fl = Ok out /\ gaussian_filter_fl rnd fexp x fl = Ok outt /\
    Forall2 (fun y yt => Rabs (yt - y) <=
      (2 * INR (win_len fl) + 311) * u64 * X + 4 * INR (win_len fl) * eta64) out outt.
Proof.
  intros G E Hfl Hx HX. 
  assert (X0 : 0 <= X).
  { destruct x as [|v x]; [cbn in Hx; lia|]. inversion HX; subst. pose proof (Rabs_pos v). lra. }
  destruct (coeffs_close rnd fexp fl G E Hfl) as (w & wt & Hw & Hwt & HL & HN & H1 & HF).
  unfold gaussian_filter, gaussian_filter_fl. destruct (Z.leb_spec (Z.of_nat (length x)) fl); [lia|].
  rewrite Hw, Hwt. cbn [bind].
  eexists. eexists. split; [reflexivity|]. split; [reflexivity|].
  rewrite <- (Forall2_length' _ _ _ _ _ HF). rewrite <- HL.
  assert (Z0 : Rabs 0 <= X) by (rewrite Rabs_R0; exact X0).
  apply gf_loops with (X := X).
  - exact X0.
  - intros r Hr HB. apply dot_err; assumption.
  - rewrite HL. apply win_len_pos. lia.
  - apply repeat_length.
  - apply Forall_forall. intros v Hv. apply repeat_spec in Hv. subst. exact Z0.
  - exact HX.
Qed.
