(** Lemmas about the error function. *)
From Coq Require Import Reals Lra Lia.
From Coquelicot Require Import Coquelicot.
From Verif Require Import M_Erf.
Open Scope R_scope.

Lemma gauss_derive x : is_derive gauss x (- (2 * x) * exp (- x ^ 2)).
Proof. unfold gauss. auto_derive; [exact I|]. cbn [pow]. ring. Qed.

Lemma gauss_cont x : continuous gauss x.
Proof. apply (ex_derive_continuous gauss). eexists. apply gauss_derive. Qed.

Lemma gauss_pos x : 0 < gauss x.
Proof. apply exp_pos. Qed.

Lemma gauss_int a b : ex_RInt gauss a b.
Proof. apply (ex_RInt_continuous (V := R_CompleteNormedModule)). intros z _. apply gauss_cont. Qed.

Lemma gint_derive x : is_derive (fun x => RInt gauss 0 x) x (gauss x).
Proof.
  apply is_derive_RInt with (a := 0); [|apply gauss_cont].
  exists (mkposreal 1 Rlt_0_1). intros y _. apply RInt_correct. apply gauss_int.
Qed.

Lemma sqrtPI_pos : 0 < sqrt PI.
Proof. apply sqrt_lt_R0, PI_RGT_0. Qed.

Lemma erf_is_derive x : is_derive erf x (2 / sqrt PI * exp (- x ^ 2)).
Proof. unfold erf. apply is_derive_scal. apply gint_derive. Qed.

Lemma erf_0 : erf 0 = 0.
Proof. unfold erf. rewrite RInt_point. apply Rmult_0_r. Qed.

Lemma erf_increasing x y : x < y -> erf x < erf y.
Proof.
  intros H. destruct (MVT_gen erf x y (fun z => 2 / sqrt PI * exp (- z ^ 2))) as [c [_ E]].
  - intros z _. apply erf_is_derive.
  - intros z _. apply continuity_pt_filterlim. apply (ex_derive_continuous erf). eexists. apply erf_is_derive.
  - assert (0 < 2 / sqrt PI * exp (- c ^ 2)).
    { apply Rmult_lt_0_compat; [apply Rdiv_lt_0_compat; [lra|apply sqrtPI_pos]|apply exp_pos]. }
    assert (0 < 2 / sqrt PI * exp (- c ^ 2) * (y - x)) by (apply Rmult_lt_0_compat; lra). lra.
Qed.

Lemma erf_continuity : continuity erf.
Proof. intros x. apply continuity_pt_filterlim. apply (ex_derive_continuous erf). eexists. apply erf_is_derive. Qed.

(** ** The Gaussian integral *)
Definition hker (x t : R) : R := exp (- x ^ 2 * (1 + t ^ 2)) / (1 + t ^ 2).
Definition hint (x : R) : R := RInt (hker x) 0 1.

Lemma one_t2 t : 1 + t ^ 2 <> 0.
Proof. pose proof (pow2_ge_0 t). lra. Qed.

Lemma hker_cont x t : continuous (hker x) t.
Proof. apply (ex_derive_continuous (hker x)). unfold hker. auto_derive. apply (one_t2 t). Qed.

Lemma hker_int x : ex_RInt (hker x) 0 1.
Proof. apply (ex_RInt_continuous (V := R_CompleteNormedModule)). intros z _. apply hker_cont. Qed.

Lemma hker_dx t x : is_derive (fun u => hker u t) x (- 2 * x * exp (- x ^ 2 * (1 + t ^ 2))).
Proof. unfold hker. pose proof (one_t2 t). auto_derive; [auto|]. cbn [pow] in *. field. rewrite Rmult_1_r in H. exact H. Qed.

Lemma continuity_2d_comp_exp (f : R -> R -> R) x y : continuity_2d_pt f x y -> continuity_2d_pt (fun u v => exp (f u v)) x y.
Proof.
  intros H. apply continuity_1d_2d_pt_comp with (f := exp); [|exact H]. apply derivable_continuous_pt, derivable_pt_exp.
Qed.

Lemma hint_derive x : is_derive hint x (- 2 * exp (- x ^ 2) * RInt gauss 0 x).
Proof.
  assert (D : is_derive hint x (RInt (fun t => Derive (fun u => hker u t) x) 0 1)).
  { apply (is_derive_RInt_param hker 0 1 x).
    - exists (mkposreal 1 Rlt_0_1). intros y _ t _. eexists. apply hker_dx.
    - intros t _. apply continuity_2d_pt_ext with (fun u v => - 2 * u * exp (- u ^ 2 * (1 + v ^ 2))).
      + intros u v. symmetry. apply is_derive_unique. apply hker_dx.
      + apply continuity_2d_pt_mult.
        * apply continuity_2d_pt_mult; [apply continuity_2d_pt_const|apply continuity_2d_pt_id1].
        * apply continuity_2d_comp_exp. apply continuity_2d_pt_mult.
          -- apply continuity_2d_pt_opp. apply continuity_1d_2d_pt_comp with (f := fun z => z ^ 2); [reg|apply continuity_2d_pt_id1].
          -- apply continuity_2d_pt_plus; [apply continuity_2d_pt_const|].
             apply continuity_1d_2d_pt_comp with (f := fun z => z ^ 2); [reg|apply continuity_2d_pt_id2].
    - exists (mkposreal 1 Rlt_0_1). intros y _. apply hker_int. }
  replace (- 2 * exp (- x ^ 2) * RInt gauss 0 x) with (RInt (fun t => Derive (fun u => hker u t) x) 0 1); [exact D|].
  assert (E : RInt (fun y => scal ((fun _ => x) y) (gauss (x * y))) 0 1 = RInt gauss (x * 0) (x * 1)).
  { apply (RInt_comp gauss (fun y => x * y) (fun _ => x)).
    - intros z _. apply gauss_cont.
    - intros z _. split; [auto_derive; [exact I|ring]|apply continuous_const]. }
  rewrite Rmult_0_r, Rmult_1_r in E. rewrite <- E. rewrite <- (RInt_scal (V := R_CompleteNormedModule)).
  - apply RInt_ext. intros t _. etransitivity; [apply is_derive_unique, hker_dx|]. unfold scal. cbn. unfold mult. cbn. unfold gauss.
    replace (- (x * (x * 1)) * (1 + t * (t * 1))) with (- (x * (x * 1)) + - (x * t) ^ 2) by ring. rewrite exp_plus. ring.
  - apply (ex_RInt_continuous (V := R_CompleteNormedModule)). intros z _. apply (continuous_scal (V := R_NormedModule)); [apply continuous_const|].
    apply (continuous_comp (fun y => x * y) gauss); [|apply gauss_cont].
    apply (ex_derive_continuous (fun y => x * y)). auto_derive. exact I.
Qed.

Lemma hint_0 : hint 0 = PI / 4.
Proof.
  unfold hint. rewrite <- atan_1. replace (atan 1) with (minus (atan 1) (atan 0)).
  - apply is_RInt_unique. apply is_RInt_ext with (fun t => / (1 + t ^ 2)).
    + intros t _. unfold hker. replace (- 0 ^ 2 * (1 + t ^ 2)) with 0 by ring. rewrite exp_0. unfold Rdiv. rewrite Rmult_1_l. reflexivity.
    + apply (is_RInt_derive atan (fun t => / (1 + t ^ 2))).
      * intros t _. apply is_derive_Reals. apply derivable_pt_lim_atan.
      * intros t _. apply (ex_derive_continuous (fun t => / (1 + t ^ 2))). auto_derive. apply (one_t2 t).
  - rewrite atan_0. unfold minus, plus, opp. cbn. ring.
Qed.

Lemma gauss_square x : (RInt gauss 0 x) ^ 2 + hint x = PI / 4.
Proof.
  set (F := fun x => (RInt gauss 0 x) ^ 2 + hint x).
  assert (D : forall z, is_derive F z 0).
  { intros z.
    assert (D : is_derive F z (plus (INR 2 * gauss z * (RInt gauss 0 z) ^ (pred 2)) (- 2 * exp (- z ^ 2) * RInt gauss 0 z))).
    - apply (is_derive_plus (fun x => RInt gauss 0 x ^ 2) hint); [|apply hint_derive].
      apply (is_derive_pow (fun x => RInt gauss 0 x) 2 z (gauss z)). apply gint_derive.
    - assert (E : plus (INR 2 * gauss z * (RInt gauss 0 z) ^ (pred 2)) (- 2 * exp (- z ^ 2) * RInt gauss 0 z) = 0) by (unfold plus, gauss; cbn [Hierarchy.AbelianGroup.plus]; cbn; ring).
      rewrite E in D. exact D. }
  change (F x = PI / 4). replace (PI / 4) with (F 0).
  - destruct (Req_dec x 0) as [->|N]; [reflexivity|].
    destruct (MVT_gen F 0 x (fun _ => 0)) as [c [_ E]]; [intros z _; apply D| |lra].
    intros z _. apply continuity_pt_filterlim. apply (ex_derive_continuous F). eexists. apply D.
  - unfold F. rewrite RInt_point, hint_0. unfold zero. cbn. ring.
Qed.

Lemma hint_pos x : 0 < hint x.
Proof.
  unfold hint. apply RInt_gt_0; [lra| |intros; apply hker_cont].
  intros t _. unfold hker. apply Rdiv_lt_0_compat; [apply exp_pos|]. pose proof (pow2_ge_0 t). lra.
Qed.

Lemma hint_le x : hint x <= exp (- x ^ 2) * (PI / 4).
Proof.
  rewrite <- hint_0. unfold hint. change (exp (- x ^ 2) * RInt (hker 0) 0 1) with (scal (exp (- x ^ 2)) (RInt (hker 0) 0 1)).
  rewrite <- (RInt_scal (V := R_CompleteNormedModule)) by apply hker_int.
  apply RInt_le; [exact Rle_0_1|apply hker_int|apply (ex_RInt_scal (V := R_NormedModule) (hker 0)); apply hker_int|].
  intros t _. unfold hker, scal. cbn. unfold mult. cbn. pose proof (pow2_ge_0 t) as Ht. cbn in Ht.
  replace (- (0 * (0 * 1)) * (1 + t * (t * 1))) with 0 by ring. rewrite exp_0. unfold Rdiv.
  assert (0 < / (1 + t * (t * 1))) by (apply Rinv_0_lt_compat; lra).
  rewrite Rmult_1_l. apply Rmult_le_compat_r; [lra|].
  pose proof (pow2_ge_0 x) as Hx. cbn in Hx.
  destruct (Req_dec (- (x * (x * 1)) * (1 + t * (t * 1))) (- (x * (x * 1)))) as [->|N]; [lra|]. left. apply exp_increasing. nra.
Qed.

Lemma erf_sq x : erf x ^ 2 = 1 - hint x / (PI / 4).
Proof.
  pose proof (gauss_square x) as G. pose proof PI_RGT_0 as Hp. unfold erf.
  assert (S : sqrt PI * sqrt PI = PI) by (apply sqrt_sqrt; lra). pose proof sqrtPI_pos.
  replace (hint x) with (PI / 4 - RInt gauss 0 x ^ 2) by lra.
  replace ((2 / sqrt PI * RInt gauss 0 x) ^ 2) with (4 / (sqrt PI * sqrt PI) * RInt gauss 0 x ^ 2) by (field; lra).
  rewrite S. field. lra.
Qed.

Lemma erf_bounds x : -1 < erf x < 1.
Proof.
  pose proof (erf_sq x) as E. pose proof (hint_pos x) as H. pose proof PI_RGT_0 as Hp.
  assert (0 < hint x / (PI / 4)) by (apply Rdiv_lt_0_compat; lra). split; nra.
Qed.

Lemma erf_sq_lower x : 1 - exp (- x ^ 2) <= erf x ^ 2.
Proof.
  rewrite erf_sq. pose proof (hint_le x) as H. pose proof PI_RGT_0 as Hp.
  assert (hint x / (PI / 4) <= exp (- x ^ 2)); [|lra].
  apply Rmult_le_reg_r with (PI / 4); [lra|]. unfold Rdiv at 1. rewrite Rmult_assoc, Rinv_l by lra. lra.
Qed.

Lemma erf_pos x : 0 < x -> 0 < erf x.
Proof. intros H. rewrite <- erf_0. apply erf_increasing. exact H. Qed.

Lemma erf_neg x : x < 0 -> erf x < 0.
Proof. intros H. rewrite <- erf_0. apply erf_increasing. exact H. Qed.

Lemma erf_odd x : erf (- x) = - erf x.
Proof.
  assert (D : forall z, is_derive (fun z => erf (- z) + erf z) z 0).
  { intros z.
    assert (D : is_derive (fun z => erf (- z) + erf z) z (plus (scal (opp one) (2 / sqrt PI * exp (- (- z) ^ 2))) (2 / sqrt PI * exp (- z ^ 2)))).
    - apply (is_derive_plus (fun z => erf (- z)) erf); [|apply erf_is_derive].
      apply (is_derive_comp erf Ropp z); [apply erf_is_derive|]. apply (is_derive_opp (fun x : R => x)). apply (is_derive_id (K := R_AbsRing)).
    - assert (E : plus (scal (opp one) (2 / sqrt PI * exp (- (- z) ^ 2))) (2 / sqrt PI * exp (- z ^ 2)) = 0).
      { unfold plus, scal, opp, one. cbn. unfold mult. cbn. replace (- z * (- z * 1)) with (z * (z * 1)) by ring. ring. }
      rewrite E in D. exact D. }
  destruct (Req_dec x 0) as [->|N]; [rewrite Ropp_0, erf_0; ring|].
  destruct (MVT_gen (fun z => erf (- z) + erf z) 0 x (fun _ => 0)) as [c [_ E]]; [intros z _; apply D| |].
  - intros z _. apply continuity_pt_filterlim. apply (ex_derive_continuous (fun z => erf (- z) + erf z)). eexists. apply D.
  - rewrite Ropp_0, erf_0 in E. lra.
Qed.

(** Every value in (-1, 1) is reached. *)
Lemma erf_above c : 0 <= c < 1 -> exists x, 0 < x /\ c < erf x.
Proof.
  intros Hc. set (x := sqrt (- ln (1 - c ^ 2)) + 1).
  assert (H1 : 0 < 1 - c ^ 2 <= 1) by (split; nra).
  assert (Hl : ln (1 - c ^ 2) <= 0) by (rewrite <- ln_1; destruct (Req_dec (1 - c ^ 2) 1) as [->|N]; [lra|left; apply ln_increasing; lra]).
  pose proof (sqrt_pos (- ln (1 - c ^ 2))) as Hs. assert (Hx : 0 < x) by (unfold x; lra).
  exists x. split; [exact Hx|]. pose proof (erf_pos x Hx) as He. pose proof (erf_sq_lower x) as L.
  assert (exp (- x ^ 2) < 1 - c ^ 2).
  { rewrite <- (exp_ln (1 - c ^ 2)) by lra. apply exp_increasing.
    assert (- ln (1 - c ^ 2) < x ^ 2); [|lra]. unfold x. rewrite <- (sqrt_sqrt (- ln (1 - c ^ 2))) at 1 by lra. nra. }
  nra.
Qed.

Lemma erf_onto c : -1 < c < 1 -> exists x, erf x = c.
Proof.
  intros Hc. destruct (erf_above (Rabs c)) as [b [Hb1 Hb2]]; [unfold Rabs; destruct (Rcase_abs c); lra|].
  assert (Hc1 : c < erf b) by (pose proof (Rle_abs c); lra).
  assert (Hc2 : erf (- b) < c) by (rewrite erf_odd; pose proof (Rle_abs (- c)); rewrite Rabs_Ropp in *; lra).
  destruct (IVT (fun x => erf x - c) (- b) b) as [z [_ Hz]]; try lra.
  - intros x. apply continuity_pt_minus; [apply erf_continuity|apply continuity_pt_const; intros ? ?; reflexivity].
  - exists z. lra.
Qed.

Lemma erf_inj x y : erf x = erf y -> x = y.
Proof. intros H. destruct (Rtotal_order x y) as [L|[E|L]]; [apply erf_increasing in L; lra|exact E|apply erf_increasing in L; lra]. Qed.

Lemma erfcinv_erf x : erfcinv (1 - erf x) = Some (Finite x).
Proof.
  unfold erfcinv. pose proof (erf_bounds x). destruct (Rlt_dec (1 - erf x) 0); [lra|]. destruct (Rlt_dec 2 (1 - erf x)); [lra|]. f_equal.
  apply is_lub_Rbar_unique. split.
  - intros z Hz. cbn. destruct (Rle_lt_dec z x) as [L|L]; [exact L|]. apply erf_increasing in L. lra.
  - intros b Hb. destruct b as [b| |]; cbn.
    + destruct (Rle_lt_dec x b) as [L|L]; [exact L|exfalso]. assert (M : 1 - erf x < 1 - erf ((b + x) / 2)) by (pose proof (erf_increasing ((b + x) / 2) x ltac:(lra)); lra).
      specialize (Hb _ M). cbn in Hb. lra.
    + exact I.
    + apply (Hb (x - 1)). pose proof (erf_increasing (x - 1) x ltac:(lra)). lra.
Qed.

Lemma erfcinv_spec y : 0 < y < 2 -> exists x, erfcinv y = Some (Finite x) /\ 1 - erf x = y.
Proof.
  intros H. destruct (erf_onto (1 - y)) as [x Hx]; [lra|]. exists x. split; [|lra]. replace y with (1 - erf x) by lra. apply erfcinv_erf.
Qed.

Lemma erfcinv_0 : erfcinv 0 = Some p_infty.
Proof.
  unfold erfcinv. destruct (Rlt_dec 0 0); [lra|]. destruct (Rlt_dec 2 0); [lra|]. f_equal. apply is_lub_Rbar_unique. split.
  - intros z _. exact I.
  - intros b Hb. destruct b as [b| |]; [|exact I|].
    + assert (M : 0 < 1 - erf (b + 1)) by (pose proof (erf_bounds (b + 1)); lra). specialize (Hb _ M). cbn in Hb. lra.
    + assert (M : 0 < 1 - erf 0) by (rewrite erf_0; lra). exact (Hb _ M).
Qed.

Lemma erfcinv_2 : erfcinv 2 = Some m_infty.
Proof.
  unfold erfcinv. destruct (Rlt_dec 2 0); [lra|]. destruct (Rlt_dec 2 2); [lra|]. f_equal. apply is_lub_Rbar_unique. split.
  - intros z Hz. pose proof (erf_bounds z). lra.
  - intros b _. destruct b; exact I.
Qed.
