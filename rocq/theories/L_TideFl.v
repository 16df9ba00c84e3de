(** Lemmas for C101: error analysis of the tide program. *)
From Coq Require Import List ZArith QArith Qreals Reals Machin Lia Lra Psatz Bool.
From Verif Require Import M_Py S_Base L_Base M_Np M_Cal M_Tide S_Cal S_Tide L_Tide M_Float S_Round L_Round L_Float M_TideFl.
Import ListNotations.
Open Scope R_scope.

(** Line by line; for some results a range of the exact value is known ([hint], by position). *)
Fixpoint analyse (hint : nat -> option (Z * Z)) (bs : list bnd) (p : list fx) : option (list bnd) :=
  match p with
  | [] => Some bs
  | e :: p =>
      match bound (bargs bs) e with
      | Some b =>
          let b' := match hint (length bs) with Some (l, h) => Bd l h (er b) | None => b end in
          analyse hint (bs ++ [b']) p
      | None => None
      end
  end.

Definition zq (n d : Z) : Z := (n * sc / d)%Z.
Definition zu (n d : Z) : Z := (n * sc / d + 1)%Z.
Definition tide_hint1 (n d : Z) (k : nat) : option (Z * Z) :=
  match k with
  | 15%nat => Some (zq 87 100, zu 951 1000)
  | 17%nat => Some (zq 3 10, zu 1 2)
  | 21%nat => Some (zq (-1) 1, zu 1 1)
  | 22%nat => Some (zq (-1) 1, zu 1 1)
  | 23%nat => Some (zq n d, zu 2 1)
  | _ => None
  end.
Definition tide_hint2 (k : nat) : option (Z * Z) :=
  match k with
  | 32%nat => Some (zq (-1) 1, zu 1 1)
  | 33%nat => Some (zq (-1) 1, zu 1 1)
  | _ => None
  end.
(** century, hour, position, altitude *)
Definition tide_in : list bnd :=
  [Bd 0 (2 * sc) (2 ^ 150); Bd 0 (24 * sc) (2 ^ 153); sym 360 1 0; sym 90 1 0; sym 10000 1 0].

(** ** The exact run *)
Fixpoint steps (xs : list R) (p : list fx) (vs : list R) : Prop :=
  match p, vs with
  | [], [] => True
  | e :: p, v :: vs => eval (args xs) e = v /\ steps (xs ++ [v]) p vs
  | _, _ => False
  end.
Lemma run_steps : forall p xs vs, steps xs p vs -> run eval xs p = xs ++ vs.
Proof.
  induction p as [|e p IH]; intros xs [|v vs] H; cbn [steps] in H; try contradiction.
  - rewrite app_nil_r. reflexivity.
  - destruct H as [E H]. cbn [run]. rewrite E, (IH _ _ H), <- app_assoc. reflexivity.
Qed.
Lemma run_app ev xs p q : run ev xs (p ++ q) = run ev (run ev xs p) q.
Proof. revert xs. induction p as [|e p IH]; intros xs; cbn [run app]; [reflexivity|apply IH]. Qed.
Lemma run_length ev : forall p xs, length (run ev xs p) = (length xs + length p)%nat.
Proof.
  induction p as [|e p IH]; intros xs; cbn [run length]; [lia|].
  rewrite IH, app_length. cbn [length]. lia.
Qed.
Lemma run_prefix ev : forall p xs k, (k < length xs)%nat -> nth k (run ev xs p) 0 = nth k xs 0.
Proof.
  induction p as [|e p IH]; intros xs k Hk; cbn [run]; [reflexivity|].
  rewrite IH by (rewrite app_length; cbn [length]; lia). apply app_nth1. exact Hk.
Qed.

(** ** Soundness of the analysis *)
Lemma all_ok_length : forall bs xs ts, all_ok bs xs ts -> length xs = length bs /\ length ts = length bs.
Proof.
  induction bs as [|b bs IH]; intros [|x xs] [|t ts] H; cbn [all_ok] in H; try contradiction; [auto|].
  destruct H as [_ H]. destruct (IH _ _ H). cbn [length]. lia.
Qed.
Lemma all_ok_snoc : forall bs xs ts b x t, all_ok bs xs ts -> ok b x t -> all_ok (bs ++ [b]) (xs ++ [x]) (ts ++ [t]).
Proof.
  induction bs as [|b0 bs IH]; intros [|x0 xs] [|t0 ts] b x t H K; cbn [all_ok app] in *; try contradiction; [auto|].
  destruct H as [H1 H2]. split; [exact H1|]. apply IH; assumption.
Qed.
Lemma all_ok_nth : forall bs xs ts, all_ok bs xs ts -> forall k, ok (nth k bs (Bd 0 0 0)) (nth k xs 0) (nth k ts 0).
Proof. intros bs xs ts H k. exact (all_ok_args bs xs ts H k). Qed.

Lemma analyse_sound F hint : good_arith F -> forall p bs xs ts cs,
  all_ok bs xs ts -> analyse hint bs p = Some cs ->
  (forall k l h, hint k = Some (l, h) -> (k < length xs + length p)%nat ->
     vz l <= nth k (run eval xs p) 0 <= vz h) ->
  all_ok cs (run eval xs p) (run (eval_fl F) ts p).
Proof.
  intros G. induction p as [|e p IH]; intros bs xs ts cs H HA HH; cbn [analyse run] in *.
  - injection HA as <-. exact H.
  - destruct (bound (bargs bs) e) as [b|] eqn:E; [|discriminate].
    pose proof (bound_sound F G _ _ _ (all_ok_args _ _ _ H) e b E) as K.
    destruct (all_ok_length _ _ _ H) as [L1 L2].
    eapply IH; [|exact HA|].
    + apply all_ok_snoc; [exact H|]. destruct (hint (length bs)) as [[l h]|] eqn:Eh; [|exact K].
      split; cbn [lo hi er]; [|apply K]. rewrite <- L1 in Eh. 
      pose proof (HH (length xs) l h Eh) as Q. cbn [length] in Q. specialize (Q ltac:(lia)).
      rewrite run_prefix in Q by (rewrite app_length; cbn [length]; lia).
      rewrite app_nth2, Nat.sub_diag in Q by lia. exact Q.
    + intros k l h Hk Hl. apply HH; [exact Hk|]. rewrite app_length in Hl. cbn [length] in *. lia.
Qed.

(** ** An angle from its half tangent *)
Lemma atan_near a b : 0 < 1 + a * b -> Rabs (atan a - atan b) <= Rabs (a - b) / (1 + a * b).
Proof.
  intros H. destruct (Rle_dec (a * b) 0) as [Hn|Hp].
  - eapply Rle_trans; [apply lip_atan|]. pose proof (Rabs_pos (a - b)) as P.
    apply Rmult_le_reg_r with (1 + a * b); [exact H|]. unfold Rdiv. rewrite Rmult_assoc, Rinv_l by lra. nra.
  - pose proof PI_RGT_0 as PP. 
    assert (HR : - PI / 2 < atan a - atan b < PI / 2).
    { pose proof (atan_bound a) as A. pose proof (atan_bound b) as B.
      destruct (Rle_dec 0 a) as [Ha|Ha].
      - assert (0 < b) by nra. pose proof (atan_increasing 0 b ltac:(lra)) as I1. rewrite atan_0 in I1.
        assert (0 < a) by nra. pose proof (atan_increasing 0 a ltac:(lra)) as I2. rewrite atan_0 in I2. lra.
      - assert (b < 0) by nra. pose proof (atan_increasing b 0 ltac:(lra)) as I1. rewrite atan_0 in I1.
        pose proof (atan_increasing a 0 ltac:(lra)) as I2. rewrite atan_0 in I2. lra. }
    assert (E : atan a - atan b = atan (atan_sub a b)).
    { rewrite (atan_sub_correct a b); [ring|lra|exact HR|]. pose proof (atan_bound (atan_sub a b)). lra. }
    rewrite E. eapply Rle_trans; [apply atan_abs|]. unfold atan_sub, Rdiv. rewrite Rabs_mult.
    rewrite (Rabs_pos_eq (/ (1 + a * b))) by (left; apply Rinv_0_lt_compat; lra). lra.
Qed.

Lemma atan_quot n d nt dt r en ed : 0 < d -> 0 < dt -> 0 < r -> n ^ 2 + d ^ 2 = r ^ 2 ->
  Rabs (nt - n) <= en -> Rabs (dt - d) <= ed -> en + ed < r ->
  Rabs (atan (nt / dt) - atan (n / d)) <= (en + ed) / (r - (en + ed)).
Proof.
  intros Hd Hdt Hr E Hn He Hlt.
  assert (Hen : 0 <= en) by (eapply Rle_trans; [apply Rabs_pos|exact Hn]).
  assert (Hed : 0 <= ed) by (eapply Rle_trans; [apply Rabs_pos|exact He]).
  assert (An : Rabs n <= r).
  { apply Rsqr_incr_0_var; [|lra]. rewrite <- Rsqr_abs. unfold Rsqr. pose proof (pow2_ge_0 d). lra. }
  assert (Ad : d <= r).
  { apply Rsqr_incr_0_var; [|lra]. unfold Rsqr. pose proof (pow2_ge_0 n). lra. }
  assert (P1 : Rabs (d * (dt - d)) <= r * ed).
  { rewrite Rabs_mult, (Rabs_pos_eq d) by lra. apply Rmult_le_compat; try assumption; [lra|apply Rabs_pos]. }
  assert (P2 : Rabs (n * (nt - n)) <= r * en).
  { rewrite Rabs_mult. apply Rmult_le_compat; try assumption; apply Rabs_pos. }
  assert (P3 : Rabs (d * (nt - n)) <= r * en).
  { rewrite Rabs_mult, (Rabs_pos_eq d) by lra. apply Rmult_le_compat; try assumption; [lra|apply Rabs_pos]. }
  assert (P4 : Rabs (n * (dt - d)) <= r * ed).
  { rewrite Rabs_mult. apply Rmult_le_compat; try assumption; apply Rabs_pos. }
  assert (D : r * (r - (en + ed)) <= dt * d + nt * n).
  { replace (dt * d + nt * n) with (r ^ 2 + d * (dt - d) + n * (nt - n)) by (rewrite <- E; ring).
    pose proof (Rle_abs (- (d * (dt - d)))) as Q1. pose proof (Rle_abs (- (n * (nt - n)))) as Q2.
    rewrite Rabs_Ropp in Q1, Q2. lra. }
  assert (Dp : 0 < dt * d + nt * n).
  { eapply Rlt_le_trans; [|exact D]. apply Rmult_lt_0_compat; lra. }
  assert (K : 1 + nt / dt * (n / d) = (dt * d + nt * n) / (dt * d)) by (field; lra).
  assert (Hdd : 0 < dt * d) by (apply Rmult_lt_0_compat; assumption).
  eapply Rle_trans; [apply atan_near; rewrite K; apply Rdiv_lt_0_compat; assumption|].
  rewrite K. replace (nt / dt - n / d) with ((d * (nt - n) - n * (dt - d)) / (dt * d)) by (field; lra).
  unfold Rdiv at 2. rewrite Rabs_mult, (Rabs_pos_eq (/ (dt * d))) by (left; apply Rinv_0_lt_compat; exact Hdd).
  replace (Rabs (d * (nt - n) - n * (dt - d)) * / (dt * d) / ((dt * d + nt * n) / (dt * d)))
    with (Rabs (d * (nt - n) - n * (dt - d)) / (dt * d + nt * n)) by (field; lra).
  assert (Nu : Rabs (d * (nt - n) - n * (dt - d)) <= r * (en + ed)).
  { unfold Rminus at 1. eapply Rle_trans; [apply Rabs_triang|]. rewrite Rabs_Ropp. lra. }
  apply Rle_trans with (r * (en + ed) / (r * (r - (en + ed)))).
  - assert (0 < r * (r - (en + ed))) by (apply Rmult_lt_0_compat; lra).
    apply Rmult_le_compat; [apply Rabs_pos|left; apply Rinv_0_lt_compat; exact Dp|exact Nu|].
    apply Rinv_le_contravar; assumption.
  - right. field. lra.
Qed.

Lemma atan_rounded rd q : good_rnd rd -> Rabs (atan (rd q) - atan q) <= 4 * u64.
Proof.
  intros [G _]. specialize (G q). pose proof u64_pos as Hu. pose proof eta64_small as He. pose proof eta64_pos as He0.
  assert (Hs : eta64 <= u64) by (rewrite u64_val; lra).
  destruct (Rle_dec (Rabs q) 1) as [H1|H1].
  - eapply Rle_trans; [apply lip_atan|]. eapply Rle_trans; [exact G|]. nra.
  - assert (Hq : 1 < Rabs q) by lra.
    assert (G2 : Rabs (rd q - q) <= 2 * u64 * Rabs q) by nra.
    assert (Hprod : q ^ 2 / 2 <= 1 + rd q * q).
    { replace (rd q * q) with (q ^ 2 + (rd q - q) * q) by ring.
      pose proof (Rle_abs (- ((rd q - q) * q))) as Q. rewrite Rabs_Ropp, Rabs_mult in Q.
      assert (Rabs (rd q - q) * Rabs q <= 2 * u64 * Rabs q * Rabs q) by (apply Rmult_le_compat_r; [apply Rabs_pos|exact G2]).
      assert (S2 : Rabs q * Rabs q = q ^ 2) by (rewrite <- Rabs_mult, Rabs_pos_eq; [ring|nra]).
      assert (2 * u64 * Rabs q * Rabs q <= q ^ 2 / 4).
      { rewrite Rmult_assoc, S2. rewrite u64_val. pose proof (pow2_ge_0 q). lra. }
      pose proof (pow2_ge_0 q). lra. }
    assert (S2 : Rabs q * Rabs q = q ^ 2) by (rewrite <- Rabs_mult, Rabs_pos_eq; [ring|nra]).
    assert (Hpos : 0 < q ^ 2 / 2) by nra.
    eapply Rle_trans; [apply atan_near; lra|].
    apply Rle_trans with (2 * u64 * Rabs q / (q ^ 2 / 2)).
    + apply Rmult_le_compat; [apply Rabs_pos|left; apply Rinv_0_lt_compat; lra|exact G2|].
      apply Rinv_le_contravar; lra.
    + rewrite <- S2. replace (2 * u64 * Rabs q / (Rabs q * Rabs q / 2)) with (4 * u64 * / Rabs q) by (field; lra).
      assert (/ Rabs q <= 1) by (rewrite <- Rinv_1; apply Rinv_le_contravar; lra).
      assert (0 < / Rabs q) by (apply Rinv_0_lt_compat; lra). nra.
Qed.

(** ** Numbers *)
Lemma PI_num : 3.14 <= PI <= 3.15.
Proof.
  pose proof (PI_2_3_7_ineq 2) as [H1 H2]. unfold tg_alt, PI_2_3_7_tg, Ratan_seq in *.
  cbn [sum_f_R0 Nat.mul Nat.add] in *. rewrite !INR_IZR_INZ in *.
  cbn [Z.of_nat Pos.of_succ_nat Pos.succ] in *. split; lra.
Qed.

Lemma cos_num a : 0 <= a <= 1 -> 1 - a ^ 2 / 2 <= cos a <= 1 - a ^ 2 / 2 + a ^ 4 / 24.
Proof.
  intros H. destruct (pre_cos_bound a 0 ltac:(lra) ltac:(lra)) as [H1 H2].
  unfold cos_approx, cos_term in *. cbn [sum_f_R0 Nat.mul Nat.add fact] in *. rewrite !INR_IZR_INZ in *.
  cbn [Z.of_nat Pos.of_succ_nat Pos.succ] in *. split; lra.
Qed.
Lemma sin_num a : 0 <= a <= 1 -> a - a ^ 3 / 6 <= sin a.
Proof.
  intros H. destruct (pre_sin_bound a 0 ltac:(lra) ltac:(lra)) as [H1 _].
  unfold sin_approx, sin_term in *. cbn [sum_f_R0 Nat.mul Nat.add fact] in *. rewrite !INR_IZR_INZ in *.
  cbn [Z.of_nat Pos.of_succ_nat Pos.succ] in *. lra.
Qed.

Lemma omega_num : 0.409 <= t_omega <= 0.4105.
Proof. pose proof PI_num. unfold t_omega, deg2rad. lra. Qed.

Lemma cosI_num T : 0.87 <= cos t_omega * cos t_i - sin t_omega * sin t_i * cos (t_N T) <= 0.951.
Proof.
  pose proof omega_num as Ho. pose proof (COS_bound (t_N T)) as Hc.
  pose proof sin_omega_pos as P1. pose proof sin_i_pos as P2.
  assert (P : 0 < sin t_omega * sin t_i) by (apply Rmult_lt_0_compat; assumption).
  pose proof (cos_plus t_omega t_i) as C1. pose proof (cos_minus t_omega t_i) as C2.
  destruct (cos_num (t_omega + t_i)) as [N1 _]; [unfold t_i; lra|].
  destruct (cos_num (t_omega - t_i)) as [_ N2]; [unfold t_i; lra|].
  set (S := sin t_omega * sin t_i) in *. set (C := cos t_omega * cos t_i) in *. set (c := cos (t_N T)) in *.
  assert (- S <= S * c <= S) by (split; nra).
  assert (M1 : (t_omega + t_i) ^ 2 <= 0.26).
  { assert (B : 0 <= t_omega + t_i <= 0.5004) by (unfold t_i; lra). nra. }
  assert (M2 : 1 - (t_omega - t_i) ^ 2 / 2 + (t_omega - t_i) ^ 4 / 24 <= 0.951).
  { assert (B : 0.319 <= t_omega - t_i <= 0.322) by (unfold t_i; lra).
    set (d := t_omega - t_i) in *.
    assert (B2 : 0.1017 <= d ^ 2 <= 0.104) by nra. 
    replace (d ^ 4) with (d ^ 2 * d ^ 2) by ring. assert (d ^ 2 * d ^ 2 <= 0.011) by nra. lra. }
  split; lra.
Qed.

Lemma sinI_num T : 0.3 <= sin (t_I T) <= 0.5 /\ sin (t_I T) ^ 2 <= 0.2431.
Proof.
  pose proof (cosI_num T) as H. pose proof (sin_I_sq T) as E. pose proof (sin_I_pos T) as P.
  set (c := cos t_omega * cos t_i - sin t_omega * sin t_i * cos (t_N T)) in *.
  assert (B : 0.7569 <= c ^ 2 <= 0.9045) by nra.
  set (s := sin (t_I T)) in *. split; [|lra].
  split; apply Rsqr_incr_0_var; unfold Rsqr; lra.
Qed.

Lemma alpha_range T : -1 <= t_cos_alpha T <= 1 /\ -1 <= t_sin_alpha T <= 1.
Proof. pose proof (alpha_unit T) as E. split; split; nra. Qed.

Lemma den_low T : 0.3 * (1 + cos (t_N T)) <= 1 + t_cos_alpha T.
Proof.
  pose proof (alpha_unit T) as E. pose proof (sin_alpha_B T) as EB. pose proof (cos_alpha_A T) as EA.
  destruct (sinI_num T) as [HS HS2]. destruct (alpha_range T) as [Rc _].
  pose proof (COS_bound (t_N T)) as Hc. pose proof (L_Tide.sc (t_N T)) as SC.
  pose proof omega_num as Ho.
  assert (HW : 0.397 <= sin t_omega).
  { pose proof (sin_num t_omega ltac:(lra)) as Q.
    assert (t_omega ^ 3 <= 0.0692) by (replace (t_omega ^ 3) with (t_omega * t_omega ^ 2) by ring; nra). lra. }
  set (N := t_N T) in *. destruct (Rle_dec (cos N) 0) as [Hn|Hp].
  - assert (K : 0.64 * (1 - cos N ^ 2) <= t_sin_alpha T ^ 2).
    { assert (E2 : sin (t_I T) ^ 2 * t_sin_alpha T ^ 2 = sin t_omega ^ 2 * sin N ^ 2)
        by (rewrite <- !Rpow_mult_distr, EB; reflexivity).
      assert (W2 : 0.1576 <= sin t_omega ^ 2) by nra.
      assert (SN : 0 <= sin N ^ 2) by apply pow2_ge_0. pose proof (pow2_ge_0 (t_sin_alpha T)) as SA.
      assert (sin (t_I T) ^ 2 * t_sin_alpha T ^ 2 <= 0.2431 * t_sin_alpha T ^ 2) by (apply Rmult_le_compat_r; assumption).
      assert (0.1576 * sin N ^ 2 <= sin t_omega ^ 2 * sin N ^ 2) by (apply Rmult_le_compat_r; assumption).
      replace (1 - cos N ^ 2) with (sin N ^ 2) by lra. lra. }
    assert (K2 : (1 - t_cos_alpha T) * (1 + t_cos_alpha T) <= 2 * (1 + t_cos_alpha T)) by (apply Rmult_le_compat_r; lra).
    assert (K3 : 1 + cos N <= (1 - cos N) * (1 + cos N)).
    { rewrite <- (Rmult_1_l (1 + cos N)) at 1. apply Rmult_le_compat_r; lra. }
    lra.
  - assert (A0 : 0 < sin (t_I T) * t_cos_alpha T).
    { rewrite EA. pose proof cos_omega_pos. pose proof sin_omega_pos. pose proof cos_i_pos. pose proof sin_i_pos.
      assert (0 < cos t_omega * sin t_i) by (apply Rmult_lt_0_compat; assumption).
      assert (0 < cos N * cos t_i * sin t_omega) by (repeat apply Rmult_lt_0_compat; lra). lra. }
    assert (0 < t_cos_alpha T) by nra. lra.
Qed.

(** ** The constants *)
Lemma ev_mu x : eval x q_mu = t_mu.
Proof. unfold q_mu, t_mu. cbn [eval]. let v := eval vm_compute in (6.673e-8)%Q in change (6.673e-8)%Q with v. unfold Q2R. cbn [Qnum Qden]. lra. Qed.
Lemma ev_M x : eval x q_M = t_M.
Proof. unfold q_M, t_M. cbn [eval]. let v := eval vm_compute in (7.3537e25)%Q in change (7.3537e25)%Q with v. unfold Q2R. cbn [Qnum Qden]. lra. Qed.
Lemma ev_S x : eval x q_S = t_S.
Proof. unfold q_S, t_S. cbn [eval]. let v := eval vm_compute in (1.993e33)%Q in change (1.993e33)%Q with v. unfold Q2R. cbn [Qnum Qden]. lra. Qed.
Lemma ev_e x : eval x q_e = t_e.
Proof. unfold q_e, t_e, Q2R. cbn [eval]. unfold Q2R. cbn [Qnum Qden]. lra. Qed.
Lemma ev_m x : eval x q_m = t_m.
Proof. unfold q_m, t_m. cbn [eval]. unfold Q2R. cbn [Qnum Qden]. lra. Qed.
Lemma ev_c x : eval x q_c = t_c.
Proof. unfold q_c, t_c. cbn [eval]. let v := eval vm_compute in (3.84402e10)%Q in change (3.84402e10)%Q with v. unfold Q2R. cbn [Qnum Qden]. lra. Qed.
Lemma ev_c1 x : eval x q_c1 = t_c1.
Proof. unfold q_c1, t_c1. cbn [eval]. let v := eval vm_compute in (1.495e13)%Q in change (1.495e13)%Q with v. unfold Q2R. cbn [Qnum Qden]. lra. Qed.
Lemma ev_h2 x : eval x q_h2 = t_h2.
Proof. unfold q_h2, t_h2. cbn [eval]. unfold Q2R. cbn [Qnum Qden]. lra. Qed.
Lemma ev_k2 x : eval x q_k2 = t_k2.
Proof. unfold q_k2, t_k2. cbn [eval]. unfold Q2R. cbn [Qnum Qden]. lra. Qed.
Lemma ev_a x : eval x q_a = t_a.
Proof. unfold q_a, t_a. cbn [eval]. let v := eval vm_compute in (6.378270e8)%Q in change (6.378270e8)%Q with v. unfold Q2R. cbn [Qnum Qden]. lra. Qed.
Lemma ev_i x : eval x q_i = t_i.
Proof. unfold q_i, t_i. cbn [eval]. unfold Q2R. cbn [Qnum Qden]. lra. Qed.

(** ** The exact values are the formulas of M_Tide.v *)
Definition tide_vals1 (T t0 lon lat alt : R) : list R :=
  [T * T; T * T * T; t_omega; deg2rad lat; alt * 100; - lon; t_s T; t_p T; t_h T; t_N T;
   cos t_omega * cos t_i - sin t_omega * sin t_i * cos (t_N T); t_I T; sin (t_I T); t_nu T;
   t_t lon t0; t_chi lon t0 T; t_cos_alpha T; t_sin_alpha T; 1 + t_cos_alpha T].
Definition tide_vals2 (T t0 lon lat alt : R) : list R :=
  [t_xi T; t_sigma T; t_L_moon T; t_p1 T; t_e1 T; t_chi1 lon t0 T; t_L_sun T;
   t_cos_theta lon lat t0 T; t_cos_phi lon lat t0 T; t_C lat; t_r lat alt; t_aprime; t_aprime1 T;
   t_d T; t_D T; t_gm lon lat alt t0 T; t_gs lon lat alt t0 T; t_love;
   (t_gm lon lat alt t0 T + t_gs lon lat alt t0 T) * 1e3 * t_love;
   t_gm lon lat alt t0 T * 1e3 * t_love; t_gs lon lat alt t0 T * 1e3 * t_love].

Ltac ev := repeat rewrite ?ev_mu, ?ev_M, ?ev_S, ?ev_e, ?ev_m, ?ev_c, ?ev_c1, ?ev_h2, ?ev_k2, ?ev_a, ?ev_i.
Ltac q2 := unfold Q2R; cbn [Qnum Qden].

Opaque q_mu q_M q_S q_e q_m q_c q_c1 q_h2 q_k2 q_a q_i.
Lemma tide_run1 T t0 lon lat alt :
  run eval [T; t0; lon; lat; alt] tide_prog1 = [T; t0; lon; lat; alt] ++ tide_vals1 T t0 lon lat alt.
Proof.
  apply run_steps. unfold tide_prog1, tide_vals1.
  cbn [steps app].
  split; [reflexivity|]. split; [reflexivity|].
  split; [cbn [eval]; unfold t_omega, deg2rad; f_equal; q2; lra|].
  split; [reflexivity|]. split; [reflexivity|]. split; [reflexivity|].
  split; [cbn [eval args nth v_T v_TT v_TTT]; unfold t_s; q2; lra|].
  split; [cbn [eval args nth v_T v_TT v_TTT]; unfold t_p; q2; lra|].
  split; [cbn [eval args nth v_T v_TT v_TTT]; unfold t_h; q2; lra|].
  split; [cbn [eval args nth v_T v_TT v_TTT]; unfold t_N; q2; lra|].
  split; [cbn [eval]; ev; reflexivity|].
  split; [reflexivity|]. split; [reflexivity|].
  split; [cbn [eval]; ev; reflexivity|].
  split; [cbn [eval args nth]; unfold t_t, deg2rad; reflexivity|].
  split; [reflexivity|]. split; [reflexivity|]. split; [reflexivity|]. split; [reflexivity|]. exact Logic.I.
Qed.

Lemma alpha_run T t0 lon lat alt :
  eval (args ([T; t0; lon; lat; alt] ++ tide_vals1 T t0 lon lat alt)) alpha_fx = t_alpha T.
Proof. reflexivity. Qed.

Lemma tide_run2 T t0 lon lat alt :
  run eval (([T; t0; lon; lat; alt] ++ tide_vals1 T t0 lon lat alt) ++ [t_alpha T]) tide_prog2 =
  (([T; t0; lon; lat; alt] ++ tide_vals1 T t0 lon lat alt) ++ [t_alpha T]) ++ tide_vals2 T t0 lon lat alt.
Proof.
  apply run_steps. unfold tide_prog2, tide_vals2, tide_vals1.
  cbn [steps app].
  split; [reflexivity|]. split; [reflexivity|].
  split; [cbn [eval]; ev; cbn [eval args nth v_s v_p v_h v_sigma]; unfold t_L_moon; q2; lra|].
  split; [cbn [eval args nth v_T v_TT v_TTT]; unfold t_p1; q2; lra|].
  split; [cbn [eval args nth v_T v_TT v_TTT]; unfold t_e1; q2; lra|].
  split; [reflexivity|]. split; [reflexivity|].
  split; [|split; [|split; [|split; [|split; [|split; [|split; [|split; [|split; [|split; [|split;
    [|split; [|split; [|split; [|exact Logic.I]]]]]]]]]]]]]].
  - cbn [eval sq]. cbn [args nth v_lamb v_sinI v_L_moon v_I v_chi eval]. unfold t_cos_theta. cbv zeta. ring.
  - cbn [eval sq]. cbn [args nth v_lamb v_omega v_L_sun v_chi1 eval]. unfold t_cos_phi. cbv zeta. ring.
  - cbn [eval sq args nth v_lamb]. unfold t_C. f_equal. f_equal. q2. lra.
  - cbn [eval]. ev. reflexivity.
  - cbn [eval]. ev. reflexivity.
  - cbn [eval]. ev. reflexivity.
  - cbn [eval]. ev. cbn [eval args nth v_s v_p v_h v_aprime]. unfold t_d. cbv zeta. f_equal. f_equal. q2. lra.
  - cbn [eval]. ev. reflexivity.
  - cbn [eval sq]. ev. cbn [eval args nth v_r v_d v_cos_theta]. unfold t_gm. cbv zeta. q2. lra.
  - cbn [eval sq]. ev. cbn [eval args nth v_r v_D v_cos_phi]. unfold t_gs. cbv zeta. q2. lra.
  - cbn [eval]. ev. unfold t_love. q2. lra.
  - cbn [eval args nth v_gm v_gs v_love]. f_equal. f_equal. lra.
  - cbn [eval args nth v_gm v_gs v_love]. f_equal. f_equal. lra.
  - cbn [eval args nth v_gm v_gs v_love]. f_equal. f_equal. lra.
Qed.

(** ** The analysis of one sample; [n/d] is a lower bound of 1 + cos(alpha) *)
Definition at_pos (bs : list bnd) (k : nat) : bnd := nth k bs (Bd 0 0 0).
Definition alpha_bnd (bs : list bnd) : option bnd :=
  let s := at_pos bs 22 in let c := at_pos bs 23 in
  let E := (er s + er c)%Z in let r := Z.sqrt (2 * lo c * sc) in
  if (0 <? lo c - er c)%Z && (E <? r)%Z
  then Some (Bd (- (4 * sc)) (4 * sc) (rnder (4 * sc) (2 * (divup E (r - E) + 3 * libm)))) else None.
Definition tide_bnds (n d : Z) : option (list bnd) :=
  obind (analyse (tide_hint1 n d) tide_in tide_prog1) (fun bs =>
  obind (alpha_bnd bs) (fun b => analyse tide_hint2 (bs ++ [b]) tide_prog2)).
Definition tide_check (n d N D : Z) : bool :=
  match tide_bnds n d with
  | Some bs => (er (at_pos bs 43) * D <=? N * sc)%Z && (er (at_pos bs 44) * D <=? N * sc)%Z
               && (er (at_pos bs 45) * D <=? N * sc)%Z
  | None => false
  end.

Lemma zq_low n d : (0 < d)%Z -> vz (zq n d) <= IZR n / IZR d.
Proof.
  intros Hd. unfold zq, vz. destruct (IZR_div (n * sc) d Hd) as [_ H]. pose proof sc_pos.
  assert (0 < IZR d) by (apply IZR_lt; exact Hd).
  replace (IZR n / IZR d) with (IZR (n * sc) / IZR d / IZR sc) by (rewrite mult_IZR; field; lra).
  apply Rmult_le_compat_r; [left; apply Rinv_0_lt_compat, sc_pos|]. exact H.
Qed.
Lemma zu_high n d : (0 < d)%Z -> IZR n / IZR d <= vz (zu n d).
Proof.
  intros Hd. unfold zu, vz. destruct (IZR_div (n * sc) d Hd) as [H _]. pose proof sc_pos.
  assert (0 < IZR d) by (apply IZR_lt; exact Hd). rewrite plus_IZR.
  replace (IZR n / IZR d) with (IZR (n * sc) / IZR d / IZR sc) by (rewrite mult_IZR; field; lra).
  apply Rmult_le_compat_r; [left; apply Rinv_0_lt_compat, sc_pos|]. lra.
Qed.

Lemma sqrt_low z : (0 <= z)%Z -> vz (Z.sqrt (z * sc)) <= sqrt (vz z).
Proof.
  intros Hz. pose proof sc_pos as Hs. pose proof sc_posZ as HsZ.
  pose proof (Z.sqrt_spec (z * sc) ltac:(lia)) as [S1 _].
  assert (S3 : (0 <= Z.sqrt (z * sc))%Z) by apply Z.sqrt_nonneg. set (w := Z.sqrt (z * sc)) in *.
  assert (K : vz w * vz w = IZR (w * w) / IZR sc / IZR sc) by (unfold vz; rewrite mult_IZR; field; lra).
  assert (K2 : vz z = IZR (z * sc) / IZR sc / IZR sc) by (unfold vz; rewrite mult_IZR; field; lra).
  rewrite <- (sqrt_square (vz w)) by (apply vz_nonneg; lia). apply sqrt_le_1_alt.
  rewrite K, K2. apply Rmult_le_compat_r; [left; apply Rinv_0_lt_compat; lra|].
  apply Rmult_le_compat_r; [left; apply Rinv_0_lt_compat; lra|]. apply IZR_le. exact S1.
Qed.

Lemma half_angle_ok F b22 b23 s st c dt : good_arith F -> c ^ 2 + s ^ 2 = 1 ->
  ok b22 s st -> ok b23 (1 + c) dt -> (0 < lo b23 - er b23)%Z ->
  (er b22 + er b23 < Z.sqrt (2 * lo b23 * sc))%Z ->
  Rabs (fatan F (rnd F (st / dt)) - atan (s / (1 + c)))
  <= vz (divup (er b22 + er b23) (Z.sqrt (2 * lo b23 * sc) - (er b22 + er b23)) + 3 * libm).
Proof.
  intros (GR & _ & _ & GA & _) E H1 H2 Hlo Hr.
  pose proof (ok_er _ _ _ H1) as E1. pose proof (ok_er _ _ _ H2) as E2.
  pose proof E1 as Z1. apply vz_nonneg_inv in Z1. pose proof E2 as Z2. apply vz_nonneg_inv in Z2.
  destruct H1 as [_ H1]. destruct H2 as [R2 H2].
  pose proof Hlo as Hlv. apply vz_pos in Hlv. rewrite vz_sub in Hlv.
  set (r0 := Z.sqrt (2 * lo b23 * sc)) in *.
  assert (Hd : 0 < 1 + c) by lra.
  assert (Hdt : 0 < dt) by (unfold Rabs in H2; destruct (Rcase_abs (dt - (1 + c))); lra).
  set (r := sqrt (2 * (1 + c))). 
  assert (Hr2 : s ^ 2 + (1 + c) ^ 2 = r ^ 2) by (unfold r; rewrite pow2_sqrt by lra; lra).
  assert (Hr0 : vz r0 <= r).
  { eapply Rle_trans; [apply sqrt_low; lia|]. unfold r. apply sqrt_le_1_alt.
    replace (2 * lo b23)%Z with (lo b23 + lo b23)%Z by lia. rewrite vz_add. lra. }
  assert (Hrz : vz (er b22) + vz (er b23) < vz r0).
  { rewrite <- vz_add. assert (P : 0 < vz (r0 - (er b22 + er b23))) by (apply vz_pos; lia). rewrite vz_sub in P. lra. }
  assert (Hrp : 0 < r) by lra.
  pose proof (atan_quot s (1 + c) st dt r (vz (er b22)) (vz (er b23)) Hd Hdt Hrp Hr2 H1 H2 ltac:(lra)) as Q.
  pose proof (atan_rounded (rnd F) (st / dt) GR) as Q2. pose proof (GA (rnd F (st / dt))) as Q3.
  assert (Q4 : (vz (er b22) + vz (er b23)) / (r - (vz (er b22) + vz (er b23)))
               <= vz (divup (er b22 + er b23) (r0 - (er b22 + er b23)))).
  { eapply Rle_trans; [|apply divup_ok; lia]. rewrite vz_sub, vz_add.
    apply Rmult_le_compat_l; [lra|]. apply Rinv_le_contravar; lra. }
  replace (3 * libm)%Z with (libm + libm + libm)%Z by lia. rewrite !vz_add, libm_vz.
  replace (fatan F (rnd F (st / dt)) - atan (s / (1 + c)))
    with ((fatan F (rnd F (st / dt)) - atan (rnd F (st / dt))) +
          ((atan (rnd F (st / dt)) - atan (st / dt)) + (atan (st / dt) - atan (s / (1 + c))))) by ring.
  eapply Rle_trans; [apply Rabs_triang|]. 
  pose proof (Rabs_triang (atan (rnd F (st / dt)) - atan (st / dt)) (atan (st / dt) - atan (s / (1 + c)))) as Q5.
  rewrite u64_val in Q2. lra.
Qed.

Lemma alpha_ok F bs b xs ts T : good_arith F -> all_ok bs xs ts -> alpha_bnd bs = Some b ->
  nth 22 xs 0 = t_sin_alpha T -> nth 23 xs 0 = 1 + t_cos_alpha T ->
  ok b (t_alpha T) (eval_fl F (args ts) alpha_fx).
Proof.
  intros G H HB E1 E2. unfold alpha_bnd in HB. cbv zeta in HB.
  pose proof (all_ok_nth _ _ _ H 22) as O1. pose proof (all_ok_nth _ _ _ H 23) as O2.
  fold (at_pos bs 22) in O1. fold (at_pos bs 23) in O2. rewrite E1 in O1. rewrite E2 in O2.
  destruct (Z.ltb_spec 0 (lo (at_pos bs 23) - er (at_pos bs 23))) as [Hl|]; [|discriminate].
  destruct (Z.ltb_spec (er (at_pos bs 22) + er (at_pos bs 23)) (Z.sqrt (2 * lo (at_pos bs 23) * sc))) as [Hr|]; [|discriminate].
  cbn [andb] in HB. apply Some_inj in HB. subst b.
  pose proof (half_angle_ok F _ _ _ _ _ _ G (alpha_unit T) O1 O2 Hl Hr) as K.
  assert (R : Rabs (t_alpha T) <= vz (4 * sc)).
  { rewrite vz_sc. unfold t_alpha. pose proof (atan_bound (t_sin_alpha T / (1 + t_cos_alpha T))).
    pose proof PI_4. apply Rabs_le. lra. }
  split; cbn [lo hi er]; [apply abs_range; exact R|].
  change (eval_fl F (args ts) alpha_fx)
    with (rnd F (2 * fatan F (rnd F (nth 22 ts 0 / nth 23 ts 0)))).
  apply rnder_ok; [apply G|exact R|].
  unfold t_alpha. rewrite <- Rmult_minus_distr_l, Rabs_mult, (Rabs_pos_eq 2) by lra.
  set (z := (divup _ _ + 3 * libm)%Z) in *. replace (2 * z)%Z with (z + z)%Z by lia. rewrite vz_add. lra.
Qed.

Lemma obind_some A B (o : option A) (f : A -> option B) b : obind o f = Some b -> exists a, o = Some a /\ f a = Some b.
Proof. destruct o as [a|]; cbn [obind]; [|discriminate]. intros H. exists a. auto. Qed.

Lemma er_real b n d : (0 < d)%Z -> (er b * d <= n * sc)%Z -> vz (er b) <= IZR n / IZR d.
Proof.
  intros Hd H. apply IZR_le in H. rewrite !mult_IZR in H. pose proof sc_pos. assert (0 < IZR d) by (apply IZR_lt; exact Hd).
  unfold vz. apply Rmult_le_reg_r with (IZR sc * IZR d); [apply Rmult_lt_0_compat; lra|].
  replace (IZR (er b) / IZR sc * (IZR sc * IZR d)) with (IZR (er b) * IZR d) by (field; lra).
  replace (IZR n / IZR d * (IZR sc * IZR d)) with (IZR n * IZR sc) by (field; lra). exact H.
Qed.

Opaque analyse tide_prog1 tide_prog2.
Lemma tide_err F n d N D T t0 lon lat alt Tt t0t : good_arith F -> (0 < d)%Z -> (0 < D)%Z -> tide_check n d N D = true ->
  ok (nth 0 tide_in (Bd 0 0 0)) T Tt -> ok (nth 1 tide_in (Bd 0 0 0)) t0 t0t ->
  Rabs lon <= 360 -> Rabs lat <= 90 -> Rabs alt <= 10000 -> IZR n / IZR d <= 1 + t_cos_alpha T ->
  let v := t_out lon lat alt t0 T in let w := t_out_fl F lon lat alt t0t Tt in
  Rabs (fst (fst w) - fst (fst v)) <= IZR N / IZR D /\
  Rabs (snd (fst w) - snd (fst v)) <= IZR N / IZR D /\
  Rabs (snd w - snd v) <= IZR N / IZR D.
Proof.
  intros G Hd HD HC OT Ot Hlon Hlat Halt Hn. unfold tide_check in HC.
  destruct (tide_bnds n d) as [cs|] eqn:EB; [|discriminate]. unfold tide_bnds in EB.
  apply obind_some in EB. destruct EB as (bs & E1 & EB). apply obind_some in EB. destruct EB as (b & E2 & E3).
  assert (A0 : all_ok tide_in [T; t0; lon; lat; alt] [Tt; t0t; lon; lat; alt]).
  { unfold tide_in in *. cbn [nth] in OT, Ot. cbn [all_ok].
    split; [exact OT|]. split; [exact Ot|]. split; [apply ok_exact; [reflexivity|lra]|].
    split; [apply ok_exact; [reflexivity|lra]|]. split; [apply ok_exact; [reflexivity|lra]|]. exact Logic.I. }
  assert (A1 := analyse_sound F (tide_hint1 n d) G _ _ _ _ _ A0 E1). rewrite tide_run1 in A1.
  pose proof (cosI_num T) as B1. pose proof (proj1 (sinI_num T)) as B2. pose proof (alpha_range T) as [B3 B4].
  assert (A1' : all_ok bs ([T; t0; lon; lat; alt] ++ tide_vals1 T t0 lon lat alt)
                  (run (eval_fl F) [Tt; t0t; lon; lat; alt] tide_prog1)).
  { apply A1. clear A1. intros k l h Hk _.
    assert (Q : forall a b c e x, (0 < b)%Z -> (0 < e)%Z -> IZR a / IZR b <= x -> x <= IZR c / IZR e ->
                vz (zq a b) <= x <= vz (zu c e)).
    { intros a b' c e x Hb He L1 L2. pose proof (zq_low a b' Hb). pose proof (zu_high c e He). lra. }
    unfold tide_hint1 in Hk.
    do 24 (destruct k as [|k]; [try discriminate Hk; apply Some_inj in Hk; injection Hk as <- <-;
      unfold tide_vals1; cbn [nth app]; apply Q; try reflexivity; try exact Hd; try exact Hn; lra|]).
    discriminate Hk. }
  clear A1.
  assert (A2 : ok b (t_alpha T) (eval_fl F (args (run (eval_fl F) [Tt; t0t; lon; lat; alt] tide_prog1)) alpha_fx)).
  { apply (alpha_ok F bs b _ _ T G A1' E2); reflexivity. }
  assert (A3 := all_ok_snoc _ _ _ _ _ _ A1' A2).
  assert (A4 := analyse_sound F tide_hint2 G _ _ _ _ _ A3 E3). rewrite tide_run2 in A4.
  assert (A5 : all_ok cs ((([T; t0; lon; lat; alt] ++ tide_vals1 T t0 lon lat alt) ++ [t_alpha T]) ++ tide_vals2 T t0 lon lat alt)
     (run (eval_fl F) [Tt; t0t; lon; lat; alt] tide_prog)).
  { unfold tide_prog. rewrite run_app. cbn [run]. apply A4. intros k l h Hk _.
    unfold tide_hint2 in Hk.
    pose proof (cos_theta_bound lon lat t0 T) as C1. pose proof (cos_phi_bound lon lat t0 T) as C2.
    pose proof (zq_low (-1) 1 eq_refl) as L1. pose proof (zu_high 1 1 eq_refl) as L2.
    do 34 (destruct k as [|k]; [try discriminate Hk; apply Some_inj in Hk; injection Hk as <- <-;
      unfold tide_vals1, tide_vals2; cbn [nth app]; lra|]).
    discriminate Hk. }
  apply andb_prop in HC. destruct HC as [HC K3]. apply andb_prop in HC. destruct HC as [K1 K2].
  apply Z.leb_le in K1, K2, K3.
  pose proof (proj2 (all_ok_nth _ _ _ A5 43)) as R1. pose proof (proj2 (all_ok_nth _ _ _ A5 44)) as R2.
  pose proof (proj2 (all_ok_nth _ _ _ A5 45)) as R3.
  pose proof (er_real _ _ _ HD K1) as S1. pose proof (er_real _ _ _ HD K2) as S2. pose proof (er_real _ _ _ HD K3) as S3.
  unfold at_pos in *. cbv zeta. unfold t_out_fl, t_out. cbn [fst snd].
  split; [|split].
  - eapply Rle_trans; [|exact S1]. exact R1.
  - eapply Rle_trans; [|exact S2]. exact R2.
  - eapply Rle_trans; [|exact S3]. exact R3.
Qed.
