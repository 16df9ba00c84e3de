(** Rounding error lemmas. *)
From Coq Require Import List ZArith Reals Lia Lra Psatz.
From Flocq Require Import Core Relative.
From Verif Require Import M_Py S_Base L_Base M_Round S_Round.
Import ListNotations.
Open Scope R_scope.

Lemma u64_bpow : / 2 * bpow radix2 (- (53) + 1) = u64.
Proof.
  unfold u64. change (- (53) + 1)%Z with (- (52))%Z. rewrite bpow_opp.
  change (bpow radix2 52) with (IZR (Zpower radix2 52)). 
  replace (2 ^ 53) with (2 * 2 ^ 52) by (cbn [pow]; ring).
  rewrite Rinv_mult.
  f_equal. f_equal. rewrite IZR_Zpower by lia. 
  replace 52%Z with (Z.of_nat 52) by reflexivity. rewrite bpow_powerRZ. rewrite <- pow_powerRZ. reflexivity.
Qed.

Lemma eta64_bpow : / 2 * bpow radix2 (-1074) = eta64.
Proof.
  unfold eta64. change (-1074)%Z with (- (1074))%Z. rewrite bpow_opp.
  replace (2 ^ 1075) with (2 * 2 ^ 1074) by (rewrite (tech_pow_Rmult 2 1074); reflexivity).
  rewrite Rinv_mult.
  f_equal. f_equal. rewrite bpow_powerRZ.
  replace 1074%Z with (Z.of_nat 1074) by reflexivity. rewrite <- pow_powerRZ. reflexivity.
Qed.

Lemma b64_err x : Rabs (b64 x - x) <= u64 * Rabs x + eta64.
Proof.
  destruct (error_N_FLT radix2 (-1074) 53 eq_refl (fun n => negb (Z.even n)) x)
    as (e & h & He & Hh & _ & E).
  rewrite u64_bpow in He. rewrite eta64_bpow in Hh.
  unfold b64. rewrite E. replace (x * (1 + e) + h - x) with (e * x + h) by ring.
  eapply Rle_trans; [apply Rabs_triang|]. rewrite Rabs_mult.
  apply Rplus_le_compat; [|exact Hh]. apply Rmult_le_compat_r; [apply Rabs_pos|exact He].
Qed.

Lemma u64_pos : 0 < u64.
Proof. unfold u64. apply Rinv_0_lt_compat, pow_lt. lra. Qed.

Lemma u64_val : u64 = 1 / 9007199254740992.
Proof. unfold u64. lra. Qed.

Lemma eta64_pos : 0 < eta64.
Proof. unfold eta64. apply Rinv_0_lt_compat, pow_lt. lra. Qed.

Lemma eta64_small : eta64 <= / 10 ^ 60.
Proof.
  unfold eta64. apply Rinv_le_contravar; [apply pow_lt; lra|].
  apply Rle_trans with (2 ^ 200); [lra|]. apply Rle_pow; [lra|lia].
Qed.

(** ** Any rounding with the error of binary64 *)
Definition good_rnd (rnd : R -> R) : Prop :=
  (forall x, Rabs (rnd x - x) <= u64 * Rabs x + eta64) /\
  (forall x, x = 0 \/ / 10 ^ 60 <= Rabs x -> Rabs (rnd x - x) <= u64 * Rabs x).

Lemma b64_good : good_rnd b64.
Proof.
  split; [apply b64_err|]. intros x [->|H].
  - unfold b64. rewrite round_0 by apply valid_rnd_N. rewrite Rminus_diag_eq by reflexivity.
    rewrite Rabs_R0. lra.
  - unfold b64. rewrite <- u64_bpow. apply relative_error_N_FLT; [reflexivity|].
    eapply Rle_trans; [|exact H].
    apply Rle_trans with (bpow radix2 (- (200))); [apply bpow_le; lia|].
    rewrite bpow_opp. apply Rinv_le_contravar; [apply pow_lt; lra|].
    rewrite bpow_powerRZ. replace 200%Z with (Z.of_nat 200) by reflexivity. rewrite <- pow_powerRZ.
    replace (IZR radix2) with 2 by reflexivity. lra.
Qed.

Lemma b64_nonneg x : 0 <= x -> 0 <= b64 x.
Proof.
  intros H. unfold b64. apply round_ge_generic; [apply FLT_exp_valid; reflexivity|apply valid_rnd_N|apply generic_format_0|exact H].
Qed.

Lemma id_good : good_rnd (fun x => x).
Proof.
  assert (H : forall x, Rabs (x - x) <= u64 * Rabs x).
  { intros x. rewrite Rminus_diag_eq by reflexivity. rewrite Rabs_R0.
    pose proof u64_pos. pose proof (Rabs_pos x). apply Rmult_le_pos; lra. }
  split; intros x; [|intros _; apply H]. pose proof (H x). pose proof eta64_pos. lra.
Qed.

(** (1+u)^n grows no faster than n*u plus a small fraction of u while n <= 2000000. *)
Lemma pow_u64 n : INR n <= 2000003 -> (1 + u64) ^ n <= 1 + (INR n + / 1000) * u64.
Proof.
  intros Hn. pose proof u64_pos as Hu.
  assert (H : (1 + u64) ^ n * (1 - INR n * u64) <= 1).
  { clear Hn. induction n as [|n IH]; [cbn [pow INR]; lra|].
    cbn [pow]. rewrite S_INR.
    assert (0 < (1 + u64) ^ n) by (apply pow_lt; lra).
    assert (0 <= INR n) by apply pos_INR.
    replace ((1 + u64) * (1 + u64) ^ n * (1 - (INR n + 1) * u64))
      with ((1 + u64) ^ n * (1 - INR n * u64) - (1 + u64) ^ n * (INR n + 1) * (u64 * u64)) by ring.
    assert (0 <= (1 + u64) ^ n * (INR n + 1) * (u64 * u64))
      by (apply Rmult_le_pos; apply Rmult_le_pos; lra). lra. }
  assert (HN : 0 <= INR n) by apply pos_INR.
  assert (Hs : 0 < 1 - INR n * u64) by (rewrite u64_val; lra).
  apply Rmult_le_reg_r with (1 - INR n * u64); [exact Hs|].
  eapply Rle_trans; [exact H|].
  assert (INR n * (INR n * u64) <= / 2000).
  { rewrite u64_val. assert (INR n * INR n <= 2000003 * 2000003) by (apply Rmult_le_compat; lra). lra. }
  assert (0 <= INR n * u64) by (apply Rmult_le_pos; lra).
  replace ((1 + (INR n + / 1000) * u64) * (1 - INR n * u64))
    with (1 + u64 * (/ 1000 - INR n * (INR n * u64) - / 1000 * (INR n * u64))) by ring.
  assert (0 <= u64 * (/ 1000 - INR n * (INR n * u64) - / 1000 * (INR n * u64))).
  { apply Rmult_le_pos; [lra|]. assert (INR n * u64 <= / 1000) by (rewrite u64_val; lra). lra. }
  lra.
Qed.

(** ** The running sum *)
Definition asum (l : list R) : R := pysum (map Rabs l).

Lemma asum_nonneg l : 0 <= asum l.
Proof.
  induction l as [|a l IH]; unfold asum in *; cbn [map]; [rewrite pysum_nil; lra|].
  rewrite pysum_cons. pose proof (Rabs_pos a). lra.
Qed.

Lemma asum_snoc l a : asum (l ++ [a]) = asum l + Rabs a.
Proof. unfold asum. rewrite map_app, pysum_app. cbn [map]. rewrite pysum_cons, pysum_nil. lra. Qed.

Lemma pysum_abs l : Rabs (pysum l) <= asum l.
Proof.
  induction l as [|a l IH]; unfold asum in *; cbn [map].
  - rewrite pysum_nil, Rabs_R0. lra.
  - rewrite !pysum_cons. eapply Rle_trans; [apply Rabs_triang|]. lra.
Qed.

Lemma pysum_fl_pow rnd l : good_rnd rnd ->
  Rabs (pysum_fl rnd l - pysum l) <=
  ((1 + u64) ^ length l - 1) * asum l + INR (length l) * eta64 * (1 + u64) ^ length l.
Proof.
  intros G. pose proof u64_pos as Hu. pose proof eta64_pos as He.
  induction l as [|a l IH] using rev_ind.
  - unfold pysum_fl. cbn. rewrite Rminus_diag_eq by reflexivity. rewrite Rabs_R0.
    unfold asum. cbn. lra.
  - unfold pysum_fl in *. rewrite fold_left_app. cbn [fold_left].
    set (s := fold_left (fun s v => rnd (s + v)) l 0) in *.
    rewrite pysum_app, pysum_cons, pysum_nil, asum_snoc, app_length. cbn [length].
    rewrite Nat.add_1_r. cbn [pow]. rewrite S_INR.
    set (p := (1 + u64) ^ length l) in *.
    assert (Hp : 1 <= p) by (apply pow_R1_Rle; lra).
    pose proof (asum_nonneg l) as HA. pose proof (Rabs_pos a) as Ha.
    pose proof (pysum_abs l) as HS. pose proof (pos_INR (length l)) as HN.
    set (e := Rabs (s - pysum l)) in *. set (S0 := pysum l) in *. set (A := asum l) in *.
    set (N := INR (length l)) in *.
    pose proof (proj1 G (s + a)) as Hg.
    assert (H1 : Rabs (s + a) <= A + Rabs a + e).
    { replace (s + a) with ((s - S0) + (S0 + a)) by ring.
      eapply Rle_trans; [apply Rabs_triang|]. fold e.
      pose proof (Rabs_triang S0 a). lra. }
    assert (H2 : Rabs (rnd (s + a) - (S0 + (a + 0))) <= e + (u64 * (A + Rabs a + e) + eta64)).
    { replace (rnd (s + a) - (S0 + (a + 0))) with ((s - S0) + (rnd (s + a) - (s + a))) by ring.
      eapply Rle_trans; [apply Rabs_triang|]. fold e.
      assert (u64 * Rabs (s + a) <= u64 * (A + Rabs a + e)) by (apply Rmult_le_compat_l; lra).
      lra. }
    eapply Rle_trans; [exact H2|].
    assert (H3 : (1 + u64) * e <= (1 + u64) * ((p - 1) * A + N * eta64 * p))
      by (apply Rmult_le_compat_l; lra).
    assert (0 <= (p - 1) * (1 + u64) * Rabs a) by (apply Rmult_le_pos; [apply Rmult_le_pos|]; lra).
    assert (0 <= eta64 * ((1 + u64) * p - 1)).
    { apply Rmult_le_pos; [lra|]. assert (0 <= u64 * p) by (apply Rmult_le_pos; lra). lra. }
    lra.
Qed.

Lemma pysum_fl_err rnd l : good_rnd rnd -> INR (length l) <= 2000003 ->
  Rabs (pysum_fl rnd l - pysum l) <=
  (INR (length l) + / 1000) * u64 * asum l + 2 * INR (length l) * eta64.
Proof.
  intros G Hn. pose proof u64_pos as Hu. pose proof eta64_pos as He.
  eapply Rle_trans; [apply pysum_fl_pow; exact G|].
  pose proof (pow_u64 (length l) Hn) as Hp. pose proof (asum_nonneg l) as HA.
  pose proof (pos_INR (length l)) as HN.
  assert (Hp2 : (1 + u64) ^ length l <= 2).
  { eapply Rle_trans; [exact Hp|]. rewrite u64_val. lra. }
  set (p := (1 + u64) ^ length l) in *.
  assert ((p - 1) * asum l <= (INR (length l) + / 1000) * u64 * asum l)
    by (apply Rmult_le_compat_r; lra).
  assert (0 <= INR (length l) * eta64) by (apply Rmult_le_pos; lra).
  assert (INR (length l) * eta64 * p <= INR (length l) * eta64 * 2) by (apply Rmult_le_compat_l; lra).
  lra.
Qed.

(** ** Relative errors, counted in units of the roundoff *)
Definition rel (k a b : R) : Prop := Rabs (b - a) <= k * u64 * Rabs a.

Lemma rel_refl a : rel 0 a a.
Proof. unfold rel. rewrite Rminus_diag_eq by reflexivity. rewrite Rabs_R0. lra. Qed.

Lemma rel_le k k' a b : rel k a b -> k <= k' -> rel k' a b.
Proof.
  unfold rel. intros H Hk. eapply Rle_trans; [exact H|].
  apply Rmult_le_compat_r; [apply Rabs_pos|]. apply Rmult_le_compat_r; [pose proof u64_pos; lra|exact Hk].
Qed.

Lemma rel_abs k a b : 0 <= k -> rel k a b -> Rabs b <= (1 + k * u64) * Rabs a.
Proof.
  unfold rel. intros Hk H. replace b with ((b - a) + a) by ring.
  eapply Rle_trans; [apply Rabs_triang|]. lra.
Qed.

Lemma small2 k1 k2 : 0 <= k1 <= 3000000 -> 0 <= k2 <= 1000 -> k1 * u64 * (k2 * u64) <= / 1000 * u64.
Proof.
  intros H1 H2. pose proof u64_pos.
  assert (k1 * k2 <= 3000000 * 1000) by (apply Rmult_le_compat; lra).
  assert (k1 * k2 * u64 <= 3000000 * 1000 * u64) by (apply Rmult_le_compat_r; lra).
  assert (3000000 * 1000 * u64 <= / 1000) by (rewrite u64_val; lra).
  replace (k1 * u64 * (k2 * u64)) with (k1 * k2 * u64 * u64) by ring.
  apply Rmult_le_compat_r; lra.
Qed.

Lemma rel_mult k1 k2 a b c d : 0 <= k1 <= 3000000 -> 0 <= k2 <= 1000 ->
  rel k1 a b -> rel k2 c d -> rel (k1 + k2 + / 1000) (a * c) (b * d).
Proof.
  unfold rel. intros H1 H2 Ha Hc.
  pose proof u64_pos as Hu. pose proof (Rabs_pos a) as Pa. pose proof (Rabs_pos c) as Pc.
  pose proof (small2 k1 k2 H1 H2) as Hs.
  replace (b * d - a * c) with ((b - a) * c + a * (d - c) + (b - a) * (d - c)) by ring.
  eapply Rle_trans; [apply Rabs_triang|]. 
  eapply Rle_trans; [apply Rplus_le_compat_r; apply Rabs_triang|].
  rewrite !Rabs_mult.
  assert (E1 : Rabs (b - a) * Rabs c <= k1 * u64 * Rabs a * Rabs c) by (apply Rmult_le_compat_r; lra).
  assert (E2 : Rabs a * Rabs (d - c) <= Rabs a * (k2 * u64 * Rabs c)) by (apply Rmult_le_compat_l; lra).
  assert (E3 : Rabs (b - a) * Rabs (d - c) <= (k1 * u64 * Rabs a) * (k2 * u64 * Rabs c))
    by (apply Rmult_le_compat; try apply Rabs_pos; lra).
  assert (E4 : k1 * u64 * (k2 * u64) * (Rabs a * Rabs c) <= / 1000 * u64 * (Rabs a * Rabs c))
    by (apply Rmult_le_compat_r; [apply Rmult_le_pos; lra|exact Hs]).
  lra.
Qed.

Lemma rel_rnd rnd k a b : good_rnd rnd -> 0 <= k <= 3000000 -> a = 0 \/ / 10 ^ 50 <= Rabs a ->
  rel k a b -> rel (k + 1 + / 1000) a (rnd b).
Proof.
  unfold rel. intros [_ G] Hk Ha H. pose proof u64_pos as Hu. pose proof (Rabs_pos a) as Pa.
  assert (Hku : k * u64 <= / 1000) by (rewrite u64_val; lra).
  assert (Hb : b = 0 \/ / 10 ^ 60 <= Rabs b).
  { destruct Ha as [->|Ha].
    - left. rewrite Rabs_R0, Rmult_0_r in H. rewrite Rminus_0_r in H.
      pose proof (Rabs_pos b). destruct (Req_dec b 0); [assumption|].
      pose proof (Rabs_pos_lt b H1). lra.
    - right. assert (k * u64 * Rabs a <= / 1000 * Rabs a) by (apply Rmult_le_compat_r; lra).
      assert (Rabs a <= Rabs (b - a) + Rabs b).
      { replace a with (b - (b - a)) at 1 by ring. eapply Rle_trans; [apply Rabs_triang|].
        rewrite Rabs_Ropp. lra. }
      lra. }
  specialize (G b Hb).
  assert (Hab : Rabs b <= (1 + k * u64) * Rabs a).
  { replace b with ((b - a) + a) by ring. eapply Rle_trans; [apply Rabs_triang|]. lra. }
  replace (rnd b - a) with ((rnd b - b) + (b - a)) by ring.
  eapply Rle_trans; [apply Rabs_triang|].
  assert (u64 * Rabs b <= u64 * ((1 + k * u64) * Rabs a)) by (apply Rmult_le_compat_l; lra).
  assert (u64 * Rabs a * (k * u64) <= u64 * Rabs a * / 1000)
    by (apply Rmult_le_compat_l; [apply Rmult_le_pos; lra|lra]).
  lra.
Qed.

Lemma rel_div k1 k2 a b c d : 0 <= k1 <= 1000 -> 0 <= k2 <= 3000000 -> 0 < c ->
  rel k1 a b -> rel k2 c d -> rel (k1 + k2 + / 100) (a / c) (b / d).
Proof.
  unfold rel. intros H1 H2 Hc Ha Hd.
  pose proof u64_pos as Hu. pose proof (Rabs_pos a) as Pa.
  assert (Hk2 : k2 * u64 <= / 1000000000) by (rewrite u64_val; lra).
  assert (Hk2' : 0 <= k2 * u64) by (apply Rmult_le_pos; lra).
  rewrite (Rabs_pos_eq c) in Hd by lra.
  apply Rabs_le_inv in Hd.
  assert (Hd0 : c * (1 - k2 * u64) <= d) by lra.
  assert (Hcpos : 0 < c * (1 - k2 * u64)) by (apply Rmult_lt_0_compat; lra).
  assert (Hdp : 0 < d) by lra.
  assert (E : b / d - a / c = ((b - a) * c - a * (d - c)) / (c * d)) by (field; lra).
  rewrite E. unfold Rdiv. rewrite !Rabs_mult.
  rewrite (Rabs_pos_eq (/ (c * d))) by (left; apply Rinv_0_lt_compat, Rmult_lt_0_compat; lra).
  rewrite (Rabs_pos_eq (/ c)) by (left; apply Rinv_0_lt_compat; lra).
  apply Rmult_le_reg_r with (c * d); [apply Rmult_lt_0_compat; lra|].
  rewrite Rmult_assoc, Rinv_l by (apply Rgt_not_eq, Rmult_lt_0_compat; lra). rewrite Rmult_1_r.
  replace ((k1 + k2 + / 100) * u64 * (Rabs a * / c) * (c * d))
    with ((k1 + k2 + / 100) * u64 * Rabs a * d) by (field; lra).
  assert (Hn : Rabs ((b - a) * c - a * (d - c)) <= (k1 + k2) * u64 * Rabs a * c).
  { eapply Rle_trans; [apply Rabs_triang|]. rewrite Rabs_Ropp, !Rabs_mult.
    rewrite (Rabs_pos_eq c) by lra.
    assert (Rabs (b - a) * c <= k1 * u64 * Rabs a * c) by (apply Rmult_le_compat_r; lra).
    assert (Rabs (d - c) <= k2 * u64 * c) by (apply Rabs_le; lra).
    assert (Rabs a * Rabs (d - c) <= Rabs a * (k2 * u64 * c)) by (apply Rmult_le_compat_l; lra).
    lra. }
  eapply Rle_trans; [exact Hn|].
  assert (Hua : 0 <= u64 * Rabs a) by (apply Rmult_le_pos; lra).
  apply Rle_trans with ((k1 + k2 + / 100) * u64 * Rabs a * (c * (1 - k2 * u64))).
  2: { apply Rmult_le_compat_l; [|exact Hd0]. apply Rmult_le_pos; [apply Rmult_le_pos|]; lra. }
  assert (Hkk : (k1 + k2 + / 100) * (k2 * u64) <= / 100).
  { apply Rle_trans with (3001001 * (k2 * u64)); [apply Rmult_le_compat_r; lra|]. lra. }
  assert (0 <= (u64 * Rabs a * c) * (/ 100 - (k1 + k2 + / 100) * (k2 * u64)))
    by (apply Rmult_le_pos; [apply Rmult_le_pos|]; lra).
  lra.
Qed.
