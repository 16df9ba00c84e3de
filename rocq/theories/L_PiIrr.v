(** The number pi is irrational (Niven's proof, with the mean value theorem in place of the
    integral). *)
From Coq Require Import List ZArith Reals Lia Lra.
Import ListNotations.
Open Scope R_scope.

(** Polynomials with integer coefficients, lowest first. *)
Fixpoint peval (l : list Z) (x : R) : R :=
  match l with [] => 0 | c :: t => IZR c + x * peval t x end.
Fixpoint pder_from (k : Z) (l : list Z) : list Z :=
  match l with [] => [] | c :: t => (k * c)%Z :: pder_from (k + 1) t end.
Definition pder (l : list Z) : list Z := pder_from 1 (tl l).
Fixpoint pders (j : nat) (l : list Z) : list Z := match j with O => l | S j => pders j (pder l) end.

Lemma pder_from_lim l : forall k x,
  derivable_pt_lim (fun x => x ^ S k * peval l x) x (x ^ k * peval (pder_from (Z.of_nat (S k)) l) x).
Proof.
  induction l as [|c t IH]; intros k x.
  - cbn [peval pder_from]. replace (x ^ k * 0) with 0 by ring.
    apply derivable_pt_lim_ext with (fun _ => 0); [intros; ring|apply derivable_pt_lim_const].
  - cbn [peval pder_from].
    replace (Z.of_nat (S k) + 1)%Z with (Z.of_nat (S (S k))) by lia.
    apply derivable_pt_lim_ext with (fun y => IZR c * y ^ S k + y ^ S (S k) * peval t y).
    { intros y. cbn [pow]. ring. }
    replace (x ^ k * (IZR (Z.of_nat (S k) * c) + x * peval (pder_from (Z.of_nat (S (S k))) t) x))
      with (IZR c * (INR (S k) * x ^ pred (S k)) + x ^ S k * peval (pder_from (Z.of_nat (S (S k))) t) x).
    2:{ rewrite mult_IZR, <- INR_IZR_INZ. cbn [pred pow]. ring. }
    apply derivable_pt_lim_plus; [|apply IH].
    apply derivable_pt_lim_scal. apply derivable_pt_lim_pow.
Qed.

Lemma peval_lim l x : derivable_pt_lim (peval l) x (peval (pder l) x).
Proof.
  destruct l as [|c t]; unfold pder; cbn [tl].
  - cbn [pder_from peval]. apply derivable_pt_lim_ext with (fun _ => 0); [reflexivity|apply derivable_pt_lim_const].
  - apply derivable_pt_lim_ext with (fun y => IZR c + y ^ 1 * peval t y); [intros; cbn [peval pow]; ring|].
    replace (peval (pder_from 1 t) x) with (0 + x ^ 0 * peval (pder_from (Z.of_nat 1) t) x) by (cbn [Z.of_nat Pos.of_succ_nat pow]; ring).
    apply derivable_pt_lim_plus; [apply derivable_pt_lim_const|apply pder_from_lim].
Qed.

Lemma pder_from_length l : forall k, length (pder_from k l) = length l.
Proof. induction l as [|c t IH]; intros k; [reflexivity|]. cbn. rewrite IH. reflexivity. Qed.
Lemma pder_length l : length (pder l) = (length l - 1)%nat.
Proof. unfold pder. rewrite pder_from_length. destruct l; cbn; lia. Qed.

Lemma pder_from_nth l : forall k i, nth i (pder_from k l) 0%Z = ((k + Z.of_nat i) * nth i l 0)%Z.
Proof.
  induction l as [|c t IH]; intros k [|i]; cbn [pder_from nth]; try lia.
  rewrite IH. f_equal. lia.
Qed.
Lemma pder_nth l i : nth i (pder l) 0%Z = (Z.of_nat (S i) * nth (S i) l 0)%Z.
Proof. unfold pder. rewrite pder_from_nth. destruct l as [|c t]; cbn [tl]; [destruct i; cbn [nth]; ring|]. cbn [nth]. f_equal. lia. Qed.

Lemma peval_0 l : peval l 0 = IZR (nth 0 l 0%Z).
Proof. destruct l; cbn [peval nth]; [reflexivity|ring]. Qed.

Lemma pders_nth j : forall l i,
  (Z.of_nat (fact i) * nth i (pders j l) 0 = Z.of_nat (fact (i + j)) * nth (i + j) l 0)%Z.
Proof.
  induction j as [|j IH]; intros l i; cbn [pders]; [rewrite Nat.add_0_r; reflexivity|].
  rewrite IH, pder_nth. replace (i + S j)%nat with (S (i + j)) by lia.
  change (fact (S (i + j))) with (S (i + j) * fact (i + j))%nat. rewrite Nat2Z.inj_mul. ring.
Qed.

Lemma fact_divide n k : (n <= k)%nat -> exists z, fact k = (fact n * z)%nat.
Proof.
  induction 1 as [|k Hk [z IH]]; [exists 1%nat; lia|].
  exists (S k * z)%nat. change (fact (S k)) with (S k * fact k)%nat. rewrite IH. ring.
Qed.

(** ** The alternating sum of the even derivatives, and its derivatives *)
Fixpoint F0 (l : list Z) (m : nat) (x : R) : R :=
  match m with O => 0 | S m => peval l x - F0 (pder (pder l)) m x end.
Fixpoint F1 (l : list Z) (m : nat) (x : R) : R :=
  match m with O => 0 | S m => peval (pder l) x - F1 (pder (pder l)) m x end.
Fixpoint F2 (l : list Z) (m : nat) (x : R) : R :=
  match m with O => 0 | S m => peval (pder (pder l)) x - F2 (pder (pder l)) m x end.
Lemma F0_lim m : forall l x, derivable_pt_lim (F0 l m) x (F1 l m x).
Proof.
  induction m as [|m IH]; intros l x; cbn [F0 F1]; [apply derivable_pt_lim_const|].
  apply (derivable_pt_lim_minus (peval l) (F0 (pder (pder l)) m)); [apply peval_lim|apply IH].
Qed.
Lemma F1_lim m : forall l x, derivable_pt_lim (F1 l m) x (F2 l m x).
Proof.
  induction m as [|m IH]; intros l x; cbn [F1 F2]; [apply derivable_pt_lim_const|].
  apply (derivable_pt_lim_minus (peval (pder l)) (F1 (pder (pder l)) m)); [apply peval_lim|apply IH].
Qed.
Lemma F_sum m : forall l x, (length l <= 2 * m)%nat -> F0 l m x + F2 l m x = peval l x.
Proof.
  induction m as [|m IH]; intros l x H.
  - destruct l; [cbn; lra|cbn in H; lia].
  - cbn [F0 F2]. specialize (IH (pder (pder l)) x). rewrite !pder_length in IH. specialize (IH ltac:(lia)). lra.
Qed.

Section Niven.
Variables (a b : Z) (n : nat).
Hypothesis Hb : (0 < b)%Z.
Hypothesis Hpi : PI = IZR a / IZR b.

Lemma b_pos : 0 < IZR b. Proof. apply IZR_lt. exact Hb. Qed.

(** times a - b x *)
Fixpoint lin (r : Z) (l : list Z) : list Z :=
  match l with [] => [r] | c :: t => (a * c + r)%Z :: lin (- b * c) t end.
Lemma lin_eval l : forall r x, peval (lin r l) x = IZR r + (IZR a - IZR b * x) * peval l x.
Proof.
  induction l as [|c t IH]; intros r x; cbn [lin peval]; [ring|].
  rewrite IH, plus_IZR, !mult_IZR, opp_IZR. ring.
Qed.
Lemma lin_length l : forall r, length (lin r l) = S (length l).
Proof. induction l as [|c t IH]; intros r; cbn; [reflexivity|]. rewrite IH. reflexivity. Qed.
Fixpoint linpow (k : nat) : list Z := match k with O => [1%Z] | S k => lin 0 (linpow k) end.
Lemma linpow_eval k x : peval (linpow k) x = (IZR a - IZR b * x) ^ k.
Proof. induction k as [|k IH]; cbn [linpow peval pow]; [ring|]. rewrite lin_eval, IH. ring. Qed.
Lemma linpow_length k : length (linpow k) = S k.
Proof. induction k as [|k IH]; cbn [linpow]; [reflexivity|]. rewrite lin_length, IH. reflexivity. Qed.
Lemma shift_eval k l x : peval (repeat 0%Z k ++ l) x = x ^ k * peval l x.
Proof. induction k as [|k IH]; cbn [repeat app peval pow]; [ring|]. rewrite IH. ring. Qed.

Definition g : list Z := repeat 0%Z n ++ linpow n.
Lemma g_eval x : peval g x = x ^ n * (IZR a - IZR b * x) ^ n.
Proof. unfold g. rewrite shift_eval, linpow_eval. reflexivity. Qed.
Lemma g_length : length g = (2 * n + 1)%nat.
Proof. unfold g. rewrite app_length, repeat_length, linpow_length. lia. Qed.

(** symmetric about pi/2 *)
Definition mirrored (l : list Z) : Prop := forall x, peval l (PI - x) = peval l x.
Lemma g_mirrored : mirrored g.
Proof.
  intros x. rewrite !g_eval. pose proof b_pos.
  rewrite <- !Rpow_mult_distr. f_equal. rewrite Hpi. field. lra.
Qed.
Lemma reflect_lim l x : derivable_pt_lim (fun x => peval l (PI - x)) x (- peval (pder l) (PI - x)).
Proof.
  replace (- peval (pder l) (PI - x)) with (peval (pder l) (PI - x) * (0 - 1)) by ring.
  apply (derivable_pt_lim_comp (fun x => PI - x) (peval l)); [|apply peval_lim].
  apply (derivable_pt_lim_minus (fct_cte PI) id); [apply derivable_pt_lim_const|apply derivable_pt_lim_id].
Qed.
Lemma mirrored_der2 l : mirrored l -> mirrored (pder (pder l)).
Proof.
  intros H.
  assert (H1 : forall x, - peval (pder l) (PI - x) = peval (pder l) x).
  { intros x. apply uniqueness_limite with (peval l) x; [|apply peval_lim].
    apply derivable_pt_lim_ext with (fun x => peval l (PI - x)); [exact H|apply reflect_lim]. }
  intros x. apply uniqueness_limite with (peval (pder l)) x; [|apply peval_lim].
  apply derivable_pt_lim_ext with (fun x => - peval (pder l) (PI - x)); [exact H1|].
  replace (peval (pder (pder l)) (PI - x)) with (- - peval (pder (pder l)) (PI - x)) by ring.
  apply (derivable_pt_lim_opp (fun x => peval (pder l) (PI - x))). apply reflect_lim.
Qed.
Lemma F0_mirrored m : forall l, mirrored l -> forall x, F0 l m (PI - x) = F0 l m x.
Proof.
  induction m as [|m IH]; intros l H x; cbn [F0]; [reflexivity|].
  rewrite (H x), (IH _ (mirrored_der2 l H)). reflexivity.
Qed.

(** at 0 all derivatives are multiples of n! *)
Definition multiple (l : list Z) : Prop :=
  forall j, exists z, peval (pders j l) 0 = IZR (Z.of_nat (fact n) * z).
Lemma g_multiple : multiple g.
Proof.
  intros j. rewrite peval_0. pose proof (pders_nth j g 0) as H. cbn [Nat.add fact Z.of_nat] in H.
  rewrite Z.mul_1_l in H. rewrite H. destruct (Nat.lt_ge_cases j n) as [Hj|Hj].
  - exists 0%Z. unfold g. rewrite app_nth1 by (rewrite repeat_length; exact Hj). rewrite nth_repeat. f_equal. lia.
  - destruct (fact_divide n j Hj) as [z ->]. exists (Z.of_nat z * nth j g 0)%Z. f_equal. rewrite Nat2Z.inj_mul. ring.
Qed.
Lemma multiple_der2 l : multiple l -> multiple (pder (pder l)).
Proof. intros H j. exact (H (S (S j))). Qed.
Lemma F0_multiple m : forall l, multiple l -> exists z, F0 l m 0 = IZR (Z.of_nat (fact n) * z).
Proof.
  induction m as [|m IH]; intros l H; cbn [F0].
  - exists 0%Z. f_equal. lia.
  - destruct (H 0%nat) as [z Hz]. destruct (IH _ (multiple_der2 l H)) as [w Hw]. cbn [pders] in Hz.
    exists (z - w)%Z. rewrite Hz, Hw, <- minus_IZR. f_equal. ring.
Qed.

Definition Hf (m : nat) (x : R) : R := F1 g m x * sin x - F0 g m x * cos x.
Lemma Hf_lim m x : (length g <= 2 * m)%nat -> derivable_pt_lim (Hf m) x (peval g x * sin x).
Proof.
  intros L. rewrite <- (F_sum m g x L).
  replace ((F0 g m x + F2 g m x) * sin x)
    with ((F2 g m x * sin x + F1 g m x * cos x) - (F1 g m x * cos x + F0 g m x * - sin x)) by ring.
  apply (derivable_pt_lim_minus (fun x => F1 g m x * sin x) (fun x => F0 g m x * cos x)).
  - apply (derivable_pt_lim_mult (F1 g m) sin); [apply F1_lim|apply derivable_pt_lim_sin].
  - apply (derivable_pt_lim_mult (F0 g m) cos); [apply F0_lim|apply derivable_pt_lim_cos].
Qed.

Lemma niven : exists z, 0 < IZR (Z.of_nat (fact n) * z) <= PI * (PI * IZR a) ^ n.
Proof.
  pose proof PI_RGT_0 as P0. pose proof b_pos as B0.
  assert (A0 : 0 < IZR a).
  { replace (IZR a) with (PI * IZR b) by (rewrite Hpi; field; lra). apply Rmult_lt_0_compat; lra. }
  set (m := S n). assert (L : (length g <= 2 * m)%nat) by (rewrite g_length; unfold m; lia).
  destruct (MVT_cor2 (Hf m) (fun x => peval g x * sin x) 0 PI P0) as (c & Hc & C0 & C1).
  { intros c _. apply Hf_lim. exact L. }
  assert (E : Hf m PI - Hf m 0 = 2 * F0 g m 0).
  { unfold Hf. rewrite sin_PI, cos_PI, sin_0, cos_0.
    pose proof (F0_mirrored m g g_mirrored 0) as M. rewrite Rminus_0_r in M. rewrite M. ring. }
  destruct (F0_multiple m g g_multiple) as [z Hz].
  exists (2 * z)%Z.
  replace (IZR (Z.of_nat (fact n) * (2 * z))) with (2 * IZR (Z.of_nat (fact n) * z)).
  2:{ rewrite !mult_IZR. ring. }
  rewrite <- Hz, <- E, Hc, g_eval, Rminus_0_r.
  assert (Q : IZR a - IZR b * c = IZR b * (PI - c)) by (rewrite Hpi; field; lra).
  assert (QP : 0 < IZR a - IZR b * c <= IZR a).
  { split; [rewrite Q; apply Rmult_lt_0_compat; lra|]. pose proof (Rmult_lt_0_compat _ _ B0 C0). lra. }
  rewrite <- Rpow_mult_distr.
  assert (S0 : 0 < sin c) by (apply sin_gt_0; assumption).
  pose proof (SIN_bound c) as [_ S1].
  assert (W : 0 < c * (IZR a - IZR b * c) <= PI * IZR a).
  { split; [apply Rmult_lt_0_compat; lra|]. apply Rmult_le_compat; lra. }
  assert (W0 : 0 < (c * (IZR a - IZR b * c)) ^ n) by (apply pow_lt; lra).
  assert (W1 : (c * (IZR a - IZR b * c)) ^ n <= (PI * IZR a) ^ n) by (apply pow_incr; lra).
  split.
  - apply Rmult_lt_0_compat; [|lra]. apply Rmult_lt_0_compat; lra.
  - rewrite Rmult_comm. apply Rmult_le_compat_l; [lra|].
    rewrite <- (Rmult_1_r ((PI * IZR a) ^ n)). apply Rmult_le_compat; lra.
Qed.
End Niven.

Theorem PI_irrational : forall a b : Z, (0 < b)%Z -> PI <> IZR a / IZR b.
Proof.
  intros a b Hb Hpi.
  destruct (cv_speed_pow_fact (PI * IZR a) (/ 4)) as [N HN]; [lra|].
  specialize (HN N (le_n N)). unfold R_dist in HN. rewrite Rminus_0_r in HN.
  apply Rabs_def2 in HN. destruct HN as [HN _].
  destruct (niven a b N Hb Hpi) as (z & Z0 & Z1).
  pose proof PI_4 as P4. pose proof PI_RGT_0 as P0.
  assert (FP : 0 < INR (fact N)) by (apply INR_fact_lt_0).
  assert (W : (PI * IZR a) ^ N < / 4 * INR (fact N)).
  { apply Rmult_lt_reg_r with (/ INR (fact N)); [apply Rinv_0_lt_compat; exact FP|].
    replace (/ 4 * INR (fact N) * / INR (fact N)) with (/ 4) by (field; lra). exact HN. }
  rewrite mult_IZR, <- INR_IZR_INZ in Z0, Z1.
  assert (ZP : (0 < z)%Z).
  { apply lt_IZR. apply Rmult_lt_reg_l with (INR (fact N)); [exact FP|]. lra. }
  assert (1 <= IZR z) by (apply IZR_le; lia).
  assert (INR (fact N) * 1 <= INR (fact N) * IZR z) by (apply Rmult_le_compat_l; lra).
  assert (PI * (PI * IZR a) ^ N < INR (fact N)).
  { destruct (Rle_lt_dec ((PI * IZR a) ^ N) 0) as [K|K].
    - assert (PI * (PI * IZR a) ^ N <= 0) by (rewrite <- (Rmult_0_r PI); apply Rmult_le_compat_l; lra). lra.
    - apply Rle_lt_trans with (4 * (PI * IZR a) ^ N); [apply Rmult_le_compat_r; lra|lra]. }
  lra.
Qed.
