(** Lemmas for P_Coh.v: spectra of the segments, Cauchy-Schwarz. *)
From Coq Require Import List Reals Arith Lia Lra Bool.
From Verif Require Import M_Py M_Fft M_Four M_Coh S_Base S_Coh L_Base L_Np L_Fft.
Import ListNotations.
Open Scope R_scope.

Lemma hann_length n : length (hann n) = n.
Proof. unfold hann. destruct (Nat.eqb_spec n 1) as [->|H]; [reflexivity|]. rewrite map_length, seq_length. reflexivity. Qed.
Lemma hann_nth n j : n <> 1%nat -> (j < n)%nat -> nth j (hann n) 0 = taper n j.
Proof. intros H J. unfold hann. destruct (Nat.eqb_spec n 1) as [E|_]; [lia|]. rewrite nth_map_seq by exact J. unfold taper. set (c := cos _). lra. Qed.

Lemma Rsum_le_single n k f : (k < n)%nat -> (forall i, (i < n)%nat -> 0 <= f i) -> f k <= Rsum n f.
Proof.
  intros Hk H. induction n as [|n IH]; [lia|]. cbn [Rsum]. destruct (Nat.eq_dec k n) as [->|N].
  - assert (0 <= Rsum n f) by (apply Rsum_nonneg; intros i Hi; apply H; lia). lra.
  - specialize (IH ltac:(lia) ltac:(intros i Hi; apply H; lia)). specialize (H n ltac:(lia)). lra.
Qed.
Lemma taper_1 n : (2 <= n)%nat -> 0 < taper n 1.
Proof.
  intros H. unfold taper. cut (cos (2 * PI * INR 1 / INR n) < 1); [lra|]. rewrite <- cos_0. pose proof PI_RGT_0 as P. pose proof (lt_0_INR n ltac:(lia)) as Pn.
  destruct (Nat.eq_dec n 2) as [->|N2].
  - replace (2 * PI * INR 1 / INR 2) with PI by (cbn; field). rewrite cos_PI, cos_0. lra.
  - assert (3 <= INR n) by (replace 3 with (INR 3) by (cbn; ring); apply le_INR; lia).
    assert (A : 0 < 2 * PI * INR 1 / INR n) by (cbn [INR]; apply Rdiv_lt_0_compat; lra).
    apply cos_decreasing_1; try lra. cbn [INR]. unfold Rdiv. apply Rmult_le_reg_r with (INR n); [exact Pn|]. rewrite Rmult_assoc, Rinv_l, Rmult_1_r by lra. nra.
Qed.
Lemma hann_sq n : (2 <= n)%nat -> 0 < pysum (map (fun w => w * w) (hann n)).
Proof.
  intros H. rewrite pysum_Rsum, map_length, hann_length.
  rewrite (Rsum_ext n _ (fun j => taper n j * taper n j)).
  - pose proof (taper_1 n H) as T. pose proof (Rsum_le_single n 1 (fun j => taper n j * taper n j) ltac:(lia) ltac:(intros i _; nra)) as L. cbv beta in L. nra.
  - intros i Hi. rewrite (nth_map _ _ _ (hann n) i 0 0) by (rewrite hann_length; exact Hi). rewrite hann_nth by lia. reflexivity.
Qed.

Lemma nsegments_spec n k : (1 <= n)%nat -> (k < nsegments n <-> k * (nperseg n - noverlap n) + nperseg n <= n)%nat.
Proof.
  intros Hn. unfold nsegments. assert (O : (noverlap n < nperseg n)%nat) by (unfold noverlap; apply Nat.div_lt; unfold nperseg; lia).
  assert (N : (nperseg n <= n)%nat) by (unfold nperseg; lia). set (d := (nperseg n - noverlap n)%nat). split; intros H.
  - assert (E : (d * S k <= n - noverlap n)%nat). { transitivity (d * ((n - noverlap n) / d))%nat; [apply Nat.mul_le_mono_l; exact H|apply Nat.mul_div_le; unfold d; lia]. }
    rewrite Nat.mul_succ_r in E. rewrite Nat.mul_comm. unfold d in *. lia.
  - apply Nat.div_le_lower_bound; [unfold d; lia|]. rewrite Nat.mul_succ_r. rewrite Nat.mul_comm in H. unfold d in *. lia.
Qed.
Lemma nsegments_pos n : (1 <= n)%nat -> (1 <= nsegments n)%nat.
Proof. intros H. apply (proj2 (nsegments_spec n 0 H)). unfold nperseg. lia. Qed.

Lemma segment_fft_nth x k f : let n := length x in let N := nperseg n in let s := (N - noverlap n)%nat in
  (2 <= n)%nat -> (k < nsegments n)%nat -> (f <= Nat.div N 2)%nat ->
  nth f (segment_fft x k) C0 = (four_re N s x f k, four_im N s x f k).
Proof.
  intros n N s Hn Hk Hf. unfold segment_fft. fold n N s. set (seg := slice x (k * s) (k * s + N)).
  pose proof (proj1 (nsegments_spec n k ltac:(lia)) Hk) as Hb. fold N s in Hb.
  assert (HN : (2 <= N)%nat) by (unfold N, nperseg; lia).
  assert (L : length seg = N) by (unfold seg; rewrite slice_length; fold n; lia).
  assert (LM : length (map2 Rmult (hann N) (map (fun v => v - np_mean seg) seg)) = N).
  { rewrite map2_length, hann_length, map_length, L. apply Nat.min_id. }
  assert (M : np_mean seg = seg_mean x N (k * s)).
  { unfold np_mean, seg_mean. rewrite pysum_Rsum, L. f_equal. apply Rsum_ext. intros j Hj. unfold seg. rewrite nth_slice by lia. reflexivity. }
  assert (HF : (f < N)%nat) by (pose proof (Nat.div_lt N 2); lia).
  rewrite nth_firstn by lia. rewrite (nth_fft_real (fun v => v)) by (rewrite LM; exact HF). rewrite LM. unfold four_re, four_im.
  assert (E : forall j, (j < N)%nat -> nth j (map2 Rmult (hann N) (map (fun v => v - np_mean seg) seg)) 0 = taper N j * (nth (k * s + j) x 0 - seg_mean x N (k * s))).
  { intros j Hj. rewrite (L_Base.map2_nth _ _ _ Rmult _ _ j 0 0 0) by (rewrite ?hann_length, ?map_length, ?L; exact Hj). rewrite hann_nth by lia.
    rewrite (nth_map _ _ _ seg j 0 0) by (rewrite L; exact Hj). rewrite M. unfold seg. rewrite nth_slice by lia. reflexivity. }
  f_equal; [|f_equal]; apply Rsum_ext; intros j Hj; rewrite E by exact Hj; reflexivity.
Qed.

Lemma csd_spec n : (2 <= n)%nat -> exists c, (forall f, 0 < c f) /\ forall x y, length x = n -> length y = n ->
  length (csd x y) = S (Nat.div (nperseg n) 2) /\
  forall f, (f <= Nat.div (nperseg n) 2)%nat ->
  nth f (csd x y) C0 = (c f * cospec (nperseg n) (nperseg n - noverlap n) (nsegments n) x y f,
                        c f * quadspec (nperseg n) (nperseg n - noverlap n) (nsegments n) x y f).
Proof.
  intros Hn. set (N := nperseg n). set (s := (N - noverlap n)%nat). set (K := nsegments n).
  set (sides := fun f : nat => if (f =? 0)%nat || (Nat.even N && (f =? Nat.div N 2)%nat) then 1 else 2).
  set (scale := 1 / pysum (map (fun w => w * w) (hann N))).
  assert (HN : (2 <= N)%nat) by (unfold N, nperseg; lia).
  assert (PK : 0 < INR K) by (apply lt_0_INR; pose proof (nsegments_pos n); unfold K; lia).
  exists (fun f => / INR K * (scale * sides f)). split.
  - intros f. apply Rmult_lt_0_compat; [apply Rinv_0_lt_compat; exact PK|]. apply Rmult_lt_0_compat.
    + unfold scale. apply Rdiv_lt_0_compat; [lra|]. apply hann_sq. exact HN.
    + unfold sides. destruct (_ || _); lra.
  - intros x y Lx Ly. unfold csd. rewrite Lx. fold N K. fold scale. split; [rewrite map_length, seq_length; reflexivity|].
    intros f Hf. rewrite nth_map_seq by lia. fold (sides f). rewrite csum_map_seq. unfold cscal at 1. cbn [fst snd].
    unfold cospec, quadspec. f_equal; rewrite Rmult_assoc; f_equal; rewrite <- Rsum_scal; apply Rsum_ext; intros k Hk.
    + pose proof (segment_fft_nth x k f) as A. pose proof (segment_fft_nth y k f) as B. cbv zeta in A, B. rewrite Lx in A. rewrite Ly in B. fold N s in A, B. rewrite A, B by assumption. unfold cscal, cmul, cconj. cbn [fst snd]. ring.
    + pose proof (segment_fft_nth x k f) as A. pose proof (segment_fft_nth y k f) as B. cbv zeta in A, B. rewrite Lx in A. rewrite Ly in B. fold N s in A, B. rewrite A, B by assumption. unfold cscal, cmul, cconj. cbn [fst snd]. ring.
Qed.

(** Cauchy-Schwarz for complex sequences *)
Lemma sq_zero a b : a ^ 2 + b ^ 2 = 0 -> a = 0 /\ b = 0.
Proof. intros H. assert (a ^ 2 = 0 /\ b ^ 2 = 0) as [A B] by (pose proof (pow2_ge_0 a); pose proof (pow2_ge_0 b); lra). split; [destruct (Req_dec a 0) as [E|E]|destruct (Req_dec b 0) as [E|E]]; try exact E; exfalso; [apply (pow_nonzero a 2 E A)|apply (pow_nonzero b 2 E B)]. Qed.
Lemma Rsum_nonneg_zero n f : (forall i, (i < n)%nat -> 0 <= f i) -> Rsum n f = 0 -> forall i, (i < n)%nat -> f i = 0.
Proof. intros H E i Hi. pose proof (Rsum_le_single n i f Hi H). specialize (H i Hi). lra. Qed.
Lemma residual_power n (a b c d : nat -> R) p q : let P := Rsum n (fun k => a k ^ 2 + b k ^ 2) in let Q := Rsum n (fun k => c k ^ 2 + d k ^ 2) in
  let u := Rsum n (fun k => a k * c k + b k * d k) in let v := Rsum n (fun k => a k * d k - b k * c k) in
  Rsum n (fun k => (c k - (p * a k - q * b k)) ^ 2 + (d k - (p * b k + q * a k)) ^ 2) = Q - 2 * p * u - 2 * q * v + (p ^ 2 + q ^ 2) * P.
Proof. cbv zeta. induction n as [|n IH]; cbn [Rsum]; [ring|]. rewrite IH. ring. Qed.
Lemma cauchy_schwarz n (a b c d : nat -> R) : let P := Rsum n (fun k => a k ^ 2 + b k ^ 2) in let Q := Rsum n (fun k => c k ^ 2 + d k ^ 2) in
  let u := Rsum n (fun k => a k * c k + b k * d k) in let v := Rsum n (fun k => a k * d k - b k * c k) in
  P <> 0 -> u ^ 2 + v ^ 2 = P * Q - P * Rsum n (fun k => (c k - (u / P * a k - v / P * b k)) ^ 2 + (d k - (u / P * b k + v / P * a k)) ^ 2).
Proof. intros P Q u v HP. rewrite residual_power. fold P Q u v. field. exact HP. Qed.
