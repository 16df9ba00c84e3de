(** Lemmas about the platform tilt. *)
From Coq Require Import List Reals Arith Lia Lra Psatz.
From Verif Require Import M_Py M_Corr M_Up S_Up L_Base L_Np.
Import ListNotations.
Open Scope R_scope.

(** ** Second-order recurrences *)
Section Rec.
Variables a1 a2 : R.
Hypothesis J2 : Rabs a2 < 1.
Hypothesis J1 : Rabs a1 < 1 + a2.

Definition p11 : R := 2 * (1 + a2) / ((1 - a2) * ((1 + a2) ^ 2 - a1 ^ 2)).
Definition p12 : R := p11 * a1 * a2 / (1 + a2).
Definition p22 : R := 1 + p11 * a2 ^ 2.
Definition V (p q : R) : R := p11 * p ^ 2 + 2 * p12 * p * q + p22 * q ^ 2.

Lemma a2_bounds : -1 < a2 < 1.
Proof. apply Rabs_def2 in J2. lra. Qed.
Lemma a1_bounds : - (1 + a2) < a1 < 1 + a2.
Proof. apply Rabs_def2 in J1. lra. Qed.
Lemma disc_pos : 0 < (1 + a2) ^ 2 - a1 ^ 2.
Proof. pose proof a1_bounds. replace ((1 + a2) ^ 2 - a1 ^ 2) with ((1 + a2 - a1) * (1 + a2 + a1)) by ring. apply Rmult_lt_0_compat; lra. Qed.
Lemma p11_pos : 0 < p11.
Proof.
  pose proof a2_bounds. pose proof disc_pos. unfold p11. apply Rdiv_lt_0_compat; [lra|]. apply Rmult_lt_0_compat; lra.
Qed.

Lemma V_step p q : V (- a1 * p - a2 * q) p = V p q - p ^ 2 - q ^ 2.
Proof. pose proof a2_bounds. pose proof disc_pos. unfold V, p22, p12, p11. field. lra. Qed.

(** V >= squared norm: shown by the two-step identity V = |v|^2 + |Av|^2 + V(A^2 v) is circular, so
    directly. *)
Lemma V_det : p11 * p22 - p12 ^ 2 = p11 * (1 + p11 * a2 ^ 2 * (1 - a1 ^ 2 / (1 + a2) ^ 2)).
Proof. pose proof a2_bounds. unfold p22, p12. field. lra. Qed.
Lemma ratio_lt : 0 < 1 - a1 ^ 2 / (1 + a2) ^ 2.
Proof.
  pose proof a2_bounds. pose proof disc_pos. replace (1 - a1 ^ 2 / (1 + a2) ^ 2) with (((1 + a2) ^ 2 - a1 ^ 2) / (1 + a2) ^ 2) by (field; lra).
  apply Rdiv_lt_0_compat; [lra|]. apply pow_lt; lra.
Qed.
Lemma V_nonneg p q : 0 <= V p q.
Proof.
  pose proof p11_pos as Hp. pose proof ratio_lt. pose proof V_det as Hd. pose proof (pow2_ge_0 a2) as Ha.
  assert (D : 0 <= p11 * p22 - p12 ^ 2).
  { rewrite Hd. apply Rmult_le_pos; [lra|]. assert (0 <= p11 * a2 ^ 2 * (1 - a1 ^ 2 / (1 + a2) ^ 2)); [|lra].
    apply Rmult_le_pos; [apply Rmult_le_pos; lra|lra]. }
  apply Rmult_le_reg_l with p11; [exact Hp|]. rewrite Rmult_0_r.
  replace (p11 * V p q) with ((p11 * p + p12 * q) ^ 2 + (p11 * p22 - p12 ^ 2) * q ^ 2) by (unfold V; ring).
  apply Rplus_le_le_0_compat; [apply pow2_ge_0|]. apply Rmult_le_pos; [exact D|apply pow2_ge_0].
Qed.
Lemma V_ge p q : p ^ 2 + q ^ 2 <= V p q.
Proof. pose proof (V_nonneg (- a1 * p - a2 * q) p) as H. rewrite V_step in H. lra. Qed.

Definition lam : R := p11 + Rabs p12 + p22.
Lemma p22_ge : 1 <= p22.
Proof. unfold p22. pose proof p11_pos. pose proof (pow2_ge_0 a2). assert (0 <= p11 * a2 ^ 2) by (apply Rmult_le_pos; lra). lra. Qed.
Lemma lam_gt : 1 < lam.
Proof. unfold lam. pose proof p22_ge. pose proof p11_pos. pose proof (Rabs_pos p12). lra. Qed.
Lemma V_le p q : V p q <= lam * (p ^ 2 + q ^ 2).
Proof.
  unfold V, lam. pose proof p22_ge. pose proof p11_pos. pose proof (pow2_ge_0 p) as Hp. pose proof (pow2_ge_0 q) as Hq.
  assert (C : 2 * p12 * p * q <= Rabs p12 * (p ^ 2 + q ^ 2)).
  { pose proof (pow2_ge_0 (p - q)). pose proof (pow2_ge_0 (p + q)). destruct (Rle_dec 0 p12) as [L|L].
    - rewrite Rabs_right by lra. assert (0 <= p12 * (p - q) ^ 2) by (apply Rmult_le_pos; lra). lra.
    - rewrite Rabs_left by lra. assert (0 <= (- p12) * (p + q) ^ 2) by (apply Rmult_le_pos; lra). lra. }
  assert (0 <= p11 * q ^ 2) by (apply Rmult_le_pos; lra). assert (0 <= p22 * p ^ 2) by (apply Rmult_le_pos; lra). lra.
Qed.

(** Contraction factor. *)
Definition rho : R := 1 - / lam.
Lemma rho_bounds : 0 < rho < 1.
Proof.
  pose proof lam_gt. unfold rho. assert (0 < / lam) by (apply Rinv_0_lt_compat; lra).
  assert (/ lam < 1) by (rewrite <- Rinv_1; apply Rinv_lt_contravar; lra). lra.
Qed.
Lemma V_contract p q : V (- a1 * p - a2 * q) p <= rho * V p q.
Proof.
  rewrite V_step. pose proof (V_le p q) as H. pose proof lam_gt as Hl. unfold rho.
  assert (/ lam * V p q <= p ^ 2 + q ^ 2); [|lra].
  apply Rmult_le_reg_l with lam; [lra|]. rewrite <- Rmult_assoc, Rinv_r, Rmult_1_l by lra. exact H.
Qed.

(** Adding an input [u] to the newest value. *)
Lemma V_input p q u e : 0 < e -> V (p + u) q <= (1 + e) * V p q + (1 + / e) * (p11 * u ^ 2).
Proof.
  intros He. pose proof (V_nonneg (e * p - u) (e * q)) as H.
  assert (E : (1 + e) * V p q + (1 + / e) * (p11 * u ^ 2) - V (p + u) q = / e * V (e * p - u) (e * q)) by (unfold V; field; lra).
  assert (0 <= / e * V (e * p - u) (e * q)); [|lra]. apply Rmult_le_pos; [|exact H]. left. apply Rinv_0_lt_compat. exact He.
Qed.

(** One step with an input: a strict contraction plus a multiple of the input's square. *)
Definition eps : R := (1 - rho) / 2.
Definition rho' : R := (1 + eps) * rho.
Definition gam : R := (1 + / eps) * p11.
Lemma eps_pos : 0 < eps.
Proof. unfold eps. pose proof rho_bounds. lra. Qed.
Lemma rho'_bounds : 0 < rho' < 1.
Proof. unfold rho', eps. pose proof rho_bounds. nra. Qed.
Lemma gam_pos : 0 < gam.
Proof.
  unfold gam. pose proof eps_pos. pose proof p11_pos. apply Rmult_lt_0_compat; [|assumption].
  assert (0 < / eps) by (apply Rinv_0_lt_compat; assumption). lra.
Qed.
Lemma V_next p q u : V (- a1 * p - a2 * q + u) p <= rho' * V p q + gam * u ^ 2.
Proof.
  pose proof (V_input (- a1 * p - a2 * q) p u eps eps_pos) as H. pose proof (V_contract p q) as C. pose proof eps_pos.
  unfold rho', gam. assert ((1 + eps) * V (- a1 * p - a2 * q) p <= (1 + eps) * (rho * V p q)) by (apply Rmult_le_compat_l; lra). lra.
Qed.

(** Bounded input, bounded output, with one gain for all inputs. *)
Lemma rec_bounded : exists K, 0 < K /\ forall (u y : nat -> R) N U, 0 <= U ->
  (forall k, (k <= N)%nat -> Rabs (u k) <= U) ->
  (forall k, (k <= N)%nat -> y k = u k - a1 * back y k 1 - a2 * back y k 2) ->
  forall k, (k <= N)%nat -> Rabs (y k) <= K * U.
Proof.
  set (M := gam / (1 - rho')). pose proof rho'_bounds as Hr. pose proof gam_pos as Hg.
  assert (HM : 0 < M) by (apply Rdiv_lt_0_compat; lra).
  exists (sqrt M). split; [apply sqrt_lt_R0; exact HM|]. intros u y N U HU Hu Hy.
  assert (Su : forall k, (k <= N)%nat -> u k ^ 2 <= U ^ 2).
  { intros k Hk. rewrite <- (pow2_abs (u k)). apply pow_incr. split; [apply Rabs_pos|apply Hu; exact Hk]. }
  assert (B : forall k, (k <= N)%nat -> V (y k) (back y k 1) <= M * U ^ 2).
  { assert (F : forall w, w ^ 2 <= U ^ 2 -> forall v, v <= M * U ^ 2 -> rho' * v + gam * w ^ 2 <= M * U ^ 2).
    { intros w Hw v Hv. apply Rle_trans with (rho' * (M * U ^ 2) + gam * U ^ 2).
      - apply Rplus_le_compat; apply Rmult_le_compat_l; lra.
      - replace (rho' * (M * U ^ 2) + gam * U ^ 2) with (M * U ^ 2) by (unfold M; field; lra). lra. }
    assert (Z : 0 <= M * U ^ 2) by (apply Rmult_le_pos; [lra|apply pow2_ge_0]).
    induction k as [|k IH]; intros Hk.
    - replace (y 0%nat) with (- a1 * 0 - a2 * 0 + u 0%nat) by (rewrite (Hy 0%nat Hk); unfold back; cbn; ring).
      change (back y 0 1) with 0. eapply Rle_trans; [apply V_next|]. apply F; [apply Su; exact Hk|].
      replace (V 0 0) with 0 by (unfold V; ring). exact Z.
    - assert (E : y (S k) = - a1 * y k - a2 * back y k 1 + u (S k)).
      { rewrite (Hy (S k) Hk). replace (back y (S k) 1) with (y k) by (unfold back; cbn; rewrite Nat.sub_0_r; reflexivity).
        replace (back y (S k) 2) with (back y k 1) by (unfold back; destruct k; reflexivity). ring. }
      replace (back y (S k) 1) with (y k) by (unfold back; cbn; rewrite Nat.sub_0_r; reflexivity). rewrite E.
      eapply Rle_trans; [apply V_next|]. apply F; [apply Su; exact Hk|]. apply IH. lia. }
  intros k Hk. specialize (B k Hk). pose proof (V_ge (y k) (back y k 1)) as G. pose proof (pow2_ge_0 (back y k 1)).
  rewrite <- (sqrt_pow2 U HU), <- sqrt_mult_alt by lra. rewrite <- sqrt_Rsqr_abs. apply sqrt_le_1_alt. unfold Rsqr. lra.
Qed.

(** Free solutions decay. *)
Lemma rec_decays (e : nat -> R) m :
  (forall k, (m <= k)%nat -> e (S (S k)) = - a1 * e (S k) - a2 * e k) ->
  forall d, 0 < d -> exists N, forall k, (N <= k)%nat -> Rabs (e k) < d.
Proof.
  intros He d Hd. pose proof rho_bounds as Hr.
  assert (B : forall j, V (e (S (m + j))) (e (m + j)%nat) <= rho ^ j * V (e (S m)) (e m)).
  { induction j as [|j IH]; [rewrite Nat.add_0_r; simpl; lra|].
    replace (m + S j)%nat with (S (m + j)) by lia. rewrite He by lia. eapply Rle_trans; [apply V_contract|].
    simpl. rewrite Rmult_assoc. apply Rmult_le_compat_l; [lra|exact IH]. }
  set (C := V (e (S m)) (e m)) in *. assert (HC : 0 <= C) by apply V_nonneg.
  destruct (pow_lt_1_zero rho ltac:(rewrite Rabs_right; lra) (d ^ 2 / (C + 1))) as [N HN].
  { apply Rdiv_lt_0_compat; [apply pow_lt; exact Hd|lra]. }
  exists (m + N)%nat. intros k Hk. replace k with (m + (k - m))%nat by lia. set (j := (k - m)%nat).
  specialize (HN j ltac:(unfold j; lia)). specialize (B j). rewrite Rabs_right in HN by (apply Rle_ge, pow_le; lra).
  pose proof (V_ge (e (S (m + j))) (e (m + j)%nat)) as G. pose proof (pow2_ge_0 (e (S (m + j)))).
  assert (P : rho ^ j * C <= rho ^ j * (C + 1)) by (apply Rmult_le_compat_l; [apply pow_le; lra|lra]).
  assert (Q : rho ^ j * (C + 1) < d ^ 2).
  { apply Rmult_lt_compat_r with (r := C + 1) in HN; [|lra]. replace (d ^ 2 / (C + 1) * (C + 1)) with (d ^ 2) in HN by (field; lra). exact HN. }
  rewrite <- (sqrt_pow2 d) by lra. rewrite <- sqrt_Rsqr_abs. apply sqrt_lt_1_alt. unfold Rsqr. split; [|lra].
  pose proof (pow2_ge_0 (e (m + j)%nat)). lra.
Qed.
End Rec.

(** ** lfilter *)
Lemma lfilter2_length num den x : length (lfilter2 num den x) = length x.
Proof.
  unfold lfilter2. generalize 0 at 1. generalize 0. induction x as [|v x IH]; intros z2 z1; [reflexivity|].
  destruct num as [[b0 b1] b2], den as [[q a1] a2]. cbn [lfilter2_from length]. rewrite IH. reflexivity.
Qed.

Lemma lfilter2_from_rec b0 b1 b2 q a1 a2 x : forall z1 z2 k, (k < length x)%nat ->
  let y := fun j => nth j (lfilter2_from (b0, b1, b2) (q, a1, a2) z1 z2 x) 0 in
  let xf := fun j => nth j x 0 in
  y k = b0 * back xf k 0 + b1 * back xf k 1 + b2 * back xf k 2 - a1 * back y k 1 - a2 * back y k 2 +
        (if Nat.eqb k 0 then z1 else if Nat.eqb k 1 then z2 else 0).
Proof.
  induction x as [|v x IH]; intros z1 z2 k Hk y xf; [cbn in Hk; lia|].
  destruct k as [|k]; [unfold y, xf, back; cbn; ring|]. cbn [length] in Hk.
  specialize (IH (b1 * v + z2 - a1 * (b0 * v + z1)) (b2 * v - a2 * (b0 * v + z1)) k ltac:(lia)). cbv zeta in IH.
  unfold y at 1. cbn [lfilter2_from nth]. rewrite IH. unfold y, xf, back.
  destruct k as [|[|k]]; cbn [Nat.leb Nat.sub nth lfilter2_from Nat.eqb]; try ring.
  rewrite ?Nat.sub_0_r. cbn [nth]. ring.
Qed.

Lemma lfilter2_rec b0 b1 b2 q a1 a2 x k : (k < length x)%nat ->
  let y := fun j => nth j (lfilter2 (b0, b1, b2) (q, a1, a2) x) 0 in
  let xf := fun j => nth j x 0 in
  y k = b0 * back xf k 0 + b1 * back xf k 1 + b2 * back xf k 2 - a1 * back y k 1 - a2 * back y k 2.
Proof.
  intros Hk y xf. pose proof (lfilter2_from_rec b0 b1 b2 q a1 a2 x 0 0 k Hk) as H. cbv zeta in H.
  unfold y, lfilter2. rewrite H. destruct (Nat.eqb k 0), (Nat.eqb k 1); unfold xf; ring.
Qed.

(** ** The tilt filter *)
Definition zeta_of (damp : R) : R := if Req_EM_T damp 0 then sqrt 2 / 2 else damp.

Lemma schuler_eq : 1 / sqrt (6371100 / 9.8) = schuler.
Proof.
  unfold schuler. replace (9.8 / 6371100) with (/ (6371100 / 9.8)) by (field; lra). rewrite sqrt_inv. unfold Rdiv at 1. ring.
Qed.

Lemma sqrt2_half_pos : 0 < sqrt 2 / 2.
Proof. pose proof (sqrt_lt_R0 2 ltac:(lra)). lra. Qed.

Lemma prewarp_pos per dt : 0 < dt -> 2 * dt < per -> 0 < prewarp dt (2 * PI / per).
Proof.
  intros H1 H2. pose proof PI_RGT_0 as Hp. unfold prewarp. apply Rmult_lt_0_compat; [apply Rdiv_lt_0_compat; lra|].
  replace (2 * PI / per * dt / 2) with (PI * (dt / per)) by (field; lra).
  assert (0 < dt / per) by (apply Rdiv_lt_0_compat; lra).
  assert (dt / per < 1 / 2) by (apply Rmult_lt_reg_r with per; [lra|]; field_simplify; lra).
  apply tan_gt_0; nra.
Qed.

Section Tilt.
Variables per dt damp : R.
Hypothesis Hdt : 0 < dt.
Hypothesis Hper : 2 * dt < per.
Hypothesis Hz : 0 < zeta_of damp.
Let W0 := prewarp dt (2 * PI / per).
Let WS := prewarp dt schuler.
Let z := zeta_of damp.
Let A := WS ^ 2 - W0 ^ 2.
Let B := 2 * z * W0 * (2 / dt).
Let C := 4 / dt ^ 2.
Let D := W0 ^ 2.
Let d0 := B + C + D.

Lemma tilt_filter_eq : tilt_filter per dt damp =
  (((A - B) / d0, 2 * A / d0, (A + B) / d0), (1, 2 * (D - C) / d0, (C + D - B) / d0)).
Proof. unfold tilt_filter. cbv zeta. rewrite schuler_eq. reflexivity. Qed.

Lemma W0_pos : 0 < W0.
Proof. apply prewarp_pos; assumption. Qed.
Lemma B_pos : 0 < B.
Proof. pose proof W0_pos. unfold B, z. apply Rmult_lt_0_compat; [apply Rmult_lt_0_compat; lra|apply Rdiv_lt_0_compat; lra]. Qed.
Lemma C_pos : 0 < C.
Proof. unfold C. apply Rdiv_lt_0_compat; [lra|]. apply pow_lt. exact Hdt. Qed.
Lemma D_pos : 0 < D.
Proof. unfold D. apply pow_lt. exact W0_pos. Qed.
Lemma d0_pos : 0 < d0.
Proof. pose proof B_pos. pose proof C_pos. pose proof D_pos. unfold d0. lra. Qed.

Lemma jury2 : Rabs ((C + D - B) / d0) < 1.
Proof.
  pose proof B_pos. pose proof C_pos. pose proof D_pos. pose proof d0_pos as Hd0. apply Rabs_def1.
  - apply Rmult_lt_reg_r with d0; [exact Hd0|]. unfold Rdiv. rewrite !Rmult_assoc, Rinv_l by lra. unfold d0. lra.
  - apply Rmult_lt_reg_r with d0; [exact Hd0|]. unfold Rdiv. rewrite !Rmult_assoc, Rinv_l by lra. unfold d0. lra.
Qed.
Lemma jury1 : Rabs (2 * (D - C) / d0) < 1 + (C + D - B) / d0.
Proof.
  pose proof B_pos. pose proof C_pos. pose proof D_pos. pose proof d0_pos as Hd0.
  replace (1 + (C + D - B) / d0) with (2 * (C + D) / d0) by (unfold d0; field; unfold d0 in Hd0; lra). apply Rabs_def1.
  - apply Rmult_lt_reg_r with d0; [exact Hd0|]. unfold Rdiv. rewrite !Rmult_assoc, Rinv_l by lra. lra.
  - apply Rmult_lt_reg_r with d0; [exact Hd0|]. replace (- (2 * (C + D) / d0) * d0) with (- (2 * (C + D))) by (field; lra).
    unfold Rdiv. rewrite !Rmult_assoc, Rinv_l by lra. lra.
Qed.

Lemma platform_iff (x y : nat -> R) k :
  platform_equation per dt z x y k <->
  y k = (A - B) / d0 * back x k 0 + 2 * A / d0 * back x k 1 + (A + B) / d0 * back x k 2
        - 2 * (D - C) / d0 * back y k 1 - (C + D - B) / d0 * back y k 2.
Proof.
  pose proof d0_pos as Hd0. assert (E : back y k 0 = y k) by (unfold back; cbn; rewrite Nat.sub_0_r; reflexivity).
  unfold platform_equation. cbv zeta. fold W0. fold WS. fold A. rewrite E.
  replace ((2 / dt) ^ 2) with C by (unfold C; field; lra).
  set (x0 := back x k 0). set (x1 := back x k 1). set (x2 := back x k 2). set (y1 := back y k 1). set (y2 := back y k 2).
  assert (EQ : C * (y k - 2 * y1 + y2) + 2 * z * W0 * (2 / dt * (y k - y2)) + W0 ^ 2 * (y k + 2 * y1 + y2) -
     (A * (x0 + 2 * x1 + x2) - 2 * z * W0 * (2 / dt * (x0 - x2))) =
     d0 * (y k - ((A - B) / d0 * x0 + 2 * A / d0 * x1 + (A + B) / d0 * x2 - 2 * (D - C) / d0 * y1 - (C + D - B) / d0 * y2))).
  { replace (d0 * (y k - ((A - B) / d0 * x0 + 2 * A / d0 * x1 + (A + B) / d0 * x2 - 2 * (D - C) / d0 * y1 - (C + D - B) / d0 * y2)))
      with (d0 * y k - ((A - B) * x0 + 2 * A * x1 + (A + B) * x2 - 2 * (D - C) * y1 - (C + D - B) * y2)) by (field; lra).
    unfold d0, B, D. ring. }
  split; intros H.
  - assert (Z : d0 * (y k - ((A - B) / d0 * x0 + 2 * A / d0 * x1 + (A + B) / d0 * x2 - 2 * (D - C) / d0 * y1 - (C + D - B) / d0 * y2)) = 0) by (rewrite <- EQ; lra).
    apply Rmult_integral in Z. destruct Z as [Z|Z]; [lra|lra].
  - assert (Z : d0 * (y k - ((A - B) / d0 * x0 + 2 * A / d0 * x1 + (A + B) / d0 * x2 - 2 * (D - C) / d0 * y1 - (C + D - B) / d0 * y2)) = 0) by (rewrite H at 1; ring).
    rewrite Z in EQ. lra.
Qed.

(** Sinusoidal input: the warped response solves the recurrence. *)
Lemma sine_solution th hr hi : cos (th / 2) <> 0 -> platform_response per dt z (2 / dt * tan (th / 2)) hr hi ->
  let yc := fun t => hr * cos t - hi * sin t in
  forall t, yc (t + th) = (A - B) / d0 * cos (t + th) + 2 * A / d0 * cos t + (A + B) / d0 * cos (t - th)
        - 2 * (D - C) / d0 * yc t - (C + D - B) / d0 * yc (t - th).
Proof.
  intros Hc [P1 P2] yc t. pose proof d0_pos as Hd0. unfold yc. set (f := th / 2) in *.
  replace (t + th) with (t + 2 * f) by (unfold f; field). replace (t - th) with (t - 2 * f) by (unfold f; field).
  rewrite cos_plus, sin_plus, cos_minus, sin_minus. rewrite (cos_2a f), (sin_2a f).
  fold W0 in P1, P2. fold WS in P1. fold A in P1. unfold tan in P1, P2.
  set (cf := cos f) in *. set (sf := sin f) in *.
  assert (One : sf * sf + cf * cf = 1) by (pose proof (sin2_cos2 f) as H; unfold Rsqr in H; exact H).
  assert (Q1 : (D * cf * cf - C * sf * sf) * hr - B * sf * cf * hi = A * cf * cf).
  { replace (A * cf * cf) with (cf * cf * A) by ring. rewrite <- P1. unfold B, C, D. field. lra. }
  assert (Q2 : (D * cf * cf - C * sf * sf) * hi + B * sf * cf * hr = - (B * sf * cf)).
  { replace (- (B * sf * cf)) with (cf * cf * (- (2 * z * W0 * (2 / dt * (sf / cf))))) by (unfold B; field; lra). rewrite <- P2. unfold B, C, D. field. lra. }
  set (ct := cos t). set (st := sin t). clearbody A B C D ct st cf sf. clear P1 P2 Hc.
  apply Rmult_eq_reg_l with d0; [|lra].
  match goal with |- d0 * ?l = d0 * ?r => 
    replace (d0 * r) with ((A - B) * (ct * (cf * cf - sf * sf) - st * (2 * sf * cf)) + 2 * A * ct + (A + B) * (ct * (cf * cf - sf * sf) + st * (2 * sf * cf))
     - 2 * (D - C) * (hr * ct - hi * st) - (C + D - B) * (hr * (ct * (cf * cf - sf * sf) + st * (2 * sf * cf)) - hi * (st * (cf * cf - sf * sf) - ct * (2 * sf * cf)))) by (field; lra) end.
  unfold d0.
  assert (Dn : forall u, u = u * (sf * sf + cf * cf)) by (intros; rewrite One; ring).
  rewrite (Dn (2 * A * ct)), (Dn (2 * (D - C) * (hr * ct - hi * st))).
  apply Rminus_diag_uniq.
  match goal with |- ?e = 0 => replace e with (4 * ct * ((D * cf * cf - C * sf * sf) * hr - B * sf * cf * hi - A * cf * cf)
     - 4 * st * ((D * cf * cf - C * sf * sf) * hi + B * sf * cf * hr + B * sf * cf)) by ring end.
  rewrite Q1, Q2. ring.
Qed.
End Tilt.
