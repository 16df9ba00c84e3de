(** Properties C38-C40: platform tilt and up vectors. *)
From Coq Require Import List Reals Arith Lia Lra Bool.
From Verif Require Import M_Py M_Corr M_Up S_Up L_Base L_Np L_Up.
Import ListNotations.
Open Scope R_scope.

Definition nthz (l : list R) (k : nat) : R := nth k l 0.
Definition tilt_output (per dt damp : R) (x : list R) : list R :=
  lfilter2 (fst (tilt_filter per dt damp)) (snd (tilt_filter per dt damp)) x.

Lemma zeta_pos damp : 0 <= damp -> 0 < zeta_of damp.
Proof. intros H. unfold zeta_of. destruct (Req_EM_T damp 0); [apply sqrt2_half_pos|lra]. Qed.

(** C39: the filter solves the platform equation sample by sample. *)
Theorem C39_platform_equation : forall per dt damp x k, 0 < dt -> 2 * dt < per -> 0 <= damp -> (k < length x)%nat ->
  length (tilt_output per dt damp x) = length x /\
  platform_equation per dt (if Req_EM_T damp 0 then sqrt 2 / 2 else damp) (nthz x) (nthz (tilt_output per dt damp x)) k.
Proof.
  intros per dt damp x k H1 H2 H3 Hk. split; [apply lfilter2_length|].
  apply platform_iff; [assumption..|apply zeta_pos; assumption|].
  unfold tilt_output. rewrite tilt_filter_eq. cbn [fst snd]. apply lfilter2_rec. exact Hk.
Qed.
Print Assumptions C39_platform_equation.

(** ... and the equation has no other solution. *)
Theorem C39_equation_unique : forall per dt zeta x y y' n, 0 < dt -> 2 * dt < per -> 0 < zeta ->
  (forall k, (k < n)%nat -> platform_equation per dt zeta x y k) ->
  (forall k, (k < n)%nat -> platform_equation per dt zeta x y' k) ->
  forall k, (k < n)%nat -> y k = y' k.
Proof.
  intros per dt zeta x y y' n H1 H2 H3 Hy Hy'.
  assert (Hz : zeta = zeta_of zeta) by (unfold zeta_of; destruct (Req_EM_T zeta 0); [lra|reflexivity]).
  assert (Hz' : 0 < zeta_of zeta) by (rewrite <- Hz; exact H3).
  intros k. induction k as [k IH] using lt_wf_ind. intros Hk.
  specialize (Hy k Hk). specialize (Hy' k Hk). rewrite Hz in Hy, Hy'.
  apply platform_iff in Hy; [|assumption..]. apply platform_iff in Hy'; [|assumption..]. rewrite Hy, Hy'.
  assert (B : forall j, (1 <= j)%nat -> back y k j = back y' k j).
  { intros j Hj. unfold back. destruct (Nat.leb_spec j k); [|reflexivity]. apply IH; lia. }
  rewrite !B by lia. reflexivity.
Qed.
Print Assumptions C39_equation_unique.

(** Bounded input gives bounded output, with one gain for inputs of any length. *)
Theorem C39_bounded : forall per dt damp, 0 < dt -> 2 * dt < per -> 0 <= damp ->
  exists K, 0 < K /\ forall x U, (forall v, In v x -> Rabs v <= U) ->
  forall y, In y (tilt_output per dt damp x) -> Rabs y <= K * U.
Proof.
  intros per dt damp H1 H2 H3. pose proof (zeta_pos damp H3) as Hz.
  unfold tilt_output. rewrite tilt_filter_eq. cbn [fst snd].
  match goal with |- context [lfilter2 (?b0, ?b1, ?b2) (1, ?a1, ?a2) _] => set (B0 := b0); set (B1 := b1); set (B2 := b2); set (A1 := a1); set (A2 := a2) end.
  destruct (rec_bounded A1 A2 (jury2 per dt damp H1 H2 Hz) (jury1 per dt damp H1 H2 Hz)) as [K [HK HB]].
  exists (K * (1 + Rabs B0 + Rabs B1 + Rabs B2)).
  pose proof (Rabs_pos B0) as P0. pose proof (Rabs_pos B1) as P1. pose proof (Rabs_pos B2) as P2.
  split; [apply Rmult_lt_0_compat; lra|]. intros x U HU y Hy.
  apply (In_nth _ _ 0) in Hy. destruct Hy as [k [Hk <-]]. rewrite lfilter2_length in Hk.
  assert (U0 : 0 <= U). { eapply Rle_trans; [apply Rabs_pos|]. apply (HU (nth k x 0)). apply nth_In. exact Hk. }
  set (u := fun j => B0 * back (nthz x) j 0 + B1 * back (nthz x) j 1 + B2 * back (nthz x) j 2).
  set (yf := fun j => nth j (lfilter2 (B0, B1, B2) (1, A1, A2) x) 0).
  assert (Bx : forall j i, Rabs (back (nthz x) j i) <= U).
  { intros j i. unfold back. destruct (i <=? j)%nat; [|rewrite Rabs_R0; exact U0]. unfold nthz.
    destruct (lt_dec (j - i) (length x)) as [L|L]; [apply HU, nth_In; exact L|]. rewrite nth_overflow by lia. rewrite Rabs_R0. exact U0. }
  rewrite Rmult_assoc. apply (HB u yf k ((1 + Rabs B0 + Rabs B1 + Rabs B2) * U)); [apply Rmult_le_pos; lra| | |lia].
  - intros j Hj. unfold u. eapply Rle_trans; [apply Rabs_triang|]. eapply Rle_trans; [apply Rplus_le_compat_r, Rabs_triang|].
    rewrite !Rabs_mult.
    pose proof (Rmult_le_compat_l _ _ _ P0 (Bx j 0%nat)). pose proof (Rmult_le_compat_l _ _ _ P1 (Bx j 1%nat)). pose proof (Rmult_le_compat_l _ _ _ P2 (Bx j 2%nat)). lra.
  - intros j Hj. unfold yf. rewrite lfilter2_rec by lia. reflexivity.
Qed.
Print Assumptions C39_bounded.

(** Outputs do not depend on later inputs. *)
Lemma lfilter2_prefix num den x t : forall z1 z2 k, (k < length x)%nat ->
  nth k (lfilter2_from num den z1 z2 (x ++ t)) 0 = nth k (lfilter2_from num den z1 z2 x) 0.
Proof.
  destruct num as [[b0 b1] b2], den as [[q a1] a2]. induction x as [|v x IH]; intros z1 z2 k Hk; [cbn in Hk; lia|].
  destruct k as [|k]; [reflexivity|]. cbn [app lfilter2_from nth]. apply IH. cbn in Hk. lia.
Qed.

Lemma lfilter2_from_length num den x : forall z1 z2, length (lfilter2_from num den z1 z2 x) = length x.
Proof.
  destruct num as [[b0 b1] b2], den as [[q a1] a2]. induction x as [|v x IH]; intros z1 z2; [reflexivity|].
  cbn [lfilter2_from length]. rewrite IH. reflexivity.
Qed.

(** Steady state: any exact solution is approached. *)
Lemma settles per dt damp x s m : 0 < dt -> 2 * dt < per -> 0 <= damp ->
  (forall k, (m + 2 <= k)%nat -> platform_equation per dt (zeta_of damp) x s k) ->
  forall d, 0 < d -> exists N, forall n k, (N <= k < n)%nat ->
  Rabs (nth k (tilt_output per dt damp (map x (seq 0 n))) 0 - s k) < d.
Proof.
  intros H1 H2 H3 Hs d Hd. pose proof (zeta_pos damp H3) as Hz.
  set (yi := fun k => nth k (tilt_output per dt damp (map x (seq 0 (S k)))) 0).
  assert (E : forall n k, (k < n)%nat -> nth k (tilt_output per dt damp (map x (seq 0 n))) 0 = yi k).
  { intros n k Hk. unfold yi, tilt_output, lfilter2. replace n with (S k + (n - S k))%nat by lia.
    rewrite seq_app, map_app. rewrite lfilter2_prefix by (rewrite map_length, seq_length; lia). reflexivity. }
  assert (Hy : forall k, platform_equation per dt (zeta_of damp) x yi k).
  { intros k. pose proof (C39_platform_equation per dt damp (map x (seq 0 (S k))) k H1 H2 H3) as [_ P];
      [rewrite map_length, seq_length; lia|]. fold (zeta_of damp) in P.
    unfold platform_equation in P |- *. cbv zeta in P |- *.
    assert (Bx : forall j, back (nthz (map x (seq 0 (S k)))) k j = back x k j).
    { intros j. unfold back. destruct (j <=? k)%nat; [|reflexivity]. unfold nthz. rewrite nth_map_seq by lia. reflexivity. }
    assert (By : forall j, back (nthz (tilt_output per dt damp (map x (seq 0 (S k))))) k j = back yi k j).
    { intros j. unfold back. destruct (j <=? k)%nat; [|reflexivity]. unfold nthz. apply E. lia. }
    rewrite !Bx, !By in P. exact P. }
  destruct (rec_decays _ _ (jury2 per dt damp H1 H2 Hz) (jury1 per dt damp H1 H2 Hz) (fun k => yi k - s k) m) with (d := d) as [N HN]; [|exact Hd|].
  - intros k Hk.
    pose proof (proj1 (platform_iff per dt damp H1 H2 Hz x yi (S (S k))) (Hy _)) as P1.
    pose proof (proj1 (platform_iff per dt damp H1 H2 Hz x s (S (S k))) (Hs (S (S k)) ltac:(lia))) as P2.
    rewrite P1, P2. unfold back. cbn [Nat.leb Nat.sub]. rewrite ?Nat.sub_0_r. ring.
  - exists N. intros n k Hk. rewrite E by lia. apply HN. lia.
Qed.

(** Sinusoidal input of phase step [th] (angular frequency th/dt): after the transient, the output is
    the input scaled and shifted by the platform's response at the warped frequency. *)
Theorem C39_sine_response : forall per dt damp th ph hr hi, 0 < dt -> 2 * dt < per -> 0 <= damp -> cos (th / 2) <> 0 ->
  platform_response per dt (if Req_EM_T damp 0 then sqrt 2 / 2 else damp) (prewarp dt (th / dt)) hr hi ->
  forall d, 0 < d -> exists N, forall n k, (N <= k < n)%nat ->
  Rabs (nth k (tilt_output per dt damp (map (fun j => cos (INR j * th + ph)) (seq 0 n))) 0 -
        (hr * cos (INR k * th + ph) - hi * sin (INR k * th + ph))) < d.
Proof.
  intros per dt damp th ph hr hi H1 H2 H3 Hc Hr.
  apply (settles per dt damp (fun j => cos (INR j * th + ph)) (fun k => hr * cos (INR k * th + ph) - hi * sin (INR k * th + ph)) 0); [assumption..|].
  intros k Hk. pose proof (zeta_pos damp H3) as Hz. apply platform_iff; [assumption..|].
  fold (zeta_of damp) in Hr. unfold prewarp in Hr. replace (th / dt * dt / 2) with (th / 2) in Hr by (field; lra).
  destruct k as [|[|k]]; [lia|lia|]. unfold back. cbn [Nat.leb Nat.sub]. rewrite ?Nat.sub_0_r.
  pose proof (sine_solution per dt damp H1 H2 Hz th hr hi Hc Hr (INR (S k) * th + ph)) as SS. cbv zeta beta in SS.
  replace (INR (S k) * th + ph + th) with (INR (S (S k)) * th + ph) in SS by (rewrite (S_INR (S k)); ring).
  replace (INR (S k) * th + ph - th) with (INR k * th + ph) in SS by (rewrite (S_INR k); ring). exact SS.
Qed.
Print Assumptions C39_sine_response.

(** The response exists at every frequency. *)
Theorem C39_response_exists : forall per dt zeta W, 0 < dt -> 2 * dt < per -> 0 < zeta ->
  exists hr hi, platform_response per dt zeta W hr hi.
Proof.
  intros per dt zeta W H1 H2 H3. pose proof (prewarp_pos per dt H1 H2) as HW. unfold platform_response. cbv zeta.
  set (W0 := prewarp dt (2 * PI / per)) in *. set (A := prewarp dt schuler ^ 2 - W0 ^ 2).
  set (p := W0 ^ 2 - W ^ 2). set (q := 2 * zeta * W0 * W).
  assert (Hd : 0 < p ^ 2 + q ^ 2).
  { pose proof (pow2_ge_0 p). pose proof (pow2_ge_0 q). destruct (Req_dec W 0) as [->|Hn].
    - assert (p <> 0) by (unfold p; pose proof (pow_lt W0 2 HW); lra). assert (0 < p ^ 2) by (rewrite <- Rsqr_pow2; apply Rsqr_pos_lt; assumption). lra.
    - assert (q <> 0). { unfold q. apply Rmult_integral_contrapositive_currified; [|exact Hn].
        apply Rmult_integral_contrapositive_currified; lra. }
      assert (0 < q ^ 2) by (rewrite <- Rsqr_pow2; apply Rsqr_pos_lt; assumption). lra. }
  exists ((p * A - q ^ 2) / (p ^ 2 + q ^ 2)), ((- q * A - p * q) / (p ^ 2 + q ^ 2)). split; field; lra.
Qed.
Print Assumptions C39_response_exists.

(** Constant input [c]: the output tends to c (WS^2 - W0^2)/W0^2. *)
Theorem C39_static_gain : forall per dt damp c, 0 < dt -> 2 * dt < per -> 0 <= damp ->
  forall d, 0 < d -> exists N, forall n k, (N <= k < n)%nat ->
  Rabs (nth k (tilt_output per dt damp (repeat c n)) 0 -
        c * ((prewarp dt schuler ^ 2 - prewarp dt (2 * PI / per) ^ 2) / prewarp dt (2 * PI / per) ^ 2)) < d.
Proof.
  intros per dt damp c H1 H2 H3 d Hd. pose proof (prewarp_pos per dt H1 H2) as HW.
  set (W0 := prewarp dt (2 * PI / per)) in *. set (A := prewarp dt schuler ^ 2 - W0 ^ 2).
  destruct (settles per dt damp (fun _ => c) (fun _ => c * (A / W0 ^ 2)) 0 H1 H2 H3) with (d := d) as [N HN]; [|exact Hd|].
  - intros k Hk. unfold platform_equation. cbv zeta. fold W0. fold A. unfold back.
    rewrite (proj2 (Nat.leb_le 0 k)), (proj2 (Nat.leb_le 1 k)), (proj2 (Nat.leb_le 2 k)) by lia. field. lra.
  - exists N. intros n k Hk. specialize (HN n k Hk).
    replace (repeat c n) with (map (fun _ : nat => c) (seq 0 n)); [exact HN|].
    clear. generalize 0%nat. induction n as [|n IH]; intros a; [reflexivity|]. cbn [seq map repeat]. rewrite IH. reflexivity.
Qed.
Print Assumptions C39_static_gain.

Lemma tan_3PI4 : tan (3 * PI / 4) = -1.
Proof.
  replace (3 * PI / 4) with (- (PI / 4) + PI) by field. unfold tan. rewrite neg_sin, neg_cos, sin_neg, cos_neg, sin_PI4, cos_PI4.
  pose proof (sqrt_lt_R0 2 ltac:(lra)). field. lra.
Qed.

Lemma schuler_small : 0 < schuler < 0.01.
Proof.
  unfold schuler. split; [apply sqrt_lt_R0; lra|]. replace 0.01 with (sqrt (0.01 ^ 2)) by (apply sqrt_pow2; lra).
  apply sqrt_lt_1_alt. lra.
Qed.

(** With a step between half the period and the period the filter is unstable: an input of size 1
    drives the output beyond every bound. *)
Theorem C39_stable_whenever_dt_below_period_refuted : exists per dt damp, 0 < dt < per /\ 0 < damp /\
  forall K, exists x y, (forall v, In v x -> Rabs v <= 1) /\ In y (tilt_output per dt damp x) /\ K < Rabs y.
Proof.
  exists 4, 3, (1 / 2). split; [lra|]. split; [lra|]. intros K.
  unfold tilt_output, tilt_filter. destruct (Req_EM_T (1 / 2) 0); [lra|]. cbv zeta. cbn [fst snd].
  replace (2 * PI / 4 * 3 / 2) with (3 * PI / 4) by field. rewrite tan_3PI4.
  set (t := tan (1 / sqrt (6371100 / 9.8) * 3 / 2)).
  assert (Ht : 0 < t < 1).
  { unfold t. rewrite schuler_eq. pose proof schuler_small. pose proof PI2_3_2 as P. rewrite <- tan_PI4. split.
    - apply tan_gt_0; lra.
    - apply tan_increasing; lra. }
  match goal with |- context [lfilter2 (?b0, ?b1, ?b2) (1, ?a1, ?a2) _] => set (B0 := b0); set (B1 := b1); set (B2 := b2);
    replace a1 with 0 by field; replace a2 with 3 by field end.
  set (q := B1).
  assert (Hq : q <> 0).
  { unfold q, B1. replace (2 * ((2 / 3 * t) ^ 2 - (2 / 3 * -1) ^ 2) / (2 * (1 / 2) * (2 / 3 * -1) * (2 / 3) + 4 / 3 ^ 2 + (2 / 3 * -1) ^ 2)) with (2 * (t ^ 2 - 1)) by field.
    replace (t ^ 2 - 1) with ((t - 1) * (t + 1)) by ring. apply Rmult_integral_contrapositive_currified; [lra|].
    apply Rmult_integral_contrapositive_currified; lra. }
  assert (Free : forall j z1 z2, nth (2 * j) (lfilter2_from (B0, B1, B2) (1, 0, 3) z1 z2 (repeat 0 (2 * j + 1))) 0 = (-3) ^ j * z1).
  { induction j as [|j IH]; intros z1 z2; [cbn; ring|].
    replace (2 * S j + 1)%nat with (S (S (2 * j + 1))) by lia. replace (2 * S j)%nat with (S (S (2 * j))) by lia.
    cbn [repeat lfilter2_from nth]. rewrite IH. simpl pow. ring. }
  destruct (Pow_x_infinity 3 ltac:(rewrite Rabs_right; lra) ((Rabs K + 1) / Rabs q)) as [N HN].
  exists (1 :: repeat 0 (2 * N + 1)), ((-3) ^ N * (B1 * 1 + 0 - 0 * (B0 * 1 + 0))). split; [|split].
  - intros v [<-|Hv]; [rewrite Rabs_R1; lra|]. apply repeat_spec in Hv. subst v. rewrite Rabs_R0. lra.
  - unfold lfilter2. cbn [lfilter2_from]. right. rewrite <- (Free N _ (B2 * 1 - 3 * (B0 * 1 + 0))). apply nth_In.
    rewrite lfilter2_from_length, repeat_length. lia.
  - replace (B1 * 1 + 0 - 0 * (B0 * 1 + 0)) with q by (unfold q; ring). rewrite Rabs_mult, <- RPow_abs.
    replace (Rabs (-3)) with 3 by (rewrite Rabs_left; lra). specialize (HN N ltac:(lia)). rewrite Rabs_right in HN by (apply Rle_ge, pow_le; lra).
    assert (0 < Rabs q) by (apply Rabs_pos_lt; exact Hq). apply Rge_le in HN.
    apply Rmult_le_compat_r with (r := Rabs q) in HN; [|lra]. replace ((Rabs K + 1) / Rabs q * Rabs q) with (Rabs K + 1) in HN by (field; lra).
    pose proof (Rle_abs K). lra.
Qed.
Print Assumptions C39_stable_whenever_dt_below_period_refuted.

Example C39_case : forall x k, (k < length x)%nat ->
  platform_equation (4 * 60) 1 (sqrt 2 / 2) (nthz x) (nthz (tilt_output (4 * 60) 1 0 x)) k.
Proof.
  intros x k Hk. destruct (C39_platform_equation (4 * 60) 1 0 x k) as [_ H]; [lra|lra|lra|exact Hk|].
  destruct (Req_EM_T 0 0); [exact H|lra].
Qed.

(** ** The vectors *)
Lemma up_vec_tilted i c l : tilted_up (Nat.even i) c l (up_vec i (atan c) (atan l)).
Proof.
  assert (Pc : forall t, 0 < cos (atan t)) by (intros t; destruct (atan_bound t); apply cos_gt_0; lra).
  assert (St : forall t, sin (atan t) = t * cos (atan t)).
  { intros t. pose proof (tan_atan t) as T. unfold tan in T. specialize (Pc t). apply Rmult_eq_compat_r with (r := cos (atan t)) in T.
    unfold Rdiv in T. rewrite Rmult_assoc, Rinv_l, Rmult_1_r in T by lra. lra. }
  pose proof (sin2_cos2 (atan c)) as O1. pose proof (sin2_cos2 (atan l)) as O2. unfold Rsqr in O1, O2.
  pose proof (Pc c) as P1. pose proof (Pc l) as P2. pose proof (St c) as S1. pose proof (St l) as S2.
  unfold up_vec. rewrite <- Nat.bit0_mod, Nat.bit0_odd, <- Nat.negb_even.
  set (sc := sin (atan c)) in *. set (cc := cos (atan c)) in *. set (sl := sin (atan l)) in *. set (cl := cos (atan l)) in *.
  clearbody sc cc sl cl. clear Pc St.
  destruct (Nat.even i); cbn [negb Nat.b2n Nat.eqb]; unfold matvec, dot3, tilted_up.
  - assert (Sq : sqrt ((cc * (1 * 0 + 0 * 0 + 0 * 1) + 0 * (0 * 0 + cl * 0 + - sl * 1) + - sc * (0 * 0 + sl * 0 + cl * 1)) ^ 2 +
      (sc * (1 * 0 + 0 * 0 + 0 * 1) + 0 * (0 * 0 + cl * 0 + - sl * 1) + cc * (0 * 0 + sl * 0 + cl * 1)) ^ 2) = cl).
    { rewrite <- (sqrt_pow2 cl) at 5 by lra. f_equal. replace (cl ^ 2) with (cl ^ 2 * (sc * sc + cc * cc)) by (rewrite O1; ring). ring. }
    split; [|split; [|split]].
    + transitivity (cl * cl * (sc * sc + cc * cc) + sl * sl); [ring|]. rewrite O1. lra.
    + ring_simplify. apply Rmult_lt_0_compat; lra.
    + rewrite S1. ring.
    + rewrite Sq, S2. ring.
  - assert (Sq : sqrt ((0 * (cc * 0 + 0 * 0 + - sc * 1) + cl * (0 * 0 + 1 * 0 + 0 * 1) + - sl * (sc * 0 + 0 * 0 + cc * 1)) ^ 2 +
      (0 * (cc * 0 + 0 * 0 + - sc * 1) + sl * (0 * 0 + 1 * 0 + 0 * 1) + cl * (sc * 0 + 0 * 0 + cc * 1)) ^ 2) = cc).
    { rewrite <- (sqrt_pow2 cc) at 5 by lra. f_equal. replace (cc ^ 2) with (cc ^ 2 * (sl * sl + cl * cl)) by (rewrite O2; ring). ring. }
    split; [|split; [|split]].
    + transitivity (cc * cc * (sl * sl + cl * cl) + sc * sc); [ring|]. rewrite O2. lra.
    + ring_simplify. apply Rmult_lt_0_compat; lra.
    + rewrite S2. ring.
    + rewrite Sq, S1. ring.
Qed.

Lemma calc_up_vecs_ok ct lt : length ct = length lt ->
  calc_up_vecs ct lt = Ok (map (fun i => up_vec i (nth i ct 0) (nth i lt 0)) (seq 0 (length ct))).
Proof.
  intros H. unfold calc_up_vecs. apply mapM_Ok_map. intros i Hi. apply in_seq in Hi. unfold getr.
  rewrite (nth_error_nth' ct 0) by lia. rewrite (nth_error_nth' lt 0) by lia. reflexivity.
Qed.

Lemma drive_nth acc flag g i : length flag = length acc -> length g = length acc -> (i < length acc)%nat ->
  nth i g None <> Some 0 ->
  nthz (drive (mask_zero (nan_to_zero acc) flag) g) i = driving (cleaned (nth i acc None) (nth i flag None)) (nth i g None).
Proof.
  intros L1 L2 Hi Hg. unfold nthz, drive.
  assert (La : length (nan_to_zero acc) = length acc) by apply map_length.
  assert (Lm : length (mask_zero (nan_to_zero acc) flag) = length acc) by (unfold mask_zero; rewrite map2_length; lia).
  rewrite (nth_map _ _ getv _ i 0 None); [|unfold nan_to_zero at 1; rewrite map_length, map2_length; lia].
  unfold nan_to_zero at 1. rewrite (nth_map _ _ _ _ i None None) by (rewrite map2_length; lia).
  rewrite (map2_nth _ _ _ _ _ _ _ None None) by lia. unfold mask_zero.
  rewrite (map2_nth _ _ _ _ _ _ _ None None) by lia. unfold nan_to_zero. rewrite (nth_map _ _ _ _ i None None) by lia.
  unfold cleaned, driving, nan_div. destruct (nth i g None) as [y|]; [|destruct (nth i acc None), (nth i flag None) as [f|]; try destruct (Rlt_dec 0 f); reflexivity].
  assert (Hy : y <> 0) by congruence.
  destruct (nth i acc None) as [x|], (nth i flag None) as [f|]; try destruct (Rlt_dec 0 f); destruct (Req_EM_T y 0); try contradiction; reflexivity.
Qed.

Lemma drive_length acc flag g : length flag = length acc -> length g = length acc ->
  length (drive (mask_zero (nan_to_zero acc) flag) g) = length acc.
Proof.
  intros L1 L2. unfold drive, nan_to_zero, mask_zero. rewrite !map_length, !map2_length, map_length. lia.
Qed.

(** C38: the whole call. *)
Theorem C38_up_vecs : forall dt g cacc lacc on_off cper cdamp lper ldamp n,
  length g = n -> length cacc = n -> length lacc = n -> length on_off = n -> ~ In (Some 0) g ->
  0 < dt -> 2 * dt < cper -> 2 * dt < lper -> 0 <= cdamp -> 0 <= ldamp ->
  exists r ct lt, up_vecs dt g cacc lacc on_off cper cdamp lper ldamp = Ok r /\ length (u_vecs r) = n /\
  forall i, (i < n)%nat ->
    tilted_up (Nat.even i) (ct i) (lt i) (nth i (u_vecs r) (0, 0, 0)) /\
    platform_equation cper dt (if Req_EM_T cdamp 0 then sqrt 2 / 2 else cdamp)
      (fun k => driving (cleaned (nth k cacc None) (nth k on_off None)) (nth k g None)) ct i /\
    platform_equation lper dt (if Req_EM_T ldamp 0 then sqrt 2 / 2 else ldamp)
      (fun k => driving (cleaned (nth k lacc None) (nth k on_off None)) (nth k g None)) lt i.
Proof.
  intros dt g cacc lacc on_off cper cdamp lper ldamp n Lg Lc Ll Lo Hg Hdt Hc Hl Hcd Hld.
  unfold up_vecs. rewrite Lg, Lc, Ll, Lo, Nat.eqb_refl. cbn [negb andb].
  destruct (tilt_filter cper dt cdamp) as [cnum cden] eqn:Ec. destruct (tilt_filter lper dt ldamp) as [lnum lden] eqn:El.
  set (dc := drive (mask_zero (nan_to_zero cacc) on_off) g). set (dl := drive (mask_zero (nan_to_zero lacc) on_off) g).
  assert (Ldc : length dc = n) by (unfold dc; rewrite drive_length; lia).
  assert (Ldl : length dl = n) by (unfold dl; rewrite drive_length; lia).
  assert (Tc : lfilter2 cnum cden dc = tilt_output cper dt cdamp dc) by (unfold tilt_output; rewrite Ec; reflexivity).
  assert (Tl : lfilter2 lnum lden dl = tilt_output lper dt ldamp dl) by (unfold tilt_output; rewrite El; reflexivity).
  rewrite Tc, Tl. set (tc := tilt_output cper dt cdamp dc) in *. set (tl := tilt_output lper dt ldamp dl) in *.
  assert (Ltc : length tc = n) by (unfold tc, tilt_output; rewrite lfilter2_length; exact Ldc).
  assert (Ltl : length tl = n) by (unfold tl, tilt_output; rewrite lfilter2_length; exact Ldl).
  rewrite calc_up_vecs_ok by (rewrite !map_length; lia). cbn [bind]. eexists. exists (nthz tc), (nthz tl).
  split; [reflexivity|]. cbn [u_vecs]. rewrite !map_length, seq_length. split; [exact Ltc|].
  intros i Hi. split; [|split].
  - rewrite nth_map_seq by lia. rewrite (nth_map _ _ atan tc i 0 0), (nth_map _ _ atan tl i 0 0) by lia. apply up_vec_tilted.
  - destruct (C39_platform_equation cper dt cdamp dc i Hdt Hc Hcd) as [_ P]; [lia|]. fold tc in P.
    unfold platform_equation in P |- *. cbv zeta in P |- *.
    assert (Bx : forall j, back (nthz dc) i j = back (fun k => driving (cleaned (nth k cacc None) (nth k on_off None)) (nth k g None)) i j).
    { intros j. unfold back. destruct (j <=? i)%nat; [|reflexivity]. unfold dc. apply drive_nth; try lia.
      intros E. apply Hg. rewrite <- E. apply nth_In. lia. }
    rewrite !Bx in P. exact P.
  - destruct (C39_platform_equation lper dt ldamp dl i Hdt Hl Hld) as [_ P]; [lia|]. fold tl in P.
    unfold platform_equation in P |- *. cbv zeta in P |- *.
    assert (Bx : forall j, back (nthz dl) i j = back (fun k => driving (cleaned (nth k lacc None) (nth k on_off None)) (nth k g None)) i j).
    { intros j. unfold back. destruct (j <=? i)%nat; [|reflexivity]. unfold dl. apply drive_nth; try lia.
      intros E. apply Hg. rewrite <- E. apply nth_In. lia. }
    rewrite !Bx in P. exact P.
Qed.
Print Assumptions C38_up_vecs.

(** Whatever the period, step and damping, every vector has length 1 and points up. *)
Theorem C38_unit_vectors : forall dt g cacc lacc on_off cper cdamp lper ldamp r,
  up_vecs dt g cacc lacc on_off cper cdamp lper ldamp = Ok r ->
  length (u_vecs r) = length cacc /\
  forall x y z, In (x, y, z) (u_vecs r) -> x ^ 2 + y ^ 2 + z ^ 2 = 1 /\ 0 < z.
Proof.
  intros dt g cacc lacc on_off cper cdamp lper ldamp r. unfold up_vecs.
  destruct (Nat.eqb_spec (length on_off) (length cacc)) as [E1|]; [|discriminate].
  destruct (Nat.eqb_spec (length on_off) (length lacc)) as [E2|]; [|discriminate]. cbn [andb negb].
  destruct (Nat.eqb_spec (length g) (length cacc)) as [E3|]; [|discriminate]. cbn [negb].
  destruct (tilt_filter cper dt cdamp) as [cnum cden]. destruct (tilt_filter lper dt ldamp) as [lnum lden].
  set (tc := lfilter2 cnum cden _). set (tl := lfilter2 lnum lden _).
  assert (Ltc : length tc = length cacc) by (unfold tc; rewrite lfilter2_length, drive_length; lia).
  assert (Ltl : length tl = length cacc) by (unfold tl; rewrite lfilter2_length, drive_length; lia).
  rewrite calc_up_vecs_ok by (rewrite !map_length; lia). cbn [bind]. intros H.
  assert (Hr : u_vecs r = map (fun i => up_vec i (nth i (map atan tc) 0) (nth i (map atan tl) 0)) (seq 0 (length (map atan tc)))).
  { assert (r = mk_up (mask_zero (nan_to_zero cacc) on_off) (mask_zero (nan_to_zero lacc) on_off)
      (map (fun i => up_vec i (nth i (map atan tc) 0) (nth i (map atan tl) 0)) (seq 0 (length (map atan tc))))) by congruence. subst r. reflexivity. }
  rewrite Hr, !map_length, seq_length. split; [exact Ltc|]. intros x y z Hin. apply in_map_iff in Hin. destruct Hin as [i [Hv Hi]].
  apply in_seq in Hi. rewrite (nth_map _ _ atan tc i 0 0), (nth_map _ _ atan tl i 0 0) in Hv by lia.
  pose proof (up_vec_tilted i (nth i tc 0) (nth i tl 0)) as T. rewrite Hv in T. destruct T as [T1 [T2 _]]. split; assumption.
Qed.
Print Assumptions C38_unit_vectors.

(** A platform without horizontal acceleration stays upright. *)
Theorem C38_at_rest : forall dt g cacc lacc on_off cper cdamp lper ldamp r,
  (forall v, In v cacc -> v = Some 0) -> (forall v, In v lacc -> v = Some 0) -> ~ In (Some 0) g ->
  up_vecs dt g cacc lacc on_off cper cdamp lper ldamp = Ok r ->
  u_vecs r = repeat (0, 0, 1) (length cacc).
Proof.
  intros dt g cacc lacc on_off cper cdamp lper ldamp r Zc Zl Hg. unfold up_vecs.
  destruct (Nat.eqb_spec (length on_off) (length cacc)) as [E1|]; [|discriminate].
  destruct (Nat.eqb_spec (length on_off) (length lacc)) as [E2|]; [|discriminate]. cbn [andb negb].
  destruct (Nat.eqb_spec (length g) (length cacc)) as [E3|]; [|discriminate]. cbn [negb].
  destruct (tilt_filter cper dt cdamp) as [cnum cden]. destruct (tilt_filter lper dt ldamp) as [lnum lden].
  assert (D : forall acc, length acc = length cacc -> (forall v, In v acc -> v = Some 0) -> drive (mask_zero (nan_to_zero acc) on_off) g = repeat 0 (length cacc)).
  { intros acc La Hacc. apply (list_eq_nth _ _ _ 0); [rewrite drive_length, repeat_length; lia|].
    intros i Hi. rewrite drive_length in Hi by lia. rewrite nth_repeat_lt by lia.
    change (nth i (drive (mask_zero (nan_to_zero acc) on_off) g) 0) with (nthz (drive (mask_zero (nan_to_zero acc) on_off) g) i).
    rewrite drive_nth by (try lia; intros E; apply Hg; rewrite <- E; apply nth_In; lia).
    rewrite (Hacc (nth i acc None)) by (apply nth_In; lia). unfold cleaned, driving.
    destruct (nth i on_off None) as [f|]; try destruct (Rlt_dec 0 f); destruct (nth i g None); unfold Rdiv; ring. }
  rewrite (D cacc) by auto. rewrite (D lacc) by (auto; lia).
  assert (F : forall num den n, lfilter2 num den (repeat 0 n) = repeat 0 n).
  { intros [[b0 b1] b2] [[q a1] a2] n. unfold lfilter2. induction n as [|n IH]; [reflexivity|]. cbn [repeat lfilter2_from].
    replace (b0 * 0 + 0) with 0 by ring. f_equal. replace (b1 * 0 + 0 - a1 * 0) with 0 by ring. replace (b2 * 0 - a2 * 0) with 0 by ring. exact IH. }
  rewrite !F. rewrite calc_up_vecs_ok by (rewrite !map_length, !repeat_length; lia). cbn [bind]. intros H.
  match type of H with Ok ?q = _ => assert (Hr : r = q) by congruence end. subst r. cbn [u_vecs].
  rewrite map_length, repeat_length. apply (list_eq_nth _ _ _ (0, 0, 0)); [rewrite map_length, seq_length, repeat_length; reflexivity|].
  intros i Hi. rewrite map_length, seq_length in Hi. rewrite nth_map_seq, nth_repeat_lt by exact Hi.
  rewrite !(nth_map _ _ atan (repeat 0 (length cacc)) i 0 0) by (rewrite repeat_length; exact Hi). rewrite nth_repeat_lt by exact Hi. rewrite atan_0.
  unfold up_vec. rewrite sin_0, cos_0. destruct (i mod 2 =? 0)%nat; unfold matvec, dot3; f_equal; try (f_equal; ring); ring.
Qed.
Print Assumptions C38_at_rest.

Example C38_case : tilted_up true 0.75 0 (-0.6, 0, 0.8) /\ tilted_up false 0 0.75 (0, -0.6, 0.8) /\ ~ tilted_up true 0.75 0 (0.6, 0, 0.8).
Proof. unfold tilted_up. split; [|split]; [repeat split; lra..|]. intros [_ [_ [H _]]]. lra. Qed.

(** C40: what the arrays of the caller hold afterwards, and independence of ignored samples. *)
Theorem C40_arrays_cleaned : forall dt g cacc lacc on_off cper cdamp lper ldamp r,
  up_vecs dt g cacc lacc on_off cper cdamp lper ldamp = Ok r ->
  length (u_cacc r) = length cacc /\ length (u_lacc r) = length lacc /\
  forall i, (i < length cacc)%nat ->
    nth i (u_cacc r) None = Some (cleaned (nth i cacc None) (nth i on_off None)) /\
    nth i (u_lacc r) None = Some (cleaned (nth i lacc None) (nth i on_off None)).
Proof.
  intros dt g cacc lacc on_off cper cdamp lper ldamp r. unfold up_vecs.
  destruct (Nat.eqb_spec (length on_off) (length cacc)) as [E1|]; [|discriminate].
  destruct (Nat.eqb_spec (length on_off) (length lacc)) as [E2|]; [|discriminate]. cbn [andb negb].
  destruct (Nat.eqb_spec (length g) (length cacc)) as [E3|]; [|discriminate]. cbn [negb].
  destruct (tilt_filter cper dt cdamp) as [cnum cden]. destruct (tilt_filter lper dt ldamp) as [lnum lden].
  destruct (calc_up_vecs _ _) as [v|]; [|discriminate]. cbn [bind]. intros H.
  assert (Hr : r = mk_up (mask_zero (nan_to_zero cacc) on_off) (mask_zero (nan_to_zero lacc) on_off) v) by congruence. subst r. cbn [u_cacc u_lacc].
  assert (G : forall acc, length acc = length on_off -> length (mask_zero (nan_to_zero acc) on_off) = length acc /\
    forall i, (i < length acc)%nat -> nth i (mask_zero (nan_to_zero acc) on_off) None = Some (cleaned (nth i acc None) (nth i on_off None))).
  { intros acc La. assert (Ln : length (nan_to_zero acc) = length acc) by apply map_length. unfold mask_zero. split; [rewrite map2_length; lia|].
    intros i Hi. rewrite (map2_nth _ _ _ _ _ _ _ None None) by lia. unfold nan_to_zero. rewrite (nth_map _ _ _ _ i None None) by lia.
    unfold cleaned. destruct (nth i acc None), (nth i on_off None) as [f|]; try destruct (Rlt_dec 0 f); reflexivity. }
  destruct (G cacc) as [G1 G2]; [lia|]. destruct (G lacc) as [G3 G4]; [lia|]. split; [exact G1|]. split; [exact G3|].
  intros i Hi. split; [apply G2; exact Hi|apply G4; lia].
Qed.
Print Assumptions C40_arrays_cleaned.

(** Two calls whose accelerations agree except where missing or flagged (missing counting as 0) give
    the same vectors. *)
Theorem C40_ignored_samples : forall dt g cacc lacc cacc' lacc' on_off cper cdamp lper ldamp,
  length cacc' = length cacc -> length lacc' = length lacc ->
  (forall i, (i < length cacc)%nat -> cleaned (nth i cacc None) (nth i on_off None) = cleaned (nth i cacc' None) (nth i on_off None)) ->
  (forall i, (i < length lacc)%nat -> cleaned (nth i lacc None) (nth i on_off None) = cleaned (nth i lacc' None) (nth i on_off None)) ->
  up_vecs dt g cacc lacc on_off cper cdamp lper ldamp = up_vecs dt g cacc' lacc' on_off cper cdamp lper ldamp.
Proof.
  intros dt g cacc lacc cacc' lacc' on_off cper cdamp lper ldamp L1 L2 H1 H2. unfold up_vecs. rewrite L1, L2.
  destruct (Nat.eqb_spec (length on_off) (length cacc)) as [E1|]; [|reflexivity].
  destruct (Nat.eqb_spec (length on_off) (length lacc)) as [E2|]; [|reflexivity]. cbn [andb negb].
  destruct (Nat.eqb_spec (length g) (length cacc)) as [E3|]; [|reflexivity]. cbn [negb].
  assert (G : forall a a', length a' = length a -> length on_off = length a ->
    (forall i, (i < length a)%nat -> cleaned (nth i a None) (nth i on_off None) = cleaned (nth i a' None) (nth i on_off None)) ->
    mask_zero (nan_to_zero a) on_off = mask_zero (nan_to_zero a') on_off).
  { intros a a' La Lo H. assert (Ln : forall b, length (nan_to_zero b) = length b) by (intros; apply map_length).
    apply (list_eq_nth _ _ _ None); [unfold mask_zero; rewrite !map2_length, !Ln; lia|].
    intros i Hi. unfold mask_zero in *. rewrite map2_length, Ln in Hi. rewrite !(map2_nth _ _ _ _ _ _ _ None None) by (rewrite ?Ln; lia).
    unfold nan_to_zero. rewrite !(nth_map _ _ _ _ i None None) by lia. specialize (H i ltac:(lia)). unfold cleaned in H.
    destruct (nth i a None), (nth i a' None), (nth i on_off None) as [f|]; try destruct (Rlt_dec 0 f); congruence. }
  rewrite (G cacc cacc'), (G lacc lacc') by assumption. reflexivity.
Qed.
Print Assumptions C40_ignored_samples.

Example C40_case : forall dt g per, 
  up_vecs dt [g; g; g] [None; Some 3; Some 1] [Some 0; Some 0; Some 0] [None; Some 1; Some 0] per 0 per 0 =
  up_vecs dt [g; g; g] [Some 0; None; Some 1] [Some 0; Some 0; None] [None; Some 1; Some 0] per 0 per 0.
Proof.
  intros. apply C40_ignored_samples; try reflexivity; intros i Hi; cbn in Hi; destruct i as [|[|[|i]]]; try lia; cbn; try reflexivity.
  - destruct (Rlt_dec 0 1); [reflexivity|lra].
  - destruct (Rlt_dec 0 0); reflexivity.
Qed.
