(** Proofs for the cross-coupling coefficients. *)
From Coq Require Import List Reals Arith Lia Lra Sorted.
From Verif Require Import M_Py M_Np M_Nav M_CC S_Base S_Nav S_CC L_Base L_Np L_Nav.
Import ListNotations.
Open Scope R_scope.

(** ** the two differentiators *)
Definition dw (u : nat) : R := nth (10 - u) tay10 0.

Lemma diff10_weights f k : (5 <= k)%nat -> diff10 f k = Rsum 11 (fun u => dw u * f (k - 5 + u)%nat).
Proof.
  intros H. unfold diff10, dw. cbn [Rsum Nat.sub tay10 nth].
  replace (k - 5 + 0)%nat with (k - 5)%nat by lia. replace (k - 5 + 1)%nat with (k - 4)%nat by lia.
  replace (k - 5 + 2)%nat with (k - 3)%nat by lia. replace (k - 5 + 3)%nat with (k - 2)%nat by lia.
  replace (k - 5 + 4)%nat with (k - 1)%nat by lia. replace (k - 5 + 5)%nat with k by lia.
  replace (k - 5 + 6)%nat with (k + 1)%nat by lia. replace (k - 5 + 7)%nat with (k + 2)%nat by lia.
  replace (k - 5 + 8)%nat with (k + 3)%nat by lia. replace (k - 5 + 9)%nat with (k + 4)%nat by lia.
  replace (k - 5 + 10)%nat with (k + 5)%nat by lia. field.
Qed.

Lemma dw_differentiates : differentiates dw.
Proof.
  intros p Hp. do 11 (destruct p as [|p]; [unfold dw; cbn [Rsum Nat.sub tay10 nth Nat.eqb INR]; field|]). lia.
Qed.

Lemma cc_ddiff_length x : (10 < length x)%nat -> length (cc_ddiff x) = length x.
Proof. intros H. unfold cc_ddiff. rewrite tay10_same_length; rewrite tay10_same_length; auto. Qed.

Lemma nth_cc_ddiff x k : (10 < length x)%nat -> (10 <= k)%nat -> (k + 10 < length x)%nat ->
  nth k (cc_ddiff x) 0 = Rsum 11 (fun u => Rsum 11 (fun v => dw u * dw v * nth (k - 10 + u + v) x 0)).
Proof.
  intros Hl H1 H2. unfold cc_ddiff. rewrite nth_tay10 by (rewrite ?tay10_same_length by exact Hl; lia).
  rewrite diff10_weights by lia. apply Rsum_ext. intros u Hu.
  rewrite nth_tay10 by lia. rewrite diff10_weights by lia. rewrite <- Rsum_scal. apply Rsum_ext. intros v Hv.
  replace (k - 5 + u - 5 + v)%nat with (k - 10 + u + v)%nat by lia. ring.
Qed.

(** ** the low-pass filter *)
Lemma lfilter_length b x : length (lfilter_fir b x) = length x.
Proof. unfold lfilter_fir. rewrite map_length, seq_length. reflexivity. Qed.

Lemma nth_lfilter b x k d : (k < length x)%nat -> (length b <= S k)%nat ->
  nth k (lfilter_fir b x) d = Rsum (length b) (fun j => nth j b 0 * nth (k - j) x 0).
Proof.
  intros H Hb. unfold lfilter_fir. rewrite nth_map_seq by exact H. rewrite pysum_map_seq.
  apply Rsum_ext. intros j Hj. rewrite (proj2 (Nat.leb_le j k)) by lia. reflexivity.
Qed.

Definition lp (k : nat) : R := nth k cc_BM 0.

Lemma cc_BM_length : length cc_BM = 200%nat.
Proof. unfold cc_BM, firwin. rewrite !map_length, seq_length. reflexivity. Qed.

Lemma cc_process_length x : (1000 <= length x)%nat -> length (cc_process x) = (length x - 420)%nat.
Proof.
  intros H. unfold cc_process. rewrite slice_length, lfilter_length, slice_length, cc_ddiff_length by lia. unfold cc_taps. lia.
Qed.

Lemma nth_cc_process x r : (1000 <= length x)%nat -> (r < length x - 420)%nat ->
  nth r (cc_process x) 0 = curvature lp dw x (1 + r).
Proof.
  intros H Hr. unfold cc_process.
  set (g := slice (cc_ddiff x) 10 (length (cc_ddiff x) - 10)).
  assert (Lg : length g = (length x - 20)%nat) by (unfold g; rewrite slice_length, cc_ddiff_length by lia; lia).
  rewrite nth_slice by (rewrite ?lfilter_length; unfold cc_taps; lia).
  unfold cc_taps. rewrite nth_lfilter by (rewrite ?cc_BM_length; lia). rewrite cc_BM_length.
  rewrite Rsum_rev. unfold curvature. apply Rsum_ext. intros j Hj. unfold lp. replace (200 - 1 - j)%nat with (199 - j)%nat by lia. f_equal.
  unfold g. rewrite nth_slice by (rewrite cc_ddiff_length; lia).
  rewrite nth_cc_ddiff by lia. apply Rsum_ext. intros u Hu. apply Rsum_ext. intros v Hv. f_equal. f_equal. lia.
Qed.

Lemma curvature_slice h d x a b i : (i + 219 < b - a)%nat ->
  curvature h d (slice x a b) i = curvature h d x (a + i).
Proof.
  intros H. unfold curvature. apply Rsum_ext. intros j Hj. f_equal. apply Rsum_ext. intros u Hu. apply Rsum_ext. intros v Hv.
  rewrite nth_slice by lia. f_equal. f_equal. lia.
Qed.

Lemma cc_process_rows x a b : (a + 1000 <= b <= length x)%nat ->
  cc_process (slice x a b) = map (fun r => curvature lp dw x (a + 1 + r)) (seq 0 (b - a - 420)).
Proof.
  intros H. assert (Ls : length (slice x a b) = (b - a)%nat) by (rewrite slice_length; lia).
  apply (list_eq_nth _ _ _ 0).
  - rewrite cc_process_length, map_length, seq_length; lia.
  - intros r Hr. rewrite cc_process_length in Hr by lia. rewrite Ls in Hr.
    rewrite nth_cc_process, nth_map_seq by lia. rewrite curvature_slice by lia. f_equal. lia.
Qed.

(** positivity of the unscaled taps *)
Lemma Rsum_ge_term n f k : (k < n)%nat -> (forall i, (i < n)%nat -> 0 <= f i) -> f k <= Rsum n f.
Proof.
  induction n as [|n IH]; intros Hk Hf; [lia|]. cbn [Rsum].
  destruct (Nat.eq_dec k n) as [->|Hne].
  - pose proof (Rsum_nonneg n f ltac:(intros i Hi; apply Hf; lia)). lra.
  - pose proof (IH ltac:(lia) ltac:(intros i Hi; apply Hf; lia)). pose proof (Hf n ltac:(lia)). lra.
Qed.

Lemma sinc_pos x : -1 < x < 1 -> 0 < np_sinc x.
Proof.
  intros H. unfold np_sinc. destruct (Req_EM_T x 0) as [->|Hx]; [lra|]. pose proof PI_RGT_0 as Hpi.
  destruct (Rtotal_order x 0) as [Hn|[Hz|Hp]]; [|contradiction|].
  - replace (sin (PI * x) / (PI * x)) with (sin (PI * - x) / (PI * - x)).
    + apply Rdiv_lt_0_compat; [apply sin_gt_0; nra|nra].
    + replace (PI * - x) with (- (PI * x)) by ring. rewrite sin_neg. field. split; lra.
  - apply Rdiv_lt_0_compat; [apply sin_gt_0; nra|nra].
Qed.

Lemma blackman_factor c : 0.42 - 0.5 * c + 0.08 * (2 * (c * c) - 1) = (1 - c) * (0.34 - 0.16 * c).
Proof. lra. Qed.
Lemma INR_199 : INR (200 - 1) = 199.
Proof. replace (200 - 1)%nat with 199%nat by reflexivity. rewrite INR_IZR_INZ. reflexivity. Qed.
Lemma INR_200 : INR 200 = 200.
Proof. rewrite INR_IZR_INZ. reflexivity. Qed.

Lemma blackman_form k : blackman 200 k = (1 - cos (2 * PI * INR k / 199)) * (0.34 - 0.16 * cos (2 * PI * INR k / 199)).
Proof.
  unfold blackman. cbv zeta. rewrite INR_199, cos_2a_cos. rewrite <- blackman_factor. lra.
Qed.
Lemma blackman_nonneg k : 0 <= blackman 200 k.
Proof. rewrite blackman_form. pose proof (COS_bound (2 * PI * INR k / 199)). apply Rmult_le_pos; lra. Qed.

Lemma blackman_window_eq k : blackman 200 k = blackman_window k.
Proof.
  unfold blackman, blackman_window. cbv zeta. rewrite INR_199.
  replace (2 * (2 * PI * INR k / 199)) with (4 * PI * INR k / 199) by field. reflexivity.
Qed.

Definition tap (k : nat) : R := firwin_raw 200 (1 / INR 200) k.

Lemma tap_arg k : (k < 200)%nat -> -1 < 1 / INR 200 * (INR k - 0.5 * INR (200 - 1)) < 1.
Proof.
  intros H. rewrite INR_199, INR_200. pose proof (pos_INR k). apply lt_INR in H. rewrite INR_200 in H. lra.
Qed.

Lemma tap_nonneg k : (k < 200)%nat -> 0 <= tap k.
Proof.
  intros H. unfold tap, firwin_raw. cbv zeta. pose proof (sinc_pos _ (tap_arg k H)). pose proof (blackman_nonneg k).
  apply Rmult_le_pos; [|assumption]. apply Rmult_le_pos; [|lra]. rewrite INR_200. lra.
Qed.

Lemma cos_lt_1 x : 0 < x < 2 * PI -> cos x < 1.
Proof.
  intros H. pose proof (COS_bound x). destruct (Req_dec (cos x) 1) as [E|E]; [|lra]. exfalso.
  assert (Hs : 0 < sin (x / 2)) by (apply sin_gt_0; lra).
  replace x with (2 * (x / 2)) in E by field. rewrite cos_2a_sin in E. nra.
Qed.

Lemma tap_100_pos : 0 < tap 100.
Proof.
  unfold tap, firwin_raw. cbv zeta. pose proof (sinc_pos _ (tap_arg 100 ltac:(lia))) as H1.
  apply Rmult_lt_0_compat; [apply Rmult_lt_0_compat; [rewrite INR_200; lra|exact H1]|].
  rewrite blackman_form. pose proof PI_RGT_0 as Hpi.
  assert (H : cos (2 * PI * INR 100 / 199) < 1).
  { apply cos_lt_1. rewrite INR_IZR_INZ. cbn [Z.of_nat Pos.of_succ_nat Pos.succ]. lra. }
  apply Rmult_lt_0_compat; lra.
Qed.

Definition tap_sum : R := Rsum 200 tap.
Lemma tap_sum_pos : 0 < tap_sum.
Proof.
  eapply Rlt_le_trans; [exact tap_100_pos|]. apply Rsum_ge_term; [lia|exact tap_nonneg].
Qed.

Lemma lp_tap k : (k < 200)%nat -> lp k = tap k / tap_sum.
Proof.
  intros H. unfold lp, cc_BM, firwin, cc_taps. rewrite pysum_map_seq. rewrite (nth_map _ _ _ _ _ _ 0) by (rewrite map_length, seq_length; exact H).
  rewrite nth_map_seq by exact H. reflexivity.
Qed.

Lemma lp_low_pass : low_pass lp.
Proof.
  pose proof tap_sum_pos as Hs. split.
  - rewrite (Rsum_ext 200 lp (fun k => tap k / tap_sum)) by (intros; apply lp_tap; assumption).
    rewrite Rsum_div. fold tap_sum. field. lra.
  - exists (/ tap_sum). intros k Hk m. rewrite lp_tap by exact Hk. rewrite <- blackman_window_eq.
    unfold tap, firwin_raw. cbv zeta. rewrite INR_199, INR_200.
    replace (INR k - 0.5 * 199) with m by (unfold m; lra).
    assert (Hm : m <> 0).
    { intros E. assert (E2 : INR (2 * k) = INR 199) by (rewrite mult_INR, (INR_IZR_INZ 199); cbn [INR Z.of_nat Pos.of_succ_nat Pos.succ]; unfold m in E; lra).
      apply INR_eq in E2. lia. }
    unfold np_sinc. destruct (Req_EM_T (1 / 200 * m) 0) as [E|_]; [exfalso; lra|].
    replace (PI * (1 / 200 * m)) with (PI * m / 200) by field. pose proof PI_neq0. field. repeat split; auto; lra.
Qed.

(** ** bounds of the segments *)
Lemma np_diff_length x : length (np_diff x) = (length x - 1)%nat.
Proof. unfold np_diff. rewrite map2_length, length_tl. lia. Qed.
Lemma nth_np_diff x i : (S i < length x)%nat -> nth i (np_diff x) 0 = nth (S i) x 0 - nth i x 0.
Proof.
  intros H. unfold np_diff. rewrite (map2_nth _ _ _ _ _ _ _ 0 0) by (rewrite ?length_tl; lia). rewrite nth_tl. reflexivity.
Qed.

Lemma gap_inds_in ts sr i : In i (gap_inds ts sr) <-> gap ts sr i.
Proof.
  unfold gap_inds, gap. rewrite filter_In, in_seq, np_diff_length. split.
  - intros [H1 H2]. assert (Hi : (S i < length ts)%nat) by lia. rewrite nth_np_diff in H2 by exact Hi.
    destruct (Rlt_dec _ _) as [H|H]; [|discriminate]. split; [exact Hi|lra].
  - intros [H1 H2]. split; [lia|]. rewrite nth_np_diff by exact H1. destruct (Rlt_dec _ _) as [H|H]; [reflexivity|lra].
Qed.

Lemma filter_seq_sorted (p : nat -> bool) a n : StronglySorted lt (filter p (seq a n)).
Proof.
  revert a. induction n as [|n IH]; intros a; cbn; [constructor|].
  destruct (p a); [|apply IH]. constructor; [apply IH|]. apply Forall_forall. intros x Hx. apply filter_In in Hx.
  destruct Hx as [Hx _]. apply in_seq in Hx. lia.
Qed.

Lemma seg_bounds_from s0 (ends : list nat) : StronglySorted lt ends -> (forall e, In e ends -> s0 <= e)%nat ->
  forall a b, In (a, b) (combine (s0 :: map S ends) ends) <->
    (In b ends /\ (a = s0 \/ exists e, a = S e /\ In e ends) /\ (a <= b)%nat /\ forall e, In e ends -> ~ (a <= e < b)%nat).
Proof.
  intros Hs. revert s0. induction Hs as [|e ends Hs IH Hf]; intros s0 Hmin a b.
  - cbn. split; [tauto|]. intros [[] _].
  - rewrite Forall_forall in Hf. cbn [map combine]. cbn [In].
    assert (Hmin' : forall e', In e' ends -> (S e <= e')%nat) by (intros e' He; apply Hf in He; lia).
    specialize (IH (S e) Hmin' a b). cbn [map] in IH. rewrite IH. clear IH. split.
    + intros [E|[H1 [H2 [H3 H4]]]].
      * injection E as <- <-. split; [left; reflexivity|]. split; [left; reflexivity|].
        split; [apply Hmin; left; reflexivity|]. intros e' [<-|He]; [lia|]. apply Hf in He. lia.
      * split; [right; exact H1|]. split.
        -- right. destruct H2 as [->|[e' [-> He]]]; [exists e; split; [reflexivity|left; reflexivity]|].
           exists e'. split; [reflexivity|right; exact He].
        -- split; [exact H3|]. intros e' [<-|He]; [|apply H4; exact He].
           destruct H2 as [->|[e2 [-> He2]]]; [lia|]. apply Hf in He2. lia.
    + intros [H1 [H2 [H3 H4]]]. destruct H1 as [->|H1].
      * left. f_equal. destruct H2 as [->|[e' [-> He]]]; [reflexivity|]. exfalso.
        destruct He as [->|He]; [lia|]. apply Hf in He. lia.
      * right. split; [exact H1|]. pose proof (Hf b H1) as Hb. split.
        -- destruct H2 as [->|[e' [-> [->|He]]]].
           ++ exfalso. apply (H4 e (or_introl eq_refl)). split; [|exact Hb]. apply Hmin. left. reflexivity.
           ++ left. reflexivity.
           ++ right. exists e'. split; [reflexivity|exact He].
        -- split; [exact H3|]. intros e' He. apply H4. right. exact He.
Qed.

Lemma used_bounds_spec n times sr : (forall ts, times = Some ts -> length ts = n) ->
  forall a b, In (a, b) (used_bounds n (end_inds n times sr)) <->
    code_range n (fun i => match times with Some ts => gap ts sr i | None => False end) a b.
Proof.
  intros Hn a b. unfold used_bounds. rewrite filter_In. cbn [fst snd].
  assert (C : negb (Nat.min b n - a <? 1000)%nat = true <-> (a + 1000 <= Nat.min b n)%nat).
  { rewrite Bool.negb_true_iff, Nat.ltb_ge. lia. }
  rewrite C. unfold code_range, seg_bounds.
  assert (Base : (forall i, ~ match times with Some ts => gap ts sr i | None => False end) ->
     In (a, b) (combine (0%nat :: map S [n]) [n]) /\ (a + 1000 <= Nat.min b n)%nat <->
     (a + 1000 <= b <= n)%nat /\ (a = 0%nat \/ exists e, a = S e /\ match times with Some ts => gap ts sr e | None => False end) /\
     (match times with Some ts => gap ts sr b | None => False end \/ b = n /\ (forall i, ~ match times with Some ts => gap ts sr i | None => False end)) /\
     (forall i, (a <= i < b)%nat -> ~ match times with Some ts => gap ts sr i | None => False end)).
  { intros G. cbn [map combine In]. split.
    - intros [[E|[]] H]. injection E as <- <-. repeat split; try lia; auto.
    - intros [H1 [H2 [H3 H4]]]. assert (E : b = n) by (destruct H3 as [H3|[H3 _]]; [exfalso; apply (G b H3)|exact H3]).
      assert (E2 : a = 0%nat) by (destruct H2 as [H2|[e [_ H2]]]; [exact H2|exfalso; apply (G e H2)]). subst. split; [left; reflexivity|lia]. }
  unfold end_inds. destruct times as [ts|]; [|apply Base; tauto].
  specialize (Hn ts eq_refl). pose proof (gap_inds_in ts sr) as Gi.
  assert (Hsort : StronglySorted lt (gap_inds ts sr)) by apply filter_seq_sorted.
  destruct (gap_inds ts sr) as [|g0 gs] eqn:Eg.
  - apply Base. intros i H. apply Gi in H. destruct H.
  - rewrite (seg_bounds_from 0 (g0 :: gs) Hsort) by (intros; lia).
    assert (Gb : In b (g0 :: gs) -> (S b < n)%nat) by (intros H; apply Gi in H; destruct H as [H _]; lia).
    split.
    + intros [[H1 [H2 [H3 H4]]] H5]. pose proof (Gb H1). split; [lia|]. split.
      { destruct H2 as [->|[e [-> He]]]; [left; reflexivity|right; exists e; split; [reflexivity|apply Gi; exact He]]. }
      split; [left; apply Gi; exact H1|]. intros i Hi Hg. apply Gi in Hg. apply (H4 i Hg Hi).
    + intros [H1 [H2 [H3 H4]]].
      assert (Hb : In b (g0 :: gs)).
      { destruct H3 as [H3|[_ H3]]; [apply Gi; exact H3|]. exfalso. apply (H3 g0). apply Gi. left. reflexivity. }
      split; [|lia]. split; [exact Hb|]. split.
      { destruct H2 as [->|[e [-> He]]]; [left; reflexivity|right; exists e; split; [reflexivity|apply Gi; exact He]]. }
      split; [lia|]. intros e He Hr. apply Gi in He. apply (H4 e Hr He).
Qed.

Lemma seg_bounds_ordered s0 ends : StronglySorted lt ends ->
  ForallOrdPairs (fun p q : nat * nat => (snd p < fst q)%nat) (combine (s0 :: map S ends) ends).
Proof.
  intros Hs. revert s0. induction Hs as [|e ends Hs IH Hf]; intros s0; cbn [map combine]; [constructor|].
  constructor; [|apply (IH (S e))]. apply Forall_forall. intros [a b] H. cbn [snd fst].
  rewrite Forall_forall in Hf. clear IH Hs.
  assert (G : forall s1, (e < s1)%nat -> forall es, (forall x, In x es -> e < x)%nat -> In (a, b) (combine (s1 :: map S es) es) -> (e < a)%nat).
  { intros s1 Hs1 es. revert s1 Hs1. induction es as [|x es IHe]; intros s1 Hs1 Hes Hin; [destruct Hin|].
    cbn [map combine In] in Hin. destruct Hin as [E|Hin]; [injection E as <- <-; exact Hs1|].
    apply (IHe (S x)); [specialize (Hes x (or_introl eq_refl)); lia|intros y Hy; apply Hes; right; exact Hy|exact Hin]. }
  apply (G (S e) ltac:(lia) ends Hf H).
Qed.

Lemma FOP_filter (A : Type) (R0 : A -> A -> Prop) p l : ForallOrdPairs R0 l -> ForallOrdPairs R0 (filter p l).
Proof.
  induction 1 as [|x l Hx Hl IH]; cbn; [constructor|]. destruct (p x); [|exact IH].
  constructor; [|exact IH]. rewrite Forall_forall in *. intros y Hy. apply filter_In in Hy. apply Hx. tauto.
Qed.

Lemma used_bounds_ordered n times sr :
  ForallOrdPairs (fun p q : nat * nat => (snd p < fst q)%nat) (used_bounds n (end_inds n times sr)).
Proof.
  apply FOP_filter. unfold seg_bounds. apply seg_bounds_ordered. unfold end_inds.
  assert (G1 : StronglySorted lt [n]) by (constructor; [constructor|constructor]).
  destruct times as [ts|]; [|exact G1].
  pose proof (filter_seq_sorted (fun i => if Rlt_dec (5 * sr) (nth i (np_diff ts) 0) then true else false) 0 (length (np_diff ts))) as G.
  fold (gap_inds ts sr) in G. destruct (gap_inds ts sr); assumption.
Qed.

Lemma cc_series_rows ub x : Forall (fun ab => (fst ab + 1000 <= snd ab <= length x)%nat) ub ->
  cc_series ub x = curvature_rows lp dw ub x.
Proof.
  intros H. unfold cc_series, curvature_rows. f_equal. apply map_ext_in. intros [a b] Hab.
  rewrite Forall_forall in H. specialize (H _ Hab). cbn [fst snd] in *. apply cc_process_rows. exact H.
Qed.

(** ** the curvature of quadratics *)
Lemma curvature_lin h d x y z i k : (forall j, nth j z 0 = nth j x 0 + k * nth j y 0) ->
  curvature h d z i = curvature h d x i + k * curvature h d y i.
Proof.
  intros H. unfold curvature. rewrite <- Rsum_scal, <- Rsum_plus. apply Rsum_ext. intros j Hj.
  rewrite (Rsum_ext 11 _ (fun u => Rsum 11 (fun v => d u * d v * nth (i + j + u + v) x 0) + k * Rsum 11 (fun v => d u * d v * nth (i + j + u + v) y 0))).
  - rewrite Rsum_plus, Rsum_scal. ring.
  - intros u Hu. rewrite <- Rsum_scal, <- Rsum_plus. apply Rsum_ext. intros v Hv. rewrite H. ring.
Qed.

Definition cf (h d F : nat -> R) (i : nat) : R :=
  Rsum 200 (fun j => h (199 - j)%nat * Rsum 11 (fun u => Rsum 11 (fun v => d u * d v * F (i + j + u + v)%nat))).

Lemma cf_ext h d F G i : (forall k, (i <= k <= i + 219)%nat -> F k = G k) -> cf h d F i = cf h d G i.
Proof.
  intros H. unfold cf. apply Rsum_ext. intros j Hj. f_equal. apply Rsum_ext. intros u Hu. apply Rsum_ext. intros v Hv. rewrite H by lia. reflexivity.
Qed.
Lemma cf_plus h d F G i : cf h d (fun k => F k + G k) i = cf h d F i + cf h d G i.
Proof.
  unfold cf. rewrite <- Rsum_plus. apply Rsum_ext. intros j Hj. rewrite <- Rmult_plus_distr_l. f_equal.
  rewrite <- Rsum_plus. apply Rsum_ext. intros u Hu. rewrite <- Rsum_plus. apply Rsum_ext. intros v Hv. ring.
Qed.
Lemma cf_scal h d c F i : cf h d (fun k => c * F k) i = c * cf h d F i.
Proof.
  unfold cf. rewrite <- Rsum_scal. apply Rsum_ext. intros j Hj.
  replace (c * (h (199 - j)%nat * Rsum 11 (fun u => Rsum 11 (fun v => d u * d v * F (i + j + u + v)%nat))))
    with (h (199 - j)%nat * (c * Rsum 11 (fun u => Rsum 11 (fun v => d u * d v * F (i + j + u + v)%nat)))) by ring. f_equal.
  rewrite <- Rsum_scal. apply Rsum_ext. intros u Hu. rewrite <- Rsum_scal. apply Rsum_ext. intros v Hv. ring.
Qed.

Lemma differentiates_quadratic d s0 s1 s2 m : differentiates d ->
  Rsum 11 (fun v => d v * (s0 + s1 * (m + INR v) + s2 * (m + INR v) ^ 2)) = s1 + 2 * s2 * (m + 5).
Proof.
  intros H. pose proof (H 0%nat ltac:(lia)) as H0. pose proof (H 1%nat ltac:(lia)) as H1. pose proof (H 2%nat ltac:(lia)) as H2.
  cbn [Nat.eqb] in *.
  rewrite (Rsum_ext 11 _ (fun v => (s0 + s1 * (m + 5) + s2 * (m + 5) ^ 2) * (d v * (INR v - 5) ^ 0)
      + ((s1 + 2 * s2 * (m + 5)) * (d v * (INR v - 5) ^ 1) + s2 * (d v * (INR v - 5) ^ 2)))) by (intros; ring).
  rewrite !Rsum_plus, !Rsum_scal, H0, H1, H2. ring.
Qed.

Lemma cf_quadratic h d s0 s1 s2 i : differentiates d -> Rsum 200 h = 1 ->
  cf h d (fun k => s0 + s1 * INR k + s2 * INR k ^ 2) i = 2 * s2.
Proof.
  intros Hd Hh. unfold cf. rewrite (Rsum_ext 200 _ (fun j => h (199 - j)%nat * (2 * s2))).
  - rewrite Rsum_scal_r. rewrite (Rsum_ext 200 _ (fun j => h (200 - 1 - j)%nat)) by (intros; f_equal; lia).
    rewrite <- Rsum_rev, Hh. ring.
  - intros j Hj. f_equal.
    rewrite (Rsum_ext 11 _ (fun u => d u * ((s1 + 2 * s2 * (INR (i + j) + 5)) + 2 * s2 * (0 + INR u) + 0 * (0 + INR u) ^ 2))).
    + rewrite differentiates_quadratic by exact Hd. ring.
    + intros u Hu. rewrite (Rsum_ext 11 _ (fun v => d u * (d v * (s0 + s1 * (INR (i + j + u) + INR v) + s2 * (INR (i + j + u) + INR v) ^ 2)))).
      * rewrite Rsum_scal, differentiates_quadratic by exact Hd. rewrite (plus_INR (i + j) u). ring.
      * intros v Hv. rewrite (plus_INR (i + j + u) v). ring.
Qed.

(** ** the table *)
Definition gap_opt (times : option (list R)) (sr : R) (i : nat) : Prop :=
  match times with Some ts => gap ts sr i | None => False end.

Lemma cc_table_rows faa vcc ve al ax lev times sr n df :
  length faa = n -> length vcc = n -> length ve = n -> length al = n -> length ax = n -> length lev = n ->
  (forall ts, times = Some ts -> length ts = n) ->
  cc_table faa vcc ve al ax lev times sr = Ok df ->
  exists bounds, bounds <> [] /\ ForallOrdPairs (fun p q : nat * nat => (snd p < fst q)%nat) bounds /\
    (forall a b, In (a, b) bounds <-> code_range n (gap_opt times sr) a b) /\
    d_ve df = curvature_rows lp dw bounds ve /\ d_vcc df = curvature_rows lp dw bounds vcc /\
    d_al df = curvature_rows lp dw bounds al /\ d_ax df = curvature_rows lp dw bounds ax /\
    d_lev df = curvature_rows lp dw bounds lev /\ d_g df = map Ropp (curvature_rows lp dw bounds faa).
Proof.
  intros Hf H1 H2 H3 H4 H5 Hn. unfold cc_table. rewrite Hf. set (ub := used_bounds n (end_inds n times sr)).
  pose proof (used_bounds_spec n times sr Hn) as Hs. fold ub in Hs.
  assert (HF : Forall (fun ab => (fst ab + 1000 <= snd ab <= n)%nat) ub).
  { apply Forall_forall. intros [a b] Hab. apply Hs in Hab. destruct Hab as [Hab _]. exact Hab. }
  assert (Hne : forall x : cc_df, match ub with [] => Raise ValueError | _ => Ok x end = Ok df -> ub <> [] /\ df = x).
  { intros x. destruct ub; [discriminate|]. intros E. split; [discriminate|congruence]. }
  intros H. apply Hne in H. destruct H as [Hub ->]. exists ub. split; [exact Hub|].
  split; [apply used_bounds_ordered|]. split; [exact Hs|]. cbn [d_ve d_vcc d_al d_ax d_lev d_g].
  rewrite !cc_series_rows by (rewrite ?H1, ?H2, ?H3, ?H4, ?H5, ?Hf; exact HF). repeat split; reflexivity.
Qed.

(** ** least squares *)
Lemma rss_nonneg X y b : 0 <= rss X y b.
Proof.
  unfold rss. rewrite pysum_Rsum. apply Rsum_nonneg. intros i Hi. rewrite map2_length in Hi.
  rewrite (map2_nth _ _ _ _ _ _ _ [] 0) by lia. apply pow2_ge_0.
Qed.

Lemma rss_zero X y b : length X = length y -> rss X y b = 0 ->
  forall i, (i < length X)%nat -> row_dot (nth i X []) b = nth i y 0.
Proof.
  intros HL H i Hi. unfold rss in H. rewrite pysum_Rsum in H.
  assert (Hn : forall j, (j < length (map2 (fun r v => (v - row_dot r b)%R ^ 2)%R X y))%nat -> 0 <= nth j (map2 (fun r v => (v - row_dot r b)%R ^ 2)%R X y) 0).
  { intros j Hj. rewrite map2_length in Hj. rewrite (map2_nth _ _ _ _ _ _ _ [] 0) by lia. apply pow2_ge_0. }
  assert (Hi' : (i < length (map2 (fun r v => (v - row_dot r b)%R ^ 2)%R X y))%nat) by (rewrite map2_length; lia).
  pose proof (Rsum_ge_term _ _ i Hi' Hn) as Hg. cbv beta in Hg. rewrite H in Hg.
  rewrite (map2_nth _ _ _ _ _ _ _ [] 0) in Hg by lia. set (z := nth i y 0 - row_dot (nth i X []) b) in *.
  assert (Hz : z = 0); [|unfold z in Hz; lra]. apply Rsqr_0_uniq. unfold Rsqr. assert (0 <= z ^ 2) by nra. lra.
Qed.

Lemma rss_exact X y b : length X = length y -> (forall i, (i < length X)%nat -> row_dot (nth i X []) b = nth i y 0) -> rss X y b = 0.
Proof.
  intros HL H. unfold rss. rewrite pysum_Rsum. apply Rsum_eq0. intros i Hi. rewrite map2_length in Hi.
  rewrite (map2_nth _ _ _ _ _ _ _ [] 0) by lia. rewrite H by lia. ring.
Qed.

Lemma concat_map_length_eq (A B C : Type) (f : A -> list B) (g : A -> list C) l :
  (forall a, In a l -> length (f a) = length (g a)) -> length (concat (map f l)) = length (concat (map g l)).
Proof.
  induction l as [|a l IH]; intros H; [reflexivity|]. cbn [map concat]. rewrite !app_length, (H a (or_introl eq_refl)), IH; [reflexivity|].
  intros x Hx. apply H. right. exact Hx.
Qed.

(** Rows of all series carry the same start index. *)
Definition row_starts (bounds : list (nat * nat)) : list nat :=
  concat (map (fun ab => map (fun r => fst ab + 1 + r)%nat (seq 0 (snd ab - fst ab - 420))) bounds).
Lemma curvature_rows_starts h d bounds x : curvature_rows h d bounds x = map (curvature h d x) (row_starts bounds).
Proof.
  unfold curvature_rows, row_starts. rewrite concat_map, map_map. f_equal. apply map_ext. intros [a b]. rewrite map_map. reflexivity.
Qed.
Lemma row_starts_range n g bounds i : (forall a b, In (a, b) bounds -> code_range n g a b) ->
  In i (row_starts bounds) -> (i + 219 < n)%nat.
Proof.
  intros H Hi. unfold row_starts in Hi. apply in_concat in Hi. destruct Hi as [l [Hl Hi]].
  apply in_map_iff in Hl. destruct Hl as [[a b] [<- Hab]]. apply in_map_iff in Hi. destruct Hi as [r [<- Hr]].
  apply in_seq in Hr. apply H in Hab. destruct Hab as [Hab _]. cbn [fst snd] in *. lia.
Qed.
