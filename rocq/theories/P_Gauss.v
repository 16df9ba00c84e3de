(** Properties C01-C04: gaussian_filter (shipgrav/utils.py 9-71). *)
From Coq Require Import List ZArith Reals Lia Lra.
From Verif Require Import M_Py S_Base L_Base M_Gauss S_Gauss L_Gauss.
Import ListNotations.
Open Scope R_scope.

(** C01: output i is the weighted sum of the last [win_len fl] samples; the call
    fails exactly when the series is not longer than fl. *)
Theorem C01_gaussian_filter_moving_sum : forall (x : list R) (fl : Z), (1 <= fl)%Z ->
  (gaussian_filter x fl = Raise AssertionError <-> (Z.of_nat (length x) <= fl)%Z) /\
  ((fl < Z.of_nat (length x))%Z -> exists out, gaussian_filter x fl = Ok out /\
     length out = length x /\
     forall i, (i < length x)%nat ->
       nth i out 0 = Rsum (win_len fl) (fun j =>
         weight fl (win_len fl - 1 - j) * sample x (Z.of_nat i - Z.of_nat j))).
Proof. exact gaussian_filter_spec. Qed.
Print Assumptions C01_gaussian_filter_moving_sum.

Example C01_case : (1 <= 2)%Z /\ (2 < Z.of_nat (length [1; 2; 3; 4]))%Z.
Proof. simpl; lia. Qed.

(** C01, remaining inputs: for fl <= 0 the call always raises. *)
Theorem C01_nonpositive_length_raises : forall (x : list R) (fl : Z), (fl < 1)%Z ->
  gaussian_filter x fl =
  if (fl =? 0)%Z then (match x with [] => Raise AssertionError | _ => Raise ZeroDivisionError end)
  else if (fl <? -2)%Z then Raise ValueError else Raise IndexError.
Proof. exact gaussian_filter_bad_fl. Qed.
Print Assumptions C01_nonpositive_length_raises.

Example C01_nonpositive_case : gaussian_filter [1; 2] 0 = Raise ZeroDivisionError.
Proof. apply C01_nonpositive_length_raises. lia. Qed.

(** C02: the window is normalised, symmetric, positive, of odd length, and every
    weight has the closed form [weight]. *)
Theorem C02_window_normalised_symmetric : forall fl, (1 <= fl)%Z ->
  exists w, gaussian_coeffs fl = Ok w /\
    Z.of_nat (length w) = (2 * (fl / 2) + 1)%Z /\
    Forall (fun c => 0 < c) w /\
    rev w = w /\
    Rsum (length w) (fun k => nth k w 0) = 1 /\
    forall k, (k < length w)%nat -> nth k w 0 = weight fl k.
Proof.
  intros fl H. exists (map (weight fl) (seq 0 (win_len fl))).
  assert (Hh : (0 <= fl / 2)%Z) by (apply Z.div_pos; lia).
  assert (Hn : forall k, (k < win_len fl)%nat ->
    nth k (map (weight fl) (seq 0 (win_len fl))) 0 = weight fl k)
    by (intros; apply nth_map_seq; assumption).
  rewrite map_length, seq_length.
  split; [apply gaussian_coeffs_closed; exact H|].
  split; [unfold win_len; lia|].
  split; [|split; [|split; [|exact Hn]]].
  - apply Forall_forall. intros c Hc. apply in_map_iff in Hc. destruct Hc as [k [<- _]].
    apply weight_pos; exact H.
  - apply list_eq_nth with (d := 0); [apply rev_length|].
    rewrite rev_length, map_length, seq_length. intros i Hi.
    rewrite rev_nth by (rewrite map_length, seq_length; exact Hi).
    rewrite map_length, seq_length, !Hn by lia.
    replace (win_len fl - S i)%nat with (win_len fl - 1 - i)%nat by lia.
    apply weight_sym; assumption.
  - rewrite (Rsum_ext _ _ (weight fl)) by exact Hn. apply weight_sum; exact H.
Qed.
Print Assumptions C02_window_normalised_symmetric.

Example C02_case : exists w, gaussian_coeffs 5 = Ok w /\ length w = 5%nat.
Proof.
  destruct (C02_window_normalised_symmetric 5 ltac:(lia)) as [w [H [L _]]].
  exists w. split; [exact H|]. change (2 * (5 / 2) + 1)%Z with 5%Z in L. lia.
Qed.

(** C03: "the centre weight is the largest" is false for every fl >= 2: both
    neighbours of the centre are strictly larger (and are the true maximum). *)
Theorem C03_window_peak_at_centre_refuted : forall fl, (2 <= fl)%Z ->
  exists w, gaussian_coeffs fl = Ok w /\
    let c := (length w / 2)%nat in
    length w = (2 * c + 1)%nat /\ (1 <= c)%nat /\
    nth c w 0 < nth (c + 1) w 0 /\ nth c w 0 < nth (c - 1) w 0 /\
    (forall k, (k < length w)%nat -> nth k w 0 <= nth (c + 1) w 0).
Proof.
  intros fl H.
  destruct (C02_window_normalised_symmetric fl ltac:(lia)) as [w [E [L [_ [_ [_ Hn]]]]]].
  exists w. split; [exact E|]. cbv zeta.
  assert (Hh : (1 <= fl / 2)%Z) by (apply Z.div_le_lower_bound; lia).
  assert (Lw : length w = win_len fl) by (unfold win_len; lia).
  assert (Hc : (length w / 2)%nat = win_mid fl).
  { rewrite Lw, win_len_mid by lia. symmetry. apply Nat.div_unique with (r := 1%nat); lia. }
  rewrite Hc. destruct (weight_centre_dips fl H) as [H1 [H2 H3]].
  assert (Hm1 : (1 <= win_mid fl)%nat) by (unfold win_mid; lia).
  split; [rewrite Lw; apply win_len_mid; lia|]. split; [exact Hm1|].
  rewrite !Hn by lia. split; [exact H1|]. split; [exact H2|].
  intros k Hk. rewrite Hn by exact Hk. apply weight_peak_next; lia.
Qed.
Print Assumptions C03_window_peak_at_centre_refuted.

Example C03_case : exists w, gaussian_coeffs 10 = Ok w /\ nth 5 w 0 < nth 6 w 0.
Proof.
  destruct (C03_window_peak_at_centre_refuted 10 ltac:(lia)) as [w [E [L [Hc [H _]]]]].
  exists w. split; [exact E|].
  destruct (C02_window_normalised_symmetric 10 ltac:(lia)) as [w' [E' [L' _]]].
  rewrite E in E'. injection E' as <-. change (2 * (10 / 2) + 1)%Z with 11%Z in L'.
  replace (length w) with 11%nat in * by lia. exact H.
Qed.

(** C04: linear in x. *)
Theorem C04_linear : forall x y fl a b ox oy, length x = length y ->
  gaussian_filter x fl = Ok ox -> gaussian_filter y fl = Ok oy ->
  gaussian_filter (map2 (fun u v => a * u + b * v) x y) fl
  = Ok (map2 (fun u v => a * u + b * v) ox oy).
Proof.
  intros x y fl a b ox oy Hl Hx Hy.
  apply gaussian_filter_ok_inv in Hx. apply gaussian_filter_ok_inv in Hy.
  destruct Hx as [Hfl [Hlx [Lx Nx]]], Hy as [_ [Hly [Ly Ny]]].
  destruct (gaussian_filter_spec (map2 (fun u v => a * u + b * v) x y) fl Hfl) as [_ H].
  rewrite map2_length in H. destruct (H ltac:(lia)) as [o [E [L N]]].
  rewrite E. f_equal. apply list_eq_nth with (d := 0).
  - rewrite map2_length. lia.
  - intros i Hi. rewrite map2_nth with (d1 := 0) (d2 := 0) by lia.
    rewrite N, Nx, Ny by lia. apply moving_linear. exact Hl.
Qed.
Print Assumptions C04_linear.

(** C04: a constant series is returned unchanged once the window is full. *)
Theorem C04_constant : forall c n fl out, gaussian_filter (repeat c n) fl = Ok out ->
  forall i, (2 * Z.to_nat (fl / 2) <= i < n)%nat -> nth i out 0 = c.
Proof.
  intros c n fl out H i Hi. apply gaussian_filter_ok_inv in H.
  destruct H as [Hfl [Hl [L N]]]. rewrite repeat_length in *. rewrite N by lia.
  apply moving_const; [exact Hfl| |lia]. rewrite win_len_mid by exact Hfl.
  unfold win_mid. lia.
Qed.
Print Assumptions C04_constant.

(** C04: no overshoot. *)
Theorem C04_bounds : forall x fl out lo hi, gaussian_filter x fl = Ok out ->
  lo <= 0 <= hi -> (forall v, In v x -> lo <= v <= hi) ->
  forall v, In v out -> lo <= v <= hi.
Proof.
  intros x fl out lo hi H Hz Hb v Hv. apply gaussian_filter_ok_inv in H.
  destruct H as [Hfl [Hl [L N]]]. destruct (In_nth _ _ 0 Hv) as [i [Hi <-]].
  rewrite N by lia. apply moving_bounds; assumption.
Qed.
Print Assumptions C04_bounds.

Example C04_case : exists out, gaussian_filter [1; 2; 3; 4] 2 = Ok out.
Proof.
  destruct (C01_gaussian_filter_moving_sum [1;2;3;4] 2 ltac:(lia)) as [_ H].
  destruct H as [o [E _]]; [simpl; lia|]. exists o; exact E.
Qed.

Example C04_constant_case : exists out, gaussian_filter (repeat 7 4) 2 = Ok out /\ nth 3 out 0 = 7.
Proof.
  destruct (C01_gaussian_filter_moving_sum (repeat 7 4) 2 ltac:(lia)) as [_ H].
  destruct H as [o [E _]]; [simpl; lia|]. exists o. split; [exact E|].
  apply (C04_constant 7 4 2 o E). change (2 / 2)%Z with 1%Z. simpl. lia.
Qed.
