(** Properties C41-C45 and C74: gravity of topography and of a layer. *)
From Coq Require Import List Reals Arith Lia Lra Bool.
From Verif Require Import M_Py M_Fft M_Four S_Base S_Four L_Base L_Np L_Fft L_Four.
Import ListNotations.
Open Scope R_scope.

(** C42: for profiles with an even number of points the anomaly is Parker's series over the
    end-padded profile, with the true wavenumber in every bin. *)
Theorem C42_parker_series : forall x0 xs topo zlev rho n,
  length (x0 :: xs) = n -> length topo = n -> (2 <= n)%nat -> Nat.even n = true -> last (x0 :: xs) 0 <> x0 ->
  exists anom, grav1d_padded (x0 :: xs) topo zlev rho = Ok anom /\ length anom = n /\
  forall j, (j < n)%nat -> nth j anom 0 =
    mgal * (2 * PI * G_SI * rho) *
    parker1 (5 * n) (wavenumber (5 * n) ((last (x0 :: xs) 0 - x0) / (INR n - 1))) (edge_extended topo) 5
      (zlev - Rsum n (fun i => nth i topo 0) / INR n) (2 * n + j).
Proof.
  intros x0 xs topo zlev rho n Hx Ht Hn He Hl.
  destruct (grav1d_formula x0 xs topo zlev rho n Hx Ht Hn Hl) as [anom [E1 [E2 E3]]].
  exists anom. split; [exact E1|]. split; [exact E2|]. intros j Hj. rewrite (E3 j Hj). f_equal.
  assert (Em : np_mean topo = Rsum n (fun i => nth i topo 0) / INR n) by (unfold np_mean; rewrite pysum_Rsum, Ht; reflexivity).
  rewrite Em. unfold parker1. f_equal. apply Rsum_ext. intros m Hm. cbv zeta.
  assert (H5 : Nat.even (5 * n) = true) by (rewrite Nat.even_mul, He; reflexivity).
  rewrite codebin_even by (exact H5 || lia). reflexivity.
Qed.
Print Assumptions C42_parker_series.

(** For every parity, which wavenumber each bin gets. *)
Theorem C42_bin_wavenumbers : forall N dx m, (m < N)%nat -> dx <> 0 ->
  nth m (kwn1d N dx) 0 =
  if Nat.even N then wavenumber N dx m
  else 2 * PI * INR (if (2 * m <=? N + 1)%nat then m else N + 1 - m) / (INR N * Rabs dx).
Proof.
  intros N dx m Hm Hd. rewrite nth_kwn1d by assumption. unfold wavenumber. destruct (Nat.even N) eqn:E.
  - rewrite codebin_even by assumption. reflexivity.
  - rewrite codebin_odd by (assumption || (rewrite <- Nat.negb_even, E; reflexivity)). reflexivity.
Qed.
Print Assumptions C42_bin_wavenumbers.

Lemma parker1_spike N kw h P j : (j < N)%nat -> (1 <= N)%nat -> (forall l, (l < N)%nat -> l <> j -> h l = 0) -> 
  parker1 N kw h P 0 j = / INR N * Rsum (N - 1) (fun m => parker_poly P (kw (S m)) (h j)).
Proof.
  intros Hj HN Hz. unfold parker1. f_equal. apply Rsum_ext. intros m Hm. cbv zeta.
  rewrite (Rsum_single N j).
  2: exact Hj.
  2:{ intros l Hl1 Hl2. rewrite (Hz l) by assumption. unfold parker_poly.
      rewrite (Rsum_eq0 P); [ring|]. intros p Hp. rewrite pow_i by lia. ring. }
  replace (- 0 * kw (S m)) with 0 by ring. rewrite exp_0.
  replace (2 * PI * INR (S m) * (INR j - INR j) / INR N) with 0 by (unfold Rdiv; ring). rewrite cos_0. ring.
Qed.

Lemma parker_poly_5_1 k : parker_poly 5 k 1 = 1 + k / 2 + k ^ 2 / 6 + k ^ 3 / 24 + k ^ 4 / 120.
Proof. unfold parker_poly. cbn [Rsum Nat.add fact Nat.mul]. rewrite !pow1. cbn. field. Qed.

(** Three points, spike of 1 m in the middle: the anomaly above it is not Parker's. *)
Theorem C42_odd_profile_refuted : exists x0 xs topo zlev rho n anom,
  length (x0 :: xs) = n /\ length topo = n /\ (2 <= n)%nat /\ last (x0 :: xs) 0 <> x0 /\
  grav1d_padded (x0 :: xs) topo zlev rho = Ok anom /\
  exists j, (j < n)%nat /\ nth j anom 0 <>
    mgal * (2 * PI * G_SI * rho) *
    parker1 (5 * n) (wavenumber (5 * n) ((last (x0 :: xs) 0 - x0) / (INR n - 1))) (edge_extended topo) 5
      (zlev - Rsum n (fun i => nth i topo 0) / INR n) (2 * n + j).
Proof.
  destruct (grav1d_formula 0 [1; 2] [0; 1; 0] (1 / 3) 1 3 eq_refl eq_refl ltac:(lia) ltac:(cbn; lra)) as [anom [E1 [E2 E3]]].
  exists 0, [1; 2], [0; 1; 0], (1 / 3), 1, 3%nat, anom.
  split; [reflexivity|]. split; [reflexivity|]. split; [lia|]. split; [cbn; lra|]. split; [exact E1|].
  exists 1%nat. split; [lia|]. rewrite (E3 1%nat) by lia.
  replace (np_mean [0; 1; 0]) with (1 / 3) by (unfold np_mean, pysum; cbn; field).
  replace (Rsum 3 (fun i => nth i [0; 1; 0] 0) / INR 3) with (1 / 3) by (cbn; field).
  replace (1 / 3 - 1 / 3) with 0 by ring.
  assert (Z : forall l, (l < 5 * 3)%nat -> l <> (2 * 3 + 1)%nat -> edge_extended [0; 1; 0] l = 0).
  { intros l Hl Hn. cbn in Hl, Hn. do 15 (destruct l as [|l]; [unfold edge_extended; cbn; lra || lia|]). lia. }
  rewrite !parker1_spike by (lia || exact Z).
  change (edge_extended [0; 1; 0] (2 * 3 + 1)) with 1.
  replace ((last [0; 1; 2] 0 - 0) / (INR 3 - 1)) with 1 by (cbn; field). rewrite !Rabs_R1.
  set (q := fun i => parker_poly 5 (2 * PI * INR i / (INR (5 * 3) * 1)) 1).
  assert (L : Rsum (5 * 3 - 1) (fun m => parker_poly 5 (2 * PI * INR (codebin (5 * 3) (S m)) / (INR (5 * 3) * 1)) 1) =
    q 1%nat + q 2%nat + q 3%nat + q 4%nat + q 5%nat + q 6%nat + q 7%nat + q 8%nat + q 7%nat + q 6%nat + q 5%nat + q 4%nat + q 3%nat + q 2%nat).
  { change (Rsum (5 * 3 - 1) (fun m => q (codebin (5 * 3) (S m))) = q 1%nat + q 2%nat + q 3%nat + q 4%nat + q 5%nat + q 6%nat + q 7%nat + q 8%nat + q 7%nat + q 6%nat + q 5%nat + q 4%nat + q 3%nat + q 2%nat).
    clearbody q. change (5 * 3 - 1)%nat with 14%nat. change (5 * 3)%nat with 15%nat. cbn [Rsum].
    change (codebin 15 1) with 1%nat; change (codebin 15 2) with 2%nat; change (codebin 15 3) with 3%nat; change (codebin 15 4) with 4%nat;
    change (codebin 15 5) with 5%nat; change (codebin 15 6) with 6%nat; change (codebin 15 7) with 7%nat; change (codebin 15 8) with 8%nat;
    change (codebin 15 9) with 7%nat; change (codebin 15 10) with 6%nat; change (codebin 15 11) with 5%nat; change (codebin 15 12) with 4%nat;
    change (codebin 15 13) with 3%nat; change (codebin 15 14) with 2%nat. ring. }
  assert (Rr : Rsum (5 * 3 - 1) (fun m => parker_poly 5 (wavenumber (5 * 3) 1 (S m)) 1) =
    q 1%nat + q 2%nat + q 3%nat + q 4%nat + q 5%nat + q 6%nat + q 7%nat + q 7%nat + q 6%nat + q 5%nat + q 4%nat + q 3%nat + q 2%nat + q 1%nat).
  { rewrite (Rsum_ext _ _ (fun m => q (Nat.min (S m) (15 - S m)))).
    2:{ intros m _. unfold q, wavenumber. rewrite Rabs_R1. reflexivity. }
    clearbody q. change (5 * 3 - 1)%nat with 14%nat. cbn [Rsum Nat.min Nat.sub]. ring. }
  rewrite L, Rr.
  assert (Q : q 1%nat < q 8%nat).
  { unfold q. pose proof PI_RGT_0 as Hp. rewrite !parker_poly_5_1.
    set (u := 2 * PI * INR 1 / (INR (5 * 3) * 1)). assert (Hu : 0 < u) by (unfold u; cbn; lra).
    replace (2 * PI * INR 8 / (INR (5 * 3) * 1)) with (8 * u) by (unfold u; cbn; field).
    pose proof (pow_lt u 2 Hu). pose proof (pow_lt u 3 Hu). pose proof (pow_lt u 4 Hu).
    rewrite !Rpow_mult_distr. lra. }
  intros E. apply Rmult_eq_reg_l in E; [|unfold mgal, G_SI; pose proof PI_RGT_0; assert (0 < 1e5 * (2 * PI * 6.673e-11 * 1)) by lra; lra].
  apply Rmult_eq_reg_l in E; [lra|]. apply Rinv_neq_0_compat. apply not_0_INR. discriminate.
Qed.
Print Assumptions C42_odd_profile_refuted.

Example C42_case : wavenumber 10 1 3 = 2 * PI * 3 / 10 /\ wavenumber 10 1 7 = wavenumber 10 1 3.
Proof. split; unfold wavenumber; cbn [Nat.min Nat.sub]; rewrite Rabs_R1; cbn; field. Qed.

(** C41 *)
Lemma cos_neg_sum N m p : (0 < m < N)%nat -> Rsum N (fun l => cos (2 * PI * INR m * (p - INR l) / INR N)) = 0.
Proof.
  intros H. rewrite <- (cos_sum_zero N m (- (2 * PI * INR m * p / INR N)) H). apply Rsum_ext. intros l _.
  rewrite <- cos_neg. f_equal. assert (INR N <> 0) by (apply not_0_INR; lia). field. assumption.
Qed.

Theorem C41_flat_profile : forall x0 xs h zlev rho n,
  length (x0 :: xs) = n -> (2 <= n)%nat -> last (x0 :: xs) 0 <> x0 ->
  grav1d_padded (x0 :: xs) (repeat h n) zlev rho = Ok (repeat 0 n).
Proof.
  intros x0 xs h zlev rho n Hx Hn Hl.
  destruct (grav1d_formula x0 xs (repeat h n) zlev rho n Hx (repeat_length h n) Hn Hl) as [anom [E1 [E2 E3]]].
  rewrite E1. f_equal. apply (list_eq_nth _ _ _ 0); [rewrite E2, repeat_length; reflexivity|].
  intros j Hj. rewrite E2 in Hj. rewrite nth_repeat_lt by exact Hj. rewrite (E3 j Hj).
  assert (Z : forall l, (l < 5 * n)%nat -> edge_extended (repeat h n) l = h).
  { intros l Hl'. unfold edge_extended. rewrite repeat_length.
    destruct (Nat.ltb_spec l (2 * n)); [apply nth_repeat_lt; lia|]. destruct (Nat.ltb_spec l (3 * n)); apply nth_repeat_lt; lia. }
  unfold parker1. rewrite Rsum_eq0; [ring|]. intros m Hm. cbv zeta.
  rewrite (Rsum_ext (5 * n) _ (fun l => exp (- (zlev - np_mean (repeat h n)) * (2 * PI * INR (codebin (5 * n) (S m)) / (INR (5 * n) * Rabs ((last (x0 :: xs) 0 - x0) / (INR n - 1))))) *
     parker_poly 5 (2 * PI * INR (codebin (5 * n) (S m)) / (INR (5 * n) * Rabs ((last (x0 :: xs) 0 - x0) / (INR n - 1)))) h *
     cos (2 * PI * INR (S m) * (INR (2 * n + j) - INR l) / INR (5 * n)))).
  - rewrite Rsum_scal, cos_neg_sum by lia. ring.
  - intros l Hl'. rewrite Z by exact Hl'. reflexivity.
Qed.
Print Assumptions C41_flat_profile.

Theorem C41_proportional_to_contrast : forall x0 xs topo zlev rho c n,
  length (x0 :: xs) = n -> length topo = n -> (2 <= n)%nat -> last (x0 :: xs) 0 <> x0 ->
  exists anom, grav1d_padded (x0 :: xs) topo zlev rho = Ok anom /\ length anom = n /\
    grav1d_padded (x0 :: xs) topo zlev (c * rho) = Ok (map (Rmult c) anom).
Proof.
  intros x0 xs topo zlev rho c n Hx Ht Hn Hl.
  destruct (grav1d_formula x0 xs topo zlev rho n Hx Ht Hn Hl) as [anom [E1 [E2 E3]]].
  destruct (grav1d_formula x0 xs topo zlev (c * rho) n Hx Ht Hn Hl) as [anom' [F1 [F2 F3]]].
  exists anom. split; [exact E1|]. split; [exact E2|]. rewrite F1. f_equal.
  apply (list_eq_nth _ _ _ 0); [rewrite map_length; lia|]. intros j Hj. rewrite F2 in Hj.
  rewrite (nth_map _ _ (Rmult c) anom j 0 0) by lia. rewrite F3, E3 by exact Hj. ring.
Qed.
Print Assumptions C41_proportional_to_contrast.

Theorem C41_empty_profile_raises : forall xtopo topo zlev rho, xtopo = [] \/ topo = [] ->
  grav1d_padded xtopo topo zlev rho = Raise IndexError.
Proof. intros [|x xs] [|t ts] zlev rho [H|H]; try discriminate; reflexivity. Qed.
Print Assumptions C41_empty_profile_raises.

Example C41_case : grav1d_padded [0; 1; 2] [5; 5; 5] 10 1000 = Ok [0; 0; 0].
Proof. apply (C41_flat_profile 0 [1; 2] 5 10 1000 3); [reflexivity|lia|cbn; lra]. Qed.

(** C74: the choice of height datum matters: raising the topography and the observation level
    together by 1 m changes the anomaly. *)
Theorem C74_datum_independent_refuted : exists x0 xs topo zlev rho c a a',
  grav1d_padded (x0 :: xs) topo zlev rho = Ok a /\
  grav1d_padded (x0 :: xs) (map (Rplus c) topo) (c + zlev) rho = Ok a' /\ a <> a'.
Proof.
  destruct (grav1d_formula 0 [1; 2; 3] [0; 1; 0; 0] (1 / 4) 1 4 eq_refl eq_refl ltac:(lia) ltac:(cbn; lra)) as [a [E1 [E2 E3]]].
  destruct (grav1d_formula 0 [1; 2; 3] [1; 2; 1; 1] (5 / 4) 1 4 eq_refl eq_refl ltac:(lia) ltac:(cbn; lra)) as [a' [F1 [F2 F3]]].
  exists 0, [1; 2; 3], [0; 1; 0; 0], (1 / 4), 1, 1, a, a'. split; [exact E1|]. split.
  { cbn [map]. replace (1 + 0) with 1 by ring. replace (1 + 1) with 2 by ring. replace (1 + 1 / 4) with (5 / 4) by field. exact F1. }
  intros E. assert (H : nth 1 a 0 = nth 1 a' 0) by (rewrite E; reflexivity). rewrite E3, F3 in H by lia.
  replace (np_mean [0; 1; 0; 0]) with (1 / 4) in H by (unfold np_mean, pysum; cbn; field).
  replace (np_mean [1; 2; 1; 1]) with (5 / 4) in H by (unfold np_mean, pysum; cbn; field).
  replace (1 / 4 - 1 / 4) with 0 in H by ring. replace (5 / 4 - 5 / 4) with 0 in H by ring.
  replace ((last [0; 1; 2; 3] 0 - 0) / (INR 4 - 1)) with 1 in H by (cbn; field). rewrite Rabs_R1 in H.
  apply Rmult_eq_reg_l in H; [|unfold mgal, G_SI; pose proof PI_RGT_0; assert (0 < 1e5 * (2 * PI * 6.673e-11 * 1)) by lra; lra].
  set (kw := fun m => 2 * PI * INR (codebin (5 * 4) m) / (INR (5 * 4) * 1)) in *.
  rewrite parker1_spike in H; [|cbn; lia|lia|].
  2:{ intros l Hl Hn. cbn in Hl, Hn. do 20 (destruct l as [|l]; [unfold edge_extended; cbn; lra || lia|]). lia. }
  change (edge_extended [0; 1; 0; 0] (2 * 4 + 1)) with 1 in H.
  assert (H' : parker1 (5 * 4) kw (edge_extended [1; 2; 1; 1]) 5 0 (2 * 4 + 1) =
    / INR (5 * 4) * Rsum (5 * 4 - 1) (fun m => parker_poly 5 (kw (S m)) 2 - parker_poly 5 (kw (S m)) 1)).
  { unfold parker1. f_equal. apply Rsum_ext. intros m Hm. cbv zeta.
    rewrite (Rsum_ext (5 * 4) _ (fun l => (if (l =? 9)%nat then parker_poly 5 (kw (S m)) 2 - parker_poly 5 (kw (S m)) 1 else 0) * cos (2 * PI * INR (S m) * (INR (2 * 4 + 1) - INR l) / INR (5 * 4))
       + parker_poly 5 (kw (S m)) 1 * cos (2 * PI * INR (S m) * (INR (2 * 4 + 1) - INR l) / INR (5 * 4)))).
    - rewrite Rsum_plus, Rsum_scal, cos_neg_sum by lia. rewrite (Rsum_single (5 * 4) 9).
      + cbn [Nat.eqb]. replace (2 * PI * INR (S m) * (INR (2 * 4 + 1) - INR 9) / INR (5 * 4)) with 0 by (change (2 * 4 + 1)%nat with 9%nat; unfold Rdiv; ring).
        rewrite cos_0. ring.
      + cbn; lia.
      + intros l _ Hn. rewrite (proj2 (Nat.eqb_neq l 9)) by exact Hn. ring.
    - intros l Hl. replace (- 0 * kw (S m)) with 0 by ring. rewrite exp_0.
      assert (Eh : edge_extended [1; 2; 1; 1] l = if (l =? 9)%nat then 2 else 1).
      { cbn in Hl. do 20 (destruct l as [|l]; [reflexivity|]). lia. }
      rewrite Eh. destruct (l =? 9)%nat; ring. }
  rewrite H' in H. apply Rmult_eq_reg_l in H; [|apply Rinv_neq_0_compat, not_0_INR; discriminate].
  assert (P2 : forall k, 0 < k -> 0 < parker_poly 5 k 2 - parker_poly 5 k 1 - parker_poly 5 k 1).
  { intros k Hk. unfold parker_poly. cbn [Rsum Nat.add fact Nat.mul]. rewrite !pow1. cbn [INR pow].
    pose proof (pow_lt k 2 Hk). pose proof (pow_lt k 3 Hk). pose proof (pow_lt k 4 Hk). cbn [pow] in *. lra. }
  assert (S0 : 0 < Rsum (5 * 4 - 1) (fun m => parker_poly 5 (kw (S m)) 2 - parker_poly 5 (kw (S m)) 1 - parker_poly 5 (kw (S m)) 1)).
  { apply Rsum_pos; [cbn; lia|]. intros m Hm. apply P2. unfold kw. rewrite codebin_even by (reflexivity || lia).
    pose proof PI_RGT_0. apply Rdiv_lt_0_compat; [apply Rmult_lt_0_compat; [lra|apply lt_0_INR; lia]|].
    rewrite Rmult_1_r. apply lt_0_INR. lia. }
  rewrite Rsum_minus in S0. rewrite <- H in S0. lra.
Qed.
Print Assumptions C74_datum_independent_refuted.

Example C74_case : grav1d_padded [0; 1] [7; 7] 3 1 = grav1d_padded [0; 1] [8; 8] 4 1.
Proof.
  change [7; 7] with (repeat 7 2). change [8; 8] with (repeat 8 2).
  rewrite (C41_flat_profile 0 [1] 7 3 1 2), (C41_flat_profile 0 [1] 8 4 1 2); try reflexivity; try lia; cbn; lra.
Qed.

(** ** Grids *)
Definition G_cgs : R := 6.673e-8.

Lemma forallb_grid (Z : list (list R)) M N : grid M N Z -> forallb (fun r => (length r =? N)%nat) Z = true.
Proof. intros [_ H]. apply forallb_forall. intros r Hr. apply Nat.eqb_eq. apply H. exact Hr. Qed.

Lemma concat_cons (Z : list (list R)) M N : grid M N Z -> (1 <= M)%nat -> (1 <= N)%nat -> exists a l, concat Z = a :: l.
Proof.
  intros H HM HN. pose proof (concat_length_grid M N Z H) as L. destruct (concat Z) as [|a l]; [cbn in L; nia|]. exists a, l. reflexivity.
Qed.

Lemma nth_firstn_rows (g : list (list Cx)) M N m n i j : grid M N g -> (m <= M)%nat -> (n <= N)%nat -> (i < m)%nat -> (j < n)%nat ->
  cell (map (fun r => map fst (firstn n r)) (firstn m g)) i j = fst (get2 C0 g i j).
Proof.
  intros [H1 H2] Hm Hn Hi Hj. unfold cell, get2. rewrite (nth_map _ _ _ _ i [] []) by (rewrite firstn_length; lia).
  rewrite nth_firstn by exact Hi. assert (L : length (nth i g []) = N) by (apply H2, nth_In; lia).
  rewrite (nth_map _ _ fst _ j 0 C0) by (rewrite firstn_length; unfold Cx in *; lia). rewrite nth_firstn by exact Hj. reflexivity.
Qed.

Lemma grid_firstn (g : list (list Cx)) M N m n : grid M N g -> (m <= M)%nat -> (n <= N)%nat ->
  grid m n (map (fun r => map fst (firstn n r)) (firstn m g)).
Proof.
  intros [H1 H2] Hm Hn. split; [rewrite map_length, firstn_length; lia|]. intros r Hr. apply in_map_iff in Hr. destruct Hr as [r' [<- Hr]].
  rewrite map_length, firstn_length. assert (L : length r' = N) by (apply H2; rewrite <- (firstn_skipn m g); apply in_app_iff; left; exact Hr).
  unfold Cx in *. lia.
Qed.

(** C43: with folding, for every grid. *)
Theorem C43_folded : forall X Y Z dx dy drho dz npower nx ny,
  length X = nx -> length Y = ny -> (1 <= nx)%nat -> (1 <= ny)%nat -> grid ny nx Z -> dx <> 0 -> dy <> 0 ->
  exists g, grav2d_folding X Y Z dx dy drho dz true npower = Ok g /\ grid ny nx g /\
  forall i j, (i < ny)%nat -> (j < nx)%nat -> cell g i j =
    synthesis2 (2 * ny) (2 * nx) (wavenumber2 (2 * ny) (2 * nx) (1e5 * dy) (1e5 * dx))
      (fun i' j' => 100 * (grid_mean ny nx Z - cell Z (mirror ny i') (mirror nx j')))
      (fun k h => 2 * PI * G_cgs * 1000 * drho * exp (- (100 * (grid_mean ny nx Z + dz)) * k) * parker_poly (Nat.max 1 npower) k h) i j.
Proof.
  intros X Y Z dx dy drho dz npower nx ny LX LY Hx Hy HZ Dx Dy.
  unfold grav2d_folding. destruct (concat_cons Z ny nx HZ Hy Hx) as [z0 [zs Ec]]. rewrite Ec. cbv zeta. rewrite <- Ec. rewrite LX, LY.
  rewrite (np_mean_grid ny nx Z HZ). set (mu := grid_mean ny nx Z).
  replace (nx * 2)%nat with (2 * nx)%nat by lia. replace (ny * 2)%nat with (2 * ny)%nat by lia.
  destruct (kwn2d_even (2 * nx) (2 * ny) (100000 * dx) (100000 * dy)) as [k [Ek [Gk Hk]]];
    [rewrite Nat.even_mul; reflexivity|rewrite Nat.even_mul; reflexivity|lia|lia|lra|lra|].
  rewrite Ek. cbn [bind]. destruct (HZ) as [HZ1 HZ2]. rewrite HZ1, Nat.eqb_refl. cbn [negb]. rewrite (forallb_grid Z ny nx HZ). cbn [negb].
  set (Zs := map (map (fun z => 100 * (mu - z))) Z). assert (GZs : grid ny nx Zs) by (apply grid_map_map; exact HZ).
  set (Zf := fold_grid Zs). assert (GZf : grid (2 * ny) (2 * nx) Zf) by (apply fold_grid_grid; exact GZs).
  eexists. split; [reflexivity|]. split; [eapply grid_firstn; [apply ifft2_grid|lia|lia]|].
  intros i j Hi Hj. rewrite (nth_firstn_rows _ (2 * ny) (2 * nx)) by (lia || apply ifft2_grid).
  rewrite (fold_core (2 * ny) (2 * nx) Zf k (100000 * dx) (100000 * dy)) by (assumption || lia || lra).
  replace 1e5 with 100000 by lra. unfold synthesis2. f_equal. apply Rsum_ext. intros a Ha. apply Rsum_ext. intros b Hb.
  apply Rsum_ext. intros i' Hi'. apply Rsum_ext. intros j' Hj'. f_equal. destruct (a + b =? 0)%nat; [reflexivity|].
  assert (Mi : (mirror ny i' < ny)%nat) by (unfold mirror; destruct (Nat.ltb_spec i' ny); lia).
  assert (Mj : (mirror nx j' < nx)%nat) by (unfold mirror; destruct (Nat.ltb_spec j' nx); lia).
  unfold Zf. rewrite (get2_fold ny nx Zs i' j' GZs Hi' Hj'). unfold Zs. rewrite (get2_nth_map _ Z ny nx _ _ 0 0 HZ Mi Mj).
  change (get2 0 Z (mirror ny i') (mirror nx j')) with (cell Z (mirror ny i') (mirror nx j')).
  f_equal. unfold G_cgs. f_equal. f_equal. ring.
Qed.
Print Assumptions C43_folded.

(** Without folding, grids of even size. *)
Theorem C43_unfolded_even : forall X Y Z dx dy drho dz npower nx ny,
  length X = nx -> length Y = ny -> (1 <= nx)%nat -> (1 <= ny)%nat -> Nat.even nx = true -> Nat.even ny = true -> grid ny nx Z -> dx <> 0 -> dy <> 0 ->
  exists g, grav2d_folding X Y Z dx dy drho dz false npower = Ok g /\ grid ny nx g /\
  forall i j, (i < ny)%nat -> (j < nx)%nat -> cell g i j =
    synthesis2 ny nx (wavenumber2 ny nx (1e5 * dy) (1e5 * dx))
      (fun i' j' => 100 * (grid_mean ny nx Z - cell Z i' j'))
      (fun k h => 2 * PI * G_cgs * 1000 * drho * exp (- (100 * (grid_mean ny nx Z + dz)) * k) * parker_poly (Nat.max 1 npower) k h) i j.
Proof.
  intros X Y Z dx dy drho dz npower nx ny LX LY Hx Hy Ex Ey HZ Dx Dy.
  unfold grav2d_folding. destruct (concat_cons Z ny nx HZ Hy Hx) as [z0 [zs Ec]]. rewrite Ec. cbv zeta. rewrite <- Ec. rewrite LX, LY.
  rewrite (np_mean_grid ny nx Z HZ). set (mu := grid_mean ny nx Z).
  destruct (kwn2d_even nx ny (100000 * dx) (100000 * dy)) as [k [Ek [Gk Hk]]]; [assumption|assumption|lia|lia|lra|lra|].
  rewrite Ek. cbn [bind]. destruct (HZ) as [HZ1 HZ2]. rewrite HZ1, Nat.eqb_refl. cbn [negb]. rewrite (forallb_grid Z ny nx HZ). cbn [negb].
  set (Zs := map (map (fun z => 100 * (mu - z))) Z). assert (GZs : grid ny nx Zs) by (apply grid_map_map; exact HZ).
  eexists. split; [reflexivity|]. split; [eapply grid_firstn; [apply ifft2_grid|lia|lia]|].
  intros i j Hi Hj. rewrite (nth_firstn_rows _ ny nx) by (lia || apply ifft2_grid).
  rewrite (fold_core ny nx Zs k (100000 * dx) (100000 * dy)) by (assumption || lia || lra).
  replace 1e5 with 100000 by lra. unfold synthesis2. f_equal. apply Rsum_ext. intros a Ha. apply Rsum_ext. intros b Hb.
  apply Rsum_ext. intros i' Hi'. apply Rsum_ext. intros j' Hj'. f_equal. destruct (a + b =? 0)%nat; [reflexivity|].
  unfold Zs. rewrite (get2_nth_map _ Z ny nx _ _ 0 0 HZ Hi' Hj').
  change (get2 0 Z i' j') with (cell Z i' j'). f_equal. unfold G_cgs. f_equal. f_equal. ring.
Qed.
Print Assumptions C43_unfolded_even.

(** Without folding, an odd number (3 or more) of columns or rows raises. *)
Theorem C43_unfolded_odd_raises : forall X Y Z dx dy drho dz npower nx ny,
  length X = nx -> length Y = ny -> (1 <= nx)%nat -> (1 <= ny)%nat -> grid ny nx Z ->
  (Nat.odd nx = true -> (3 <= nx)%nat -> grav2d_folding X Y Z dx dy drho dz false npower = Raise ValueError) /\
  (Nat.even nx = true -> Nat.odd ny = true -> (3 <= ny)%nat -> grav2d_folding X Y Z dx dy drho dz false npower = Raise IndexError).
Proof.
  intros X Y Z dx dy drho dz npower nx ny LX LY Hx Hy HZ.
  unfold grav2d_folding. destruct (concat_cons Z ny nx HZ Hy Hx) as [z0 [zs Ec]]. rewrite Ec. cbv zeta. rewrite <- Ec. rewrite LX, LY. split.
  - intros Ho Hn. apply Nat.odd_spec in Ho. destruct Ho as [q Eq]. unfold kwn2d. rewrite Eq, axis_k2_length_odd.
    destruct (Nat.eqb_spec q 0) as [->|_]; [lia|]. rewrite (proj2 (Nat.eqb_neq (2 * q) (2 * q + 1))) by lia. reflexivity.
  - intros Ev Ho Hn. apply Nat.odd_spec in Ho. destruct Ho as [q Eq]. unfold kwn2d. rewrite axis_k2_length by (assumption || lia).
    rewrite Nat.eqb_refl. cbn [negb].
    set (f := fun j => do y <- getr (axis_k2 ny (100000 * dy)) j; Ok (map (fun x => sqrt (x + y)) (axis_k2 nx (100000 * dx)))).
    assert (L : length (axis_k2 ny (100000 * dy)) = (2 * q)%nat) by (rewrite Eq, axis_k2_length_odd; destruct (Nat.eqb_spec q 0); [lia|reflexivity]).
    replace (seq 0 ny) with (seq 0 (2 * q) ++ (2 * q)%nat :: []) by (rewrite Eq, seq_app; reflexivity).
    rewrite (mapM_raise _ _ f (seq 0 (2 * q)) (2 * q)%nat IndexError [] (map (fun j => map (fun x => sqrt (x + nth j (axis_k2 ny (100000 * dy)) 0)) (axis_k2 nx (100000 * dx))) (seq 0 (2 * q)))); [reflexivity| |].
    + apply mapM_Ok_map. intros j Hj. apply in_seq in Hj. unfold f, getr. rewrite (nth_error_nth' _ 0) by lia. reflexivity.
    + unfold f, getr. rewrite (proj2 (nth_error_None _ _)) by lia. reflexivity.
Qed.
Print Assumptions C43_unfolded_odd_raises.

Lemma phase_sum_zero M N a b i j : (a < M)%nat -> (b < N)%nat -> (a + b =? 0)%nat = false ->
  Rsum M (fun i' => Rsum N (fun j' => cos (phase2 M N a b i j i' j'))) = 0.
Proof.
  intros Ha Hb H. apply Nat.eqb_neq in H. assert (HM : INR M <> 0) by (apply not_0_INR; lia). assert (HN : INR N <> 0) by (apply not_0_INR; lia).
  destruct (Nat.eq_dec b 0) as [->|Hb0].
  - rewrite Rsum_swap. apply Rsum_eq0. intros j' _. rewrite <- (cos_neg_sum M a (INR i)) by lia. apply Rsum_ext. intros i' _. f_equal.
    unfold phase2. cbn [INR]. field. auto.
  - apply Rsum_eq0. intros i' _. rewrite <- (cos_sum_zero N b (- (2 * PI * INR a * (INR i - INR i') / INR M + 2 * PI * INR b * INR j / INR N))) by lia.
    apply Rsum_ext. intros j' _. rewrite <- cos_neg. f_equal. unfold phase2. field. auto.
Qed.

Lemma synthesis2_const M N kw h c w i j : (forall i' j', (i' < M)%nat -> (j' < N)%nat -> h i' j' = c) -> synthesis2 M N kw h w i j = 0.
Proof.
  intros H. unfold synthesis2. rewrite Rsum_eq0; [ring|]. intros a Ha. apply Rsum_eq0. intros b Hb.
  destruct (a + b =? 0)%nat eqn:E; [apply Rsum_eq0; intros; apply Rsum_eq0; intros; ring|].
  rewrite (Rsum_ext M _ (fun i' => w (kw a b) c * Rsum N (fun j' => cos (phase2 M N a b i j i' j')))).
  - rewrite Rsum_scal, phase_sum_zero by assumption. ring.
  - intros i' Hi'. rewrite <- Rsum_scal. apply Rsum_ext. intros j' Hj'. rewrite H by assumption. reflexivity.
Qed.

(** A flat surface has no anomaly; with folding or even sizes. *)
Theorem C43_flat_surface : forall X Y Z z dx dy drho dz ifold npower nx ny,
  length X = nx -> length Y = ny -> (1 <= nx)%nat -> (1 <= ny)%nat -> grid ny nx Z -> dx <> 0 -> dy <> 0 ->
  (ifold = false -> Nat.even nx = true /\ Nat.even ny = true) ->
  (forall i j, (i < ny)%nat -> (j < nx)%nat -> cell Z i j = z) ->
  exists g, grav2d_folding X Y Z dx dy drho dz ifold npower = Ok g /\ grid ny nx g /\
  forall i j, (i < ny)%nat -> (j < nx)%nat -> cell g i j = 0.
Proof.
  intros X Y Z z dx dy drho dz ifold npower nx ny LX LY Hx Hy HZ Dx Dy He Hz. destruct ifold.
  - destruct (C43_folded X Y Z dx dy drho dz npower nx ny LX LY Hx Hy HZ Dx Dy) as [g [E1 [E2 E3]]]. exists g.
    split; [exact E1|]. split; [exact E2|]. intros i j Hi Hj. rewrite (E3 i j Hi Hj).
    apply synthesis2_const with (c := 100 * (grid_mean ny nx Z - z)). intros i' j' Hi' Hj'. rewrite Hz; [reflexivity| |].
    + unfold mirror; destruct (Nat.ltb_spec i' ny); lia.
    + unfold mirror; destruct (Nat.ltb_spec j' nx); lia.
  - destruct (He eq_refl) as [Ex Ey].
    destruct (C43_unfolded_even X Y Z dx dy drho dz npower nx ny LX LY Hx Hy Ex Ey HZ Dx Dy) as [g [E1 [E2 E3]]]. exists g.
    split; [exact E1|]. split; [exact E2|]. intros i j Hi Hj. rewrite (E3 i j Hi Hj).
    apply synthesis2_const with (c := 100 * (grid_mean ny nx Z - z)). intros i' j' Hi' Hj'. rewrite Hz by assumption. reflexivity.
Qed.
Print Assumptions C43_flat_surface.

Lemma synthesis2_scal M N kw h w w' c i j : (forall k v, w' k v = c * w k v) -> synthesis2 M N kw h w' i j = c * synthesis2 M N kw h w i j.
Proof.
  intros H. unfold synthesis2. rewrite (Rmult_comm c), Rmult_assoc. f_equal. rewrite (Rmult_comm _ c), <- Rsum_scal. apply Rsum_ext. intros a _.
  rewrite <- Rsum_scal. apply Rsum_ext. intros b _. rewrite <- Rsum_scal. apply Rsum_ext. intros i' _. rewrite <- Rsum_scal. apply Rsum_ext. intros j' _.
  rewrite H. destruct (a + b =? 0)%nat; ring.
Qed.

Theorem C43_proportional_to_contrast : forall X Y Z dx dy drho c dz npower nx ny,
  length X = nx -> length Y = ny -> (1 <= nx)%nat -> (1 <= ny)%nat -> grid ny nx Z -> dx <> 0 -> dy <> 0 ->
  exists g g', grav2d_folding X Y Z dx dy drho dz true npower = Ok g /\ grav2d_folding X Y Z dx dy (c * drho) dz true npower = Ok g' /\
  forall i j, (i < ny)%nat -> (j < nx)%nat -> cell g' i j = c * cell g i j.
Proof.
  intros X Y Z dx dy drho c dz npower nx ny LX LY Hx Hy HZ Dx Dy.
  destruct (C43_folded X Y Z dx dy drho dz npower nx ny LX LY Hx Hy HZ Dx Dy) as [g [E1 [E2 E3]]].
  destruct (C43_folded X Y Z dx dy (c * drho) dz npower nx ny LX LY Hx Hy HZ Dx Dy) as [g' [F1 [F2 F3]]].
  exists g, g'. split; [exact E1|]. split; [exact F1|]. intros i j Hi Hj. rewrite E3, F3 by assumption.
  apply synthesis2_scal. intros k v. ring.
Qed.
Print Assumptions C43_proportional_to_contrast.

Example C43_case : exists g, grav2d_folding [0; 1; 2] [0; 1] [[4; 4; 4]; [4; 4; 4]] 1 1 0.6 6000 true 5 = Ok g /\ grid 2 3 g /\
  forall i j, (i < 2)%nat -> (j < 3)%nat -> cell g i j = 0.
Proof.
  apply (C43_flat_surface _ _ _ 4); try reflexivity; try lia; try lra; try discriminate.
  - split; [reflexivity|]. intros r [<-|[<-|[]]]; reflexivity.
  - intros i j Hi Hj. destruct i as [|[|i]]; try lia; destruct j as [|[|[|j]]]; try lia; reflexivity.
Qed.

(** ** Layer *)
Lemma kvalue1_zero n dk j : (j < n)%nat -> dk <> 0 -> kvalue1 j n dk = 0 -> j = 0%nat.
Proof.
  intros Hj Hd H. unfold kvalue1 in H. destruct (2 * j <=? n + 2)%nat; apply Rmult_integral in H; destruct H as [H|H]; try contradiction.
  - apply INR_eq. rewrite H. reflexivity.
  - assert (INR j < INR n) by (apply lt_INR; exact Hj). lra.
Qed.

(** C44: closed form with the code's wavenumbers. *)
Theorem C44_layer_formula : forall ny nx rho dx dy z1 z2 i j, grid ny nx rho -> dx <> 0 -> dy <> 0 -> (i < ny)%nat -> (j < nx)%nat ->
  grid ny nx (layer ny nx rho dx dy z1 z2) /\
  cell (layer ny nx rho dx dy z1 z2) i j =
  synthesis2 ny nx (fun a b => sqrt (kvalue1 b nx (2 * PI / (INR nx * dx)) ^ 2 + kvalue1 a ny (2 * PI / (INR ny * dy)) ^ 2)) (cell rho)
    (fun k r => mgal * 1000 * (2 * PI * G_SI) * ((exp (- k * z1) - exp (- k * z2)) / k) * r) i j.
Proof.
  intros ny nx rho dx dy z1 z2 i j HR Dx Dy Hi Hj. pose proof PI_RGT_0 as Hpi. unfold layer. cbv zeta.
  assert (HM : 0 < INR ny) by (apply lt_0_INR; lia). assert (HN : 0 < INR nx) by (apply lt_0_INR; lia).
  set (dkx := 2 * PI / (INR nx * dx)). set (dky := 2 * PI / (INR ny * dy)).
  assert (Kx : dkx <> 0) by (unfold dkx; apply Rmult_integral_contrapositive_currified; [lra|apply Rinv_neq_0_compat, Rmult_integral_contrapositive_currified; lra]).
  assert (Ky : dky <> 0) by (unfold dky; apply Rmult_integral_contrapositive_currified; [lra|apply Rinv_neq_0_compat, Rmult_integral_contrapositive_currified; lra]).
  split; [apply grid_map_map, ifft2_grid|].
  set (kk := fun a b => sqrt (kvalue1 b nx dkx ^ 2 + kvalue1 a ny dky ^ 2)).
  set (crho := map _ (seq 0 ny)).
  change (cell (map (map (fun c => fst c * 1e5 * 1e3)) (ifft2 ny nx crho)) i j) with (get2 0 (map (map (fun c => fst c * 1e5 * 1e3)) (ifft2 ny nx crho)) i j).
  rewrite (get2_nth_map _ (ifft2 ny nx crho) ny nx i j 0 C0) by (apply ifft2_grid || assumption).
  rewrite (filter2_re ny nx crho (cell rho) (fun a b r => if (a + b =? 0)%nat then 0 else (2 * PI * 6.673e-11 * (exp (- kk a b * z1) - exp (- kk a b * z2)) / kk a b) * r) i j Hi Hj).
  - unfold synthesis2. rewrite !(Rmult_assoc (/ (INR ny * INR nx))). f_equal.
    rewrite (Rmult_assoc _ 1e5), (Rmult_comm _ (1e5 * 1e3)). rewrite <- Rsum_scal. apply Rsum_ext. intros a Ha. rewrite <- Rsum_scal. apply Rsum_ext. intros b Hb.
    rewrite <- Rsum_scal. apply Rsum_ext. intros i' _. rewrite <- Rsum_scal. apply Rsum_ext. intros j' _. fold (kk a b).
    destruct (a + b =? 0)%nat; [ring|]. unfold mgal, G_SI, Rdiv. set (E := exp (- kk a b * z1) - exp (- kk a b * z2)). set (v := / kk a b).
    set (c := cos _). set (r := cell rho i' j'). generalize E v c r PI. intros. lra.
  - intros a b Ha Hb t. unfold crho.
    rewrite (get2_tab (fun i0 j0 => let '(kx, ky) := kvalue i0 j0 nx ny dkx dky in
       if Req_EM_T (sqrt (kx ^ 2 + ky ^ 2)) 0 then C0
       else cscal (2 * PI * 6.673e-11 * (exp (- sqrt (kx ^ 2 + ky ^ 2) * z1) - exp (- sqrt (kx ^ 2 + ky ^ 2) * z2)) / sqrt (kx ^ 2 + ky ^ 2))
              (get2 C0 (fft2 ny nx (map (map cre) rho)) i0 j0))) by assumption.
    unfold kvalue. fold (kk a b). rewrite map_cre, (get2_fft2_real (fun x => x) ny nx rho a b HR Ha Hb).
    destruct (Nat.eqb_spec (a + b) 0) as [E|E].
    + assert (a = 0%nat) by lia. assert (b = 0%nat) by lia. subst a b.
      assert (K0 : kk 0%nat 0%nat = 0) by (unfold kk, kvalue1; cbn [Nat.mul Nat.add Nat.leb INR]; replace ((0 * dkx) ^ 2 + (0 * dky) ^ 2) with 0 by ring; apply sqrt_0).
      match goal with |- context [Req_EM_T ?x 0] => destruct (Req_EM_T x 0) as [_|B]; [|exfalso; apply B; exact K0] end.
      unfold C0. f_equal; symmetry; [|rewrite <- Ropp_0; f_equal]; apply Rsum_eq0; intros i' _; apply Rsum_eq0; intros j' _; ring.
    + destruct (Req_EM_T (kk a b) 0) as [B|B].
      * exfalso. unfold kk in B. apply sqrt_eq_0 in B; [|pose proof (pow2_ge_0 (kvalue1 b nx dkx)); pose proof (pow2_ge_0 (kvalue1 a ny dky)); lra].
        pose proof (pow2_ge_0 (kvalue1 b nx dkx)) as P1. pose proof (pow2_ge_0 (kvalue1 a ny dky)) as P2.
        assert (Q1 : Rsqr (kvalue1 b nx dkx) = 0) by (unfold Rsqr; lra). assert (Q2 : Rsqr (kvalue1 a ny dky) = 0) by (unfold Rsqr; lra).
        apply Rsqr_0_uniq in Q1. apply Rsqr_0_uniq in Q2. apply kvalue1_zero in Q1; [|assumption|assumption]. apply kvalue1_zero in Q2; [|assumption|assumption]. lia.
      * unfold cscal. cbn [fst snd]. rewrite Ropp_mult_distr_r_reverse, <- !Rsum_scal.
        f_equal; [|f_equal]; apply Rsum_ext; intros i' _; rewrite <- Rsum_scal; apply Rsum_ext; intros j' _; unfold t, cell, get2; ring.
Qed.
Print Assumptions C44_layer_formula.

Theorem C44_uniform_layer : forall ny nx rho r dx dy z1 z2 i j, grid ny nx rho -> dx <> 0 -> dy <> 0 ->
  (forall i j, (i < ny)%nat -> (j < nx)%nat -> cell rho i j = r) -> (i < ny)%nat -> (j < nx)%nat ->
  cell (layer ny nx rho dx dy z1 z2) i j = 0.
Proof.
  intros ny nx rho r dx dy z1 z2 i j HR Dx Dy Hc Hi Hj. rewrite (proj2 (C44_layer_formula ny nx rho dx dy z1 z2 i j HR Dx Dy Hi Hj)).
  apply synthesis2_const with (c := r). exact Hc.
Qed.
Print Assumptions C44_uniform_layer.

Theorem C44_no_thickness : forall ny nx rho dx dy z i j, grid ny nx rho -> dx <> 0 -> dy <> 0 -> (i < ny)%nat -> (j < nx)%nat ->
  cell (layer ny nx rho dx dy z z) i j = 0.
Proof.
  intros ny nx rho dx dy z i j HR Dx Dy Hi Hj. rewrite (proj2 (C44_layer_formula ny nx rho dx dy z z i j HR Dx Dy Hi Hj)).
  unfold synthesis2. rewrite Rsum_eq0; [ring|]. intros a _. apply Rsum_eq0. intros b _. apply Rsum_eq0. intros i' _. apply Rsum_eq0. intros j' _.
  destruct (a + b =? 0)%nat; unfold Rdiv; ring.
Qed.
Print Assumptions C44_no_thickness.

Theorem C44_linear : forall ny nx rho1 rho2 rho c dx dy z1 z2 i j, grid ny nx rho1 -> grid ny nx rho2 -> grid ny nx rho -> dx <> 0 -> dy <> 0 ->
  (forall i j, (i < ny)%nat -> (j < nx)%nat -> cell rho i j = cell rho1 i j + c * cell rho2 i j) -> (i < ny)%nat -> (j < nx)%nat ->
  cell (layer ny nx rho dx dy z1 z2) i j = cell (layer ny nx rho1 dx dy z1 z2) i j + c * cell (layer ny nx rho2 dx dy z1 z2) i j.
Proof.
  intros ny nx rho1 rho2 rho c dx dy z1 z2 i j H1 H2 H Dx Dy Hs Hi Hj.
  rewrite (proj2 (C44_layer_formula ny nx rho dx dy z1 z2 i j H Dx Dy Hi Hj)), (proj2 (C44_layer_formula ny nx rho1 dx dy z1 z2 i j H1 Dx Dy Hi Hj)),
    (proj2 (C44_layer_formula ny nx rho2 dx dy z1 z2 i j H2 Dx Dy Hi Hj)).
  unfold synthesis2. set (q := / (INR ny * INR nx)). match goal with |- q * ?A = q * ?B + c * (q * ?C) => assert (E : A = B + c * C); [|rewrite E; ring] end.
  rewrite <- Rsum_scal, <- Rsum_plus. apply Rsum_ext. intros a _. rewrite <- Rsum_scal, <- Rsum_plus. apply Rsum_ext. intros b _.
  rewrite <- Rsum_scal, <- Rsum_plus. apply Rsum_ext. intros i' Hi'. rewrite <- Rsum_scal, <- Rsum_plus. apply Rsum_ext. intros j' Hj'.
  rewrite (Hs i' j' Hi' Hj'). destruct (a + b =? 0)%nat; ring.
Qed.
Print Assumptions C44_linear.

Example C44_case : cell (layer 2 2 [[3; 3]; [3; 3]] 1 1 0 5) 1 0 = 0.
Proof.
  apply (C44_uniform_layer 2 2 _ 3); try lia; try lra.
  - split; [reflexivity|]. intros r [<-|[<-|[]]]; reflexivity.
  - intros i j Hi Hj. destruct i as [|[|i]]; try lia; destruct j as [|[|j]]; try lia; reflexivity.
Qed.

(** C45: the bins with a wrong wavenumber. *)
Theorem C45_wrong_bins : forall n d j, (j < n)%nat -> d <> 0 ->
  (Rabs (kvalue1 j n (2 * PI / (INR n * d))) = wavenumber n d j <-> ~ (n < 2 * j <= n + 2)%nat).
Proof.
  intros n d j Hj Hd. assert (HN : 0 < INR n) by (apply lt_0_INR; lia). pose proof PI_RGT_0 as Hp.
  assert (Ha : 0 < Rabs d) by (apply Rabs_pos_lt; exact Hd).
  assert (F : forall b, Rabs (b * (2 * PI / (INR n * d))) = Rabs b * (2 * PI / (INR n * Rabs d))).
  { intros b. unfold Rdiv. rewrite !Rabs_mult, Rabs_inv, Rabs_mult. rewrite (Rabs_right 2), (Rabs_right PI), (Rabs_right (INR n)) by lra. reflexivity. }
  set (c := 2 * PI / (INR n * Rabs d)) in *. assert (Hc : 0 < c) by (apply Rdiv_lt_0_compat; [lra|apply Rmult_lt_0_compat; lra]).
  assert (W : wavenumber n d j = INR (Nat.min j (n - j)) * c) by (unfold wavenumber, c; field; lra).
  rewrite W. unfold kvalue1. destruct (Nat.leb_spec (2 * j) (n + 2)) as [L|L]; rewrite F.
  - rewrite Rabs_right by (apply Rle_ge, pos_INR). split.
    + intros E B. apply Rmult_eq_reg_r in E; [|lra]. apply INR_eq in E. lia.
    + intros B. replace (Nat.min j (n - j)) with j by lia. reflexivity.
  - split; [intros _; lia|]. intros _. replace (Nat.min j (n - j)) with (n - j)%nat by lia. rewrite minus_INR by lia.
    assert (INR j < INR n) by (apply lt_INR; exact Hj). rewrite Rabs_left by lra. f_equal. ring.
Qed.
Print Assumptions C45_wrong_bins.

(** Seen from outside: one row of four columns, density in the first column only. *)
Theorem C45_layer_field_refuted : exists ny nx rho dx dy z1 z2 i j, grid ny nx rho /\ (i < ny)%nat /\ (j < nx)%nat /\ 0 < z1 < z2 /\ 0 < dx /\ 0 < dy /\
  cell (layer ny nx rho dx dy z1 z2) i j <>
  synthesis2 ny nx (wavenumber2 ny nx dy dx) (cell rho)
    (fun k r => mgal * 1000 * (2 * PI * G_SI) * ((exp (- k * z1) - exp (- k * z2)) / k) * r) i j.
Proof.
  exists 1%nat, 4%nat, [[1; 0; 0; 0]], 1, 1, 1, 2, 0%nat, 0%nat.
  assert (HG : grid 1 4 [[1; 0; 0; 0]]) by (split; [reflexivity|intros r [<-|[]]; reflexivity]).
  split; [exact HG|]. split; [lia|]. split; [lia|]. split; [lra|]. split; [lra|]. split; [lra|].
  rewrite (proj2 (C44_layer_formula 1 4 [[1; 0; 0; 0]] 1 1 1 2 0 0 HG ltac:(lra) ltac:(lra) ltac:(lia) ltac:(lia))).
  set (A := mgal * 1000 * (2 * PI * G_SI)). set (w := fun k r => A * ((exp (- k * 1) - exp (- k * 2)) / k) * r).
  assert (Sp : forall kw, synthesis2 1 4 kw (cell [[1; 0; 0; 0]]) w 0 0 = / 4 * (w (kw 0 1)%nat 1 + w (kw 0 2)%nat 1 + w (kw 0 3)%nat 1)).
  { intros kw. unfold synthesis2. cbn [Rsum Nat.add Nat.eqb]. unfold cell. cbn [nth].
    assert (W0 : forall k, w k 0 = 0) by (intros; unfold w; ring). rewrite !W0.
    assert (P0 : forall b, cos (phase2 1 4 0 b 0 0 0 0) = 1) by (intros b; unfold phase2; rewrite <- cos_0; f_equal; unfold Rdiv; ring).
    rewrite !P0. replace (INR 1 * INR 4) with 4 by (cbn; ring). ring. }
  rewrite !Sp. pose proof PI_RGT_0 as Hp. set (u := PI / 2). assert (Hu : 0 < u) by (unfold u; lra).
  assert (K1 : kvalue1 0 1 (2 * PI / (INR 1 * 1)) = 0) by (unfold kvalue1; cbn [Nat.leb Nat.mul Nat.add INR]; ring).
  assert (Kb : forall b, (b <= 3)%nat -> sqrt (kvalue1 b 4 (2 * PI / (INR 4 * 1)) ^ 2 + kvalue1 0 1 (2 * PI / (INR 1 * 1)) ^ 2) = INR b * u).
  { intros b Hb. rewrite K1. unfold kvalue1. rewrite (proj2 (Nat.leb_le (2 * b) (4 + 2))) by lia.
    replace ((INR b * (2 * PI / (INR 4 * 1))) ^ 2 + 0 ^ 2) with ((INR b * u) ^ 2) by (unfold u; cbn [INR]; field).
    apply sqrt_pow2. apply Rmult_le_pos; [apply pos_INR|lra]. }
  assert (Wb : forall b, wavenumber2 1 4 1 1 0 b = INR (Nat.min b (4 - b)) * u).
  { intros b. unfold wavenumber2. rewrite wavenumber_0. unfold wavenumber. rewrite Rabs_R1.
    replace ((2 * PI * INR (Nat.min b (4 - b)) / (INR 4 * 1)) ^ 2 + 0 ^ 2) with ((INR (Nat.min b (4 - b)) * u) ^ 2) by (unfold u; cbn [INR]; field).
    apply sqrt_pow2. apply Rmult_le_pos; [apply pos_INR|lra]. }
  rewrite !Kb, !Wb by lia. cbn [Nat.min Nat.sub]. intros E.
  assert (E' : w (INR 3 * u) 1 = w (INR 1 * u) 1) by lra. unfold w in E'. clear E Sp w.
  set (e := exp (- u)). assert (He : 0 < e < 1) by (unfold e; split; [apply exp_pos|rewrite <- exp_0; apply exp_increasing; lra]).
  replace (exp (- (INR 3 * u) * 1)) with (e * e * e) in E' by (unfold e; rewrite <- !exp_plus; f_equal; cbn; ring).
  replace (exp (- (INR 3 * u) * 2)) with (e * e * e * (e * e * e)) in E' by (unfold e; rewrite <- !exp_plus; f_equal; cbn; ring).
  replace (exp (- (INR 1 * u) * 1)) with e in E' by (unfold e; f_equal; cbn; ring).
  replace (exp (- (INR 1 * u) * 2)) with (e * e) in E' by (unfold e; rewrite <- !exp_plus; f_equal; cbn; ring).
  assert (HA : 0 < A) by (unfold A, mgal, G_SI; lra).
  assert (E2 : (e * e * e - e * e * e * (e * e * e)) / (INR 3 * u) = (e - e * e) / (INR 1 * u)).
  { rewrite !Rmult_1_r in E'. apply Rmult_eq_reg_l in E'; [exact E'|lra]. }
  apply Rmult_eq_compat_r with (r := 3 * u) in E2.
  replace ((e * e * e - e * e * e * (e * e * e)) / (INR 3 * u) * (3 * u)) with (e * e * e - e * e * e * (e * e * e)) in E2 by (cbn [INR]; field; lra).
  replace ((e - e * e) / (INR 1 * u) * (3 * u)) with (3 * (e - e * e)) in E2 by (cbn [INR]; field; lra).
  assert (E3 : e * (1 - e) * (3 - e * e * (1 + e + e * e)) = 0) by (ring_simplify; ring_simplify in E2; lra).
  apply Rmult_integral in E3. destruct E3 as [E3|E3].
  - apply Rmult_integral in E3. lra.
  - assert (e * e < 1) by nra. assert (1 + e + e * e < 3) by lra. nra.
Qed.
Print Assumptions C45_layer_field_refuted.

Example C45_case : kvalue1 5 8 1 = 5 /\ kvalue1 6 8 1 = -2 /\ wavenumber 8 1 5 = 2 * PI * 3 / 8.
Proof. unfold kvalue1, wavenumber. cbn [Nat.mul Nat.add Nat.leb Nat.min Nat.sub]. rewrite Rabs_R1. cbn [INR]. repeat split; lra. Qed.
