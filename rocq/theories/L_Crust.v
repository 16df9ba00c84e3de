(** Lemmas for the crustal thickness function. *)
From Coq Require Import List Reals Arith Lia Lra Bool.
From Verif Require Import M_Py M_Fft M_Four M_Crust S_Base S_Four S_Crust L_Base L_Np L_Fft L_Four.
Import ListNotations.
Open Scope R_scope.

Lemma concat_grid_length {A : Type} M N (g : list (list A)) : grid M N g -> length (concat g) = (M * N)%nat.
Proof.
  intros [H1 H2]. revert M H1. induction g as [|r g IH]; intros M H1; cbn in *; [subst; reflexivity|].
  destruct M as [|M]; [discriminate|]. rewrite app_length, (H2 r) by (left; reflexivity).
  rewrite (IH ltac:(intros; apply H2; right; assumption) M) by lia. lia.
Qed.

Lemma nth_concat_grid {A : Type} M N (g : list (list A)) i j d : grid M N g -> (i < M)%nat -> (j < N)%nat ->
  nth (i * N + j) (concat g) d = get2 d g i j.
Proof.
  intros [H1 H2] Hi Hj. revert M H1 i Hi. induction g as [|r g IH]; intros M H1 i Hi; cbn in *; [lia|].
  assert (Lr : length r = N) by (apply H2; left; reflexivity). destruct i as [|i].
  - cbn. rewrite app_nth1 by lia. reflexivity.
  - rewrite app_nth2 by lia. replace (S i * N + j - length r)%nat with (i * N + j)%nat by lia.
    destruct M as [|M]; [lia|]. apply (IH ltac:(intros; apply H2; right; assumption) M); lia.
Qed.

Lemma get2_fft2 M N g a b : (a < M)%nat -> (b < N)%nat ->
  let t := fun i j => 2 * PI * INR a * INR i / INR M + 2 * PI * INR b * INR j / INR N in
  get2 C0 (fft2 M N g) a b =
  (Rsum M (fun i => Rsum N (fun j => fst (get2 C0 g i j) * cos (t i j) + snd (get2 C0 g i j) * sin (t i j))),
   Rsum M (fun i => Rsum N (fun j => snd (get2 C0 g i j) * cos (t i j) - fst (get2 C0 g i j) * sin (t i j)))).
Proof.
  intros Ha Hb t. unfold fft2.
  rewrite (get2_tab (fun a b => csum (map (fun i => csum (map (fun j => cmul (get2 C0 g i j)
     (cis (- (2 * PI * INR a * INR i / INR M + 2 * PI * INR b * INR j / INR N)))) (seq 0 N))) (seq 0 M)))) by assumption.
  rewrite csum_map_seq. f_equal; apply Rsum_ext; intros i Hi; rewrite csum_map_seq; cbn [fst snd]; apply Rsum_ext; intros j Hj;
    unfold cmul, cis; cbn [fst snd]; rewrite cos_neg, sin_neg; unfold t; ring.
Qed.

Lemma cweight_grid M N w g : grid M N (cweight M N w g).
Proof. unfold cweight. apply (grid_tab (fun i j => cscal (w i j) (get2 C0 g i j))). Qed.

Lemma get2_cweight M N w g i j : (i < M)%nat -> (j < N)%nat -> get2 C0 (cweight M N w g) i j = cscal (w i j) (get2 C0 g i j).
Proof. intros Hi Hj. unfold cweight. apply (get2_tab (fun i j => cscal (w i j) (get2 C0 g i j))); assumption. Qed.

Lemma cweight_cweight M N w1 w2 g : cweight M N w2 (cweight M N w1 g) = cweight M N (fun i j => w1 i j * w2 i j) g.
Proof.
  unfold cweight at 1 3. apply map_ext_in. intros i Hi. apply map_ext_in. intros j Hj. apply in_seq in Hi. apply in_seq in Hj.
  rewrite get2_cweight by lia. unfold cscal. cbn [fst snd]. f_equal; ring.
Qed.

(** Two forward transforms with weights in between. *)
Lemma double_fft M N w (g : list (list R)) i j : grid M N g -> (i < M)%nat -> (j < N)%nat ->
  get2 C0 (fft2 M N (cweight M N w (fft2 M N (map (map cre) g)))) i j =
  (double_forward M N w (get2 0 g) cos i j, - double_forward M N w (get2 0 g) sin i j).
Proof.
  intros Hg Hi Hj. rewrite get2_fft2 by assumption. cbv zeta.
  assert (HM : INR M <> 0) by (apply not_0_INR; lia). assert (HN : INR N <> 0) by (apply not_0_INR; lia).
  unfold double_forward. rewrite <- (Rmult_1_l (Rsum M (fun a => Rsum N (fun b => Rsum M (fun i' => Rsum N (fun j' => w a b * get2 0 g i' j' * sin _)))))).
  rewrite Ropp_mult_distr_l, <- Rsum_scal. f_equal; apply Rsum_ext; intros a Ha; [|rewrite <- Rsum_scal]; apply Rsum_ext; intros b Hb;
    rewrite get2_cweight, map_cre, (get2_fft2_real (fun x => x) M N g a b Hg Ha Hb) by assumption; unfold cscal; cbn [fst snd].
  - rewrite Ropp_mult_distr_r_reverse, Ropp_mult_distr_l_reverse. fold (Rminus (w a b * Rsum M (fun i0 => Rsum N (fun j0 => get2 0 g i0 j0 * cos (2 * PI * INR a * INR i0 / INR M + 2 * PI * INR b * INR j0 / INR N))) * cos (2 * PI * INR i * INR a / INR M + 2 * PI * INR j * INR b / INR N)) (w a b * Rsum M (fun i0 => Rsum N (fun j0 => get2 0 g i0 j0 * sin (2 * PI * INR a * INR i0 / INR M + 2 * PI * INR b * INR j0 / INR N))) * sin (2 * PI * INR i * INR a / INR M + 2 * PI * INR j * INR b / INR N))).
    rewrite <- !Rsum_scal, <- !Rsum_scal_r, <- Rsum_minus. apply Rsum_ext. intros i' _. rewrite <- !Rsum_scal, <- !Rsum_scal_r, <- Rsum_minus. apply Rsum_ext. intros j' _.
    rewrite !plus_INR. replace (2 * PI * INR a * (INR i + INR i') / INR M + 2 * PI * INR b * (INR j + INR j') / INR N) with
      ((2 * PI * INR i * INR a / INR M + 2 * PI * INR j * INR b / INR N) + (2 * PI * INR a * INR i' / INR M + 2 * PI * INR b * INR j' / INR N)) by (field; auto).
    set (p := 2 * PI * INR i * INR a / INR M + 2 * PI * INR j * INR b / INR N). set (q := 2 * PI * INR a * INR i' / INR M + 2 * PI * INR b * INR j' / INR N).
    rewrite (cos_plus p q). ring.
  - replace (w a b * - Rsum M (fun i0 => Rsum N (fun j0 => get2 0 g i0 j0 * sin (2 * PI * INR a * INR i0 / INR M + 2 * PI * INR b * INR j0 / INR N))) * cos (2 * PI * INR i * INR a / INR M + 2 * PI * INR j * INR b / INR N)
       - w a b * Rsum M (fun i0 => Rsum N (fun j0 => get2 0 g i0 j0 * cos (2 * PI * INR a * INR i0 / INR M + 2 * PI * INR b * INR j0 / INR N))) * sin (2 * PI * INR i * INR a / INR M + 2 * PI * INR j * INR b / INR N))
     with (-1 * (w a b * Rsum M (fun i0 => Rsum N (fun j0 => get2 0 g i0 j0 * sin (2 * PI * INR a * INR i0 / INR M + 2 * PI * INR b * INR j0 / INR N))) * cos (2 * PI * INR i * INR a / INR M + 2 * PI * INR j * INR b / INR N)
       + w a b * Rsum M (fun i0 => Rsum N (fun j0 => get2 0 g i0 j0 * cos (2 * PI * INR a * INR i0 / INR M + 2 * PI * INR b * INR j0 / INR N))) * sin (2 * PI * INR i * INR a / INR M + 2 * PI * INR j * INR b / INR N))) by ring.
    f_equal. rewrite <- !Rsum_scal, <- !Rsum_scal_r, <- Rsum_plus. apply Rsum_ext. intros i' _. rewrite <- !Rsum_scal, <- !Rsum_scal_r, <- Rsum_plus. apply Rsum_ext. intros j' _.
    rewrite !plus_INR. replace (2 * PI * INR a * (INR i + INR i') / INR M + 2 * PI * INR b * (INR j + INR j') / INR N) with
      ((2 * PI * INR i * INR a / INR M + 2 * PI * INR j * INR b / INR N) + (2 * PI * INR a * INR i' / INR M + 2 * PI * INR b * INR j' / INR N)) by (field; auto).
    set (p := 2 * PI * INR i * INR a / INR M + 2 * PI * INR j * INR b / INR N). set (q := 2 * PI * INR a * INR i' / INR M + 2 * PI * INR b * INR j' / INR N).
    rewrite (sin_plus p q). ring.
Qed.

(** Full-period sums. *)
Lemma axis_sum f N s p : (f = cos \/ f = sin) -> (0 < N)%nat ->
  Rsum N (fun b => f (p + 2 * PI * INR b * INR s / INR N)) = if (s mod N =? 0)%nat then INR N * f p else 0.
Proof.
  intros Hf HN. assert (HN' : INR N <> 0) by (apply not_0_INR; lia).
  pose proof (Nat.div_mod s N ltac:(lia)) as E. set (q := (s / N)%nat) in *. set (r := (s mod N)%nat) in *.
  assert (Hr : (r < N)%nat) by (apply Nat.mod_upper_bound; lia).
  assert (P : forall b, f (p + 2 * PI * INR b * INR s / INR N) = f (p + 2 * PI * INR r * INR b / INR N)).
  { intros b. replace (p + 2 * PI * INR b * INR s / INR N) with (p + 2 * PI * INR r * INR b / INR N + 2 * INR (b * q) * PI).
    - destruct Hf as [->| ->]; [apply cos_period|apply sin_period].
    - rewrite E, plus_INR, !mult_INR. field. assumption. }
  rewrite (Rsum_ext N _ (fun b => f (p + 2 * PI * INR r * INR b / INR N))) by (intros; apply P).
  destruct (Nat.eqb_spec r 0) as [Z|Z].
  - rewrite (Rsum_ext N _ (fun _ => f p)); [rewrite Rsum_const; ring|]. intros b _. f_equal. rewrite Z. cbn [INR]. field. assumption.
  - destruct Hf as [->| ->]; [apply cos_sum_zero|apply sin_sum_zero]; lia.
Qed.

Lemma grid_sum f M N s t : (f = cos \/ f = sin) -> (0 < M)%nat -> (0 < N)%nat ->
  Rsum M (fun a => Rsum N (fun b => f (2 * PI * INR a * INR s / INR M + 2 * PI * INR b * INR t / INR N))) =
  if ((s mod M =? 0) && (t mod N =? 0))%nat then INR M * INR N * f 0 else 0.
Proof.
  intros Hf HM HN.
  rewrite (Rsum_ext M _ (fun a => if (t mod N =? 0)%nat then INR N * f (0 + 2 * PI * INR a * INR s / INR M) else 0)).
  - destruct (t mod N =? 0)%nat.
    + rewrite Rsum_scal, (axis_sum f M s 0 Hf HM). destruct (s mod M =? 0)%nat; cbn [andb]; ring.
    + rewrite Rsum_0, andb_false_r. reflexivity.
  - intros a _. rewrite (axis_sum f N t _ Hf HN), Rplus_0_l. reflexivity.
Qed.

Lemma negmod_lt n i : (0 < n)%nat -> (negmod n i < n)%nat.
Proof. intros H. apply Nat.mod_upper_bound. lia. Qed.

Lemma negmod_cases n i : (i < n)%nat -> negmod n i = if (i =? 0)%nat then 0%nat else (n - i)%nat.
Proof.
  intros H. unfold negmod. destruct (Nat.eqb_spec i 0) as [->|Hi]; [rewrite Nat.sub_0_r; apply Nat.mod_same; lia|apply Nat.mod_small; lia].
Qed.

Lemma mod_sum_zero n i i' : (i < n)%nat -> (i' < n)%nat -> ((i + i') mod n = 0 <-> i' = negmod n i)%nat.
Proof.
  intros H H'. rewrite negmod_cases by exact H. destruct (Nat.eqb_spec i 0) as [->|Hi].
  - cbn. rewrite Nat.mod_small by exact H'. reflexivity.
  - split; intros E.
    + destruct (Nat.lt_ge_cases (i + i') n) as [L|L]; [rewrite Nat.mod_small in E by exact L; lia|].
      replace (i + i')%nat with ((i + i' - n) + 1 * n)%nat in E by lia. rewrite Nat.mod_add, Nat.mod_small in E by lia. lia.
    + replace (i + i')%nat with (1 * n)%nat by lia. apply Nat.mod_mul. lia.
Qed.

(** With one weight for all bins the double transform is a reversal. *)
Lemma double_forward_const M N c u f i j : (f = cos \/ f = sin) -> (i < M)%nat -> (j < N)%nat ->
  double_forward M N (fun _ _ => c) u f i j = c * (INR M * INR N) * f 0 * u (negmod M i) (negmod N j).
Proof.
  intros Hf Hi Hj. unfold double_forward.
  rewrite (Rsum_ext M _ (fun a => Rsum M (fun i' => Rsum N (fun j' => Rsum N (fun b => c * u i' j' * f (2 * PI * INR a * INR (i + i') / INR M + 2 * PI * INR b * INR (j + j') / INR N)))))).
  2:{ intros a _. rewrite Rsum_swap. apply Rsum_ext. intros i' _. apply Rsum_swap. }
  rewrite Rsum_swap.
  rewrite (Rsum_ext M _ (fun i' => Rsum N (fun j' => c * u i' j' * (if (((i + i') mod M =? 0) && ((j + j') mod N =? 0))%nat then INR M * INR N * f 0 else 0)))).
  2:{ intros i' _. rewrite Rsum_swap. apply Rsum_ext. intros j' _.
      rewrite <- (grid_sum f M N (i + i') (j + j') Hf) by lia. rewrite <- Rsum_scal. apply Rsum_ext. intros a _. rewrite <- Rsum_scal. reflexivity. }
  rewrite (Rsum_single M (negmod M i)) by (try (apply negmod_lt; lia); intros i' Hi' Hne; apply Rsum_eq0; intros j' _;
    rewrite (proj2 (Nat.eqb_neq ((i + i') mod M) 0)) by (rewrite mod_sum_zero by assumption; exact Hne); cbn [andb]; ring).
  rewrite (Rsum_single N (negmod N j)).
  - rewrite (proj2 (Nat.eqb_eq ((i + negmod M i) mod M) 0)) by (apply mod_sum_zero; [exact Hi|apply negmod_lt; lia|reflexivity]).
    rewrite (proj2 (Nat.eqb_eq ((j + negmod N j) mod N) 0)) by (apply mod_sum_zero; [exact Hj|apply negmod_lt; lia|reflexivity]).
    cbn [andb]. ring.
  - apply negmod_lt. lia.
  - intros j' Hj' Hne. rewrite (proj2 (Nat.eqb_neq ((j + j') mod N) 0)) by (rewrite mod_sum_zero by assumption; exact Hne).
    rewrite andb_false_r. ring.
Qed.

Lemma double_forward_ext M N w w' u u' f i j : (forall a b, (a < M)%nat -> (b < N)%nat -> w a b = w' a b) ->
  (forall a b, (a < M)%nat -> (b < N)%nat -> u a b = u' a b) -> double_forward M N w u f i j = double_forward M N w' u' f i j.
Proof.
  intros H H'. apply Rsum_ext. intros a Ha. apply Rsum_ext. intros b Hb. apply Rsum_ext. intros i' Hi'. apply Rsum_ext. intros j' Hj'.
  rewrite H, H' by assumption. reflexivity.
Qed.

(** ** The code's wavenumbers *)
Lemma crust_index_spec n i : (i < n)%nat -> Rabs (crust_index n i - 1) = if (2 * i <=? n + 2)%nat then Rabs (INR i - 1) else INR (n + 1 - i).
Proof.
  intros Hi. unfold crust_index. destruct (Nat.ltb_spec (n + 2) (2 * i)); destruct (Nat.leb_spec (2 * i) (n + 2)); try lia; [|reflexivity].
  rewrite minus_INR, plus_INR by lia. cbn [INR]. assert (INR i < INR n) by (apply lt_INR; exact Hi).
  rewrite Rabs_right by lra. field.
Qed.

Lemma displaced_sq n d i : (i < n)%nat -> d <> 0 -> (2 * PI / (INR n * d)) ^ 2 * (crust_index n i - 1) ^ 2 = displaced n d i ^ 2.
Proof.
  intros Hi Hd. unfold displaced. rewrite <- crust_index_spec by exact Hi.
  assert (HN : INR n <> 0) by (apply not_0_INR; lia). assert (Rabs d <> 0) by (apply Rabs_no_R0; exact Hd).
  rewrite <- (pow2_abs d) at 1 || idtac.
  replace ((2 * PI * Rabs (crust_index n i - 1) / (INR n * Rabs d)) ^ 2) with ((2 * PI) ^ 2 * (Rabs (crust_index n i - 1)) ^ 2 / (INR n ^ 2 * (Rabs d) ^ 2)) by (field; auto).
  rewrite !pow2_abs. field. auto.
Qed.

Lemma displaced_nonneg n d i : 0 <= displaced n d i.
Proof.
  unfold displaced. unfold Rdiv. pose proof PI_RGT_0. apply Rmult_le_pos.
  - apply Rmult_le_pos; [lra|]. destruct (2 * i <=? n + 2)%nat; [apply Rabs_pos|apply pos_INR].
  - destruct (Rle_lt_or_eq_dec 0 (INR n * Rabs d)) as [L|L]; [apply Rmult_le_pos; [apply pos_INR|apply Rabs_pos]| |].
    + left. apply Rinv_0_lt_compat. exact L.
    + rewrite <- L. rewrite Rinv_0. lra.
Qed.

Lemma crust_kwn_spec nx ny dx dy i j : (i < nx)%nat -> (j < ny)%nat -> dx <> 0 ->
  crust_kwn nx ny dx dy i j = sqrt (displaced nx dx i ^ 2 + (if Req_EM_T dy 0 then 0 else displaced ny dy j) ^ 2).
Proof.
  intros Hi Hj Hx. unfold crust_kwn. cbv zeta. f_equal. f_equal; [apply displaced_sq; assumption|].
  destruct (Req_EM_T dy 0) as [E|E]; [ring|]. apply displaced_sq; assumption.
Qed.

Lemma displaced_wavenumber n d i : (2 <= n)%nat -> (i < n)%nat -> displaced n d i = wavenumber n d ((i + n - 1) mod n).
Proof.
  intros Hn Hi. unfold displaced, wavenumber. f_equal. f_equal. destruct (Nat.eq_dec i 0) as [->|H0].
  - rewrite (Nat.mod_small (0 + n - 1)) by lia. cbn [Nat.mul Nat.leb Nat.add INR]. rewrite Rabs_left by lra.
    replace (Nat.min (n - 1) (n - (n - 1))) with 1%nat by lia. cbn. lra.
  - replace (i + n - 1)%nat with ((i - 1) + 1 * n)%nat by lia. rewrite Nat.mod_add, Nat.mod_small by lia.
    destruct (Nat.leb_spec (2 * i) (n + 2)).
    + replace (Nat.min (i - 1) (n - (i - 1))) with (i - 1)%nat by lia. rewrite minus_INR by lia. cbn [INR].
      assert (1 <= INR i) by (change 1 with (INR 1); apply le_INR; lia). rewrite Rabs_right by lra. reflexivity.
    + f_equal. lia.
Qed.

(** ** The function *)
Lemma reshape_grid nx ny l : grid nx ny (reshape nx ny l).
Proof. unfold reshape. apply (grid_tab (fun i j => nth (i * ny + j) l 0)). Qed.

Lemma get2_reshape nx ny l i j : (i < nx)%nat -> (j < ny)%nat -> get2 0 (reshape nx ny l) i j = nth (i * ny + j) l 0.
Proof. intros. unfold reshape. apply (get2_tab (fun i j => nth (i * ny + j) l 0)); assumption. Qed.

Lemma np_mean_mean l : np_mean l = mean l.
Proof. unfold np_mean, mean. rewrite pysum_Rsum. reflexivity. Qed.

Definition topo1_ (rho : R) : R := 1 / (2 * PI * 6.673e-8 * rho).

Lemma crustal_formula ur nx ny dx dy zdown rho wlarge wsmall back :
  0 < wsmall < wlarge -> (1 <= nx)%nat -> (1 <= ny)%nat -> rho <> 0 -> dx <> 0 -> length ur = (nx * ny)%nat ->
  exists A B, crustal_thickness_2D ur nx ny dx dy zdown rho wlarge wsmall back = Ok (if back then (rev A, Some (rev B)) else (A, None)) /\
  length A = (nx * ny)%nat /\ length B = (nx * ny)%nat /\
  let u := fun i j => - (nth (i * ny + j) ur 0 - mean ur) / 1000 in
  let k := crust_kwn nx ny (dx * 1e5) (dy * 1e5) in
  let wgt := fun a b => crust_wgt (2 * PI / (wlarge * 1e5)) (2 * PI / (wsmall * 1e5)) (k a b) in
  let w := fun a b => exp (k a b * (zdown * 1e5)) * topo1_ rho * wgt a b in
  forall i j, (i < nx)%nat -> (j < ny)%nat ->
    nth (i * ny + j) A C0 = cscal (/ (INR nx * INR ny) / 1e5) (double_forward nx ny w u cos i j, - double_forward nx ny w u sin i j) /\
    nth (i * ny + j) B C0 = cadd (cscal (/ (INR nx * INR ny) * 1000) (double_forward nx ny (fun a b => - wgt a b) u cos i j, - double_forward nx ny (fun a b => - wgt a b) u sin i j)) (cre (mean ur)).
Proof.
  intros Hw Hx Hy Hr Hd HL. unfold crustal_thickness_2D. pose proof PI_RGT_0 as Hpi.
  destruct (Rlt_dec wsmall wlarge) as [_|C]; [|lra]. cbn [negb].
  destruct (Req_EM_T (wlarge * 1e5) 0) as [C|_]; [exfalso; lra|]. destruct (Req_EM_T (wsmall * 1e5) 0) as [C|_]; [exfalso; lra|].
  rewrite (proj2 (Nat.eqb_neq (nx * ny) 0)) by nia. destruct (Req_EM_T rho 0) as [C|_]; [contradiction|].
  destruct (Req_EM_T (dx * 1e5) 0) as [C|_]; [exfalso; lra|]. rewrite map_length, HL, Nat.eqb_refl. cbn [negb]. rewrite np_mean_mean.
  set (ur' := map (fun u => -0.001 * (u - mean ur)) ur). set (k := crust_kwn nx ny (dx * 1e5) (dy * 1e5)).
  set (ft := fft2 nx ny (map (map cre) (reshape nx ny ur'))).
  set (wgt := fun a b => crust_wgt (2 * PI / (wlarge * 1e5)) (2 * PI / (wsmall * 1e5)) (k a b)).
  fold (topo1_ rho).
  change (fun i j => exp (k i j * (zdown * 1e5)) * topo1_ rho * crust_wgt (2 * PI / (wlarge * 1e5)) (2 * PI / (wsmall * 1e5)) (k i j))
    with (fun i j => exp (k i j * (zdown * 1e5)) * topo1_ rho * wgt i j).
  set (w := fun i j => exp (k i j * (zdown * 1e5)) * topo1_ rho * wgt i j).
  set (A := map (fun c => cscal (1 / INR (nx * ny) / 1e5) c) (concat (fft2 nx ny (cweight nx ny w ft)))).
  set (B := map (fun c => cadd (cscal (1 / INR (nx * ny) * 1000) c) (cre (mean ur)))
              (concat (fft2 nx ny (cweight nx ny (fun i j => - exp (- k i j * (zdown * 1e5)) / topo1_ rho) (cweight nx ny w ft))))).
  exists A, B. split; [destruct back; reflexivity|].
  split; [unfold A; rewrite map_length; apply concat_grid_length, fft2_grid|].
  split; [unfold B; rewrite map_length; apply concat_grid_length, fft2_grid|].
  cbv zeta. intros i j Hi Hj. set (u := fun i j => - (nth (i * ny + j) ur 0 - mean ur) / 1000).
  assert (Ln : forall g, length (concat (fft2 nx ny g)) = (nx * ny)%nat) by (intros; apply concat_grid_length, fft2_grid).
  assert (Hn : (i * ny + j < nx * ny)%nat) by nia.
  assert (Hu : forall a b, (a < nx)%nat -> (b < ny)%nat -> get2 0 (reshape nx ny ur') a b = u a b).
  { intros a b Ha Hb. rewrite get2_reshape by assumption. unfold ur'. rewrite (nth_map _ _ _ _ (a * ny + b)%nat 0 0) by nia. unfold u. lra. }
  assert (Ei : 1 / INR (nx * ny) = / (INR nx * INR ny)) by (rewrite mult_INR; unfold Rdiv; ring).
  assert (Ht : topo1_ rho <> 0).
  { unfold topo1_. apply Rmult_integral_contrapositive_currified; [lra|]. apply Rinv_neq_0_compat. apply Rmult_integral_contrapositive_currified; lra. }
  split.
  - unfold A. rewrite (nth_map _ _ _ _ (i * ny + j)%nat C0 C0) by (rewrite Ln; exact Hn). rewrite (nth_concat_grid nx ny) by (assumption || apply fft2_grid).
    unfold ft. rewrite double_fft by (assumption || apply reshape_grid). rewrite Ei. f_equal.
    f_equal; [|f_equal]; apply double_forward_ext; intros; try reflexivity; apply Hu; assumption.
  - unfold B. rewrite (nth_map _ _ _ _ (i * ny + j)%nat C0 C0) by (rewrite Ln; exact Hn). rewrite (nth_concat_grid nx ny) by (assumption || apply fft2_grid).
    rewrite cweight_cweight. unfold ft. rewrite double_fft by (assumption || apply reshape_grid). rewrite Ei. f_equal. f_equal.
    assert (Ew : forall a b, w a b * (- exp (- k a b * (zdown * 1e5)) / topo1_ rho) = - wgt a b).
    { intros a b. unfold w. replace (- k a b * (zdown * 1e5)) with (- (k a b * (zdown * 1e5))) by ring. rewrite exp_Ropp.
      set (e := exp (k a b * (zdown * 1e5))). assert (He : e <> 0) by (apply Rgt_not_eq, exp_pos). field. split; assumption. }
    f_equal; [|f_equal]; apply double_forward_ext; intros; try apply Ew; apply Hu; assumption.
Qed.
