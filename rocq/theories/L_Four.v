(** Lemmas for the Fourier-domain gravity functions. *)
From Coq Require Import List Reals Arith Lia Lra Bool.
From Verif Require Import M_Py M_Fft M_Four S_Base S_Four L_Base L_Np L_Fft.
Import ListNotations.
Open Scope R_scope.

(** ** grav1d_padded *)
Lemma padtopo_length topo : length (padtopo topo) = (5 * length topo)%nat.
Proof. unfold padtopo. rewrite !app_length, !map_length, !repeat_length. lia. Qed.

Lemma nth_last_gen (l : list R) : nth (length l - 1) l 0 = last l 0.
Proof.
  induction l as [|x [|y l] IH]; [reflexivity|reflexivity|].
  change (last (x :: y :: l) 0) with (last (y :: l) 0). rewrite <- IH. cbn [length]. rewrite Nat.sub_succ, Nat.sub_0_r.
  cbn [Nat.sub]. rewrite Nat.sub_0_r. reflexivity.
Qed.

Lemma nth_padtopo topo l : (l < 5 * length topo)%nat -> nth l (padtopo topo) 0 = edge_extended topo l.
Proof.
  intros H. unfold padtopo, edge_extended. set (n := length topo) in *.
  destruct (Nat.ltb_spec l (2 * n)) as [H1|H1].
  - rewrite app_nth1 by (rewrite map_length, repeat_length; exact H1).
    rewrite (nth_map _ _ _ _ l 0 0) by (rewrite repeat_length; exact H1). rewrite nth_repeat_lt by exact H1. destruct topo; cbn [hd nth]; ring.
  - rewrite app_nth2 by (rewrite map_length, repeat_length; exact H1). rewrite map_length, repeat_length.
    destruct (Nat.ltb_spec l (3 * n)) as [H2|H2].
    + rewrite app_nth1 by (fold n; lia). reflexivity.
    + rewrite app_nth2 by (fold n; lia). fold n. rewrite (nth_map _ _ _ _ _ 0 0) by (rewrite repeat_length; lia).
      rewrite nth_repeat_lt by lia. rewrite <- nth_last_gen. fold n. ring.
Qed.

(** Bin index given to bin [m] by the code. *)
Definition codebin (N m : nat) : nat := if (m <? (N + 1) / 2 + 1)%nat then m else (2 * ((N + 1) / 2) - m)%nat.

Lemma nth_rev_seq a n r d : (r < n)%nat -> nth r (rev (seq a n)) d = (a + n - 1 - r)%nat.
Proof. intros H. rewrite rev_nth by (rewrite seq_length; exact H). rewrite seq_length, seq_nth by lia. lia. Qed.

Lemma slice_seq a n x y : (x <= y)%nat -> (y <= n)%nat -> slice (seq a n) x y = seq (a + x) (y - x).
Proof.
  intros H1 H2. apply (list_eq_nth _ _ _ 0%nat).
  - rewrite slice_length, !seq_length. lia.
  - intros i Hi. rewrite slice_length, seq_length in Hi. rewrite nth_slice by lia. rewrite !seq_nth by lia. lia.
Qed.

Lemma xi1d_length N : (1 <= N)%nat -> length (xi1d N) = (2 * ((N + 1) / 2))%nat.
Proof.
  intros H. assert (1 <= (N + 1) / 2)%nat by (apply (Nat.div_le_lower_bound (N + 1) 2 1); lia).
  unfold xi1d. rewrite app_length, rev_length, !seq_length, slice_seq by lia. rewrite seq_length. lia.
Qed.

Lemma half_bounds N : (N <= 2 * ((N + 1) / 2) <= N + 1)%nat.
Proof. pose proof (Nat.div_mod (N + 1) 2 ltac:(lia)). pose proof (Nat.mod_upper_bound (N + 1) 2 ltac:(lia)). lia. Qed.

Lemma nth_xi1d N m : (m < N)%nat -> nth m (xi1d N) 0%nat = S (codebin N m).
Proof.
  intros H. pose proof (half_bounds N) as Hb. unfold xi1d, codebin. destruct (Nat.ltb_spec m ((N + 1) / 2 + 1)) as [H1|H1].
  - rewrite app_nth1 by (rewrite seq_length; exact H1). rewrite seq_nth by exact H1. lia.
  - rewrite app_nth2 by (rewrite seq_length; exact H1). rewrite seq_length, slice_seq by lia. rewrite nth_rev_seq by lia. lia.
Qed.

Lemma kwn1d_length N dx : (1 <= N)%nat -> length (kwn1d N dx) = N.
Proof. intros H. unfold kwn1d. rewrite firstn_length, map_length, xi1d_length by exact H. pose proof (half_bounds N). lia. Qed.

Lemma nth_kwn1d N dx m : (m < N)%nat -> dx <> 0 ->
  nth m (kwn1d N dx) 0 = 2 * PI * INR (codebin N m) / (INR N * Rabs dx).
Proof.
  intros H Hd. pose proof (half_bounds N) as Hb. unfold kwn1d. rewrite nth_firstn by exact H.
  rewrite (nth_map _ _ _ _ m 0 0%nat) by (rewrite xi1d_length; lia). rewrite nth_xi1d by exact H. rewrite S_INR.
  set (b := INR (codebin N m)). assert (HN : 0 < INR N) by (apply lt_0_INR; lia). pose proof PI_RGT_0 as Hp.
  assert (Hbp : 0 <= b) by apply pos_INR. assert (Ha : 0 < Rabs dx) by (apply Rabs_pos_lt; exact Hd).
  replace ((b + 1 - 1) * (b + 1 - 1) * (2 * PI / (INR N * dx)) ^ 2) with (Rsqr (b * (2 * PI / (INR N * dx)))) by (unfold Rsqr; field; lra).
  rewrite sqrt_Rsqr_abs. unfold Rdiv. rewrite !Rabs_mult, Rabs_inv, !Rabs_mult.
  rewrite (Rabs_right b), (Rabs_right 2), (Rabs_right PI), (Rabs_right (INR N)) by lra. field. lra.
Qed.

Lemma codebin_even N m : Nat.even N = true -> (m < N)%nat -> codebin N m = Nat.min m (N - m).
Proof.
  intros He Hm. apply Nat.even_spec in He. destruct He as [q ->]. unfold codebin.
  replace ((2 * q + 1) / 2)%nat with q by (rewrite Nat.add_comm, Nat.mul_comm, Nat.div_add by lia; reflexivity).
  destruct (Nat.ltb_spec m (q + 1)); lia.
Qed.
Lemma codebin_odd N m : Nat.odd N = true -> (m < N)%nat ->
  codebin N m = if (2 * m <=? N + 1)%nat then m else (N + 1 - m)%nat.
Proof.
  intros He Hm. apply Nat.odd_spec in He. destruct He as [q ->]. unfold codebin.
  replace (2 * q + 1 + 1)%nat with ((q + 1) * 2)%nat by lia. rewrite Nat.div_mul by lia.
  destruct (Nat.ltb_spec m (q + 1 + 1)), (Nat.leb_spec (2 * m) ((q + 1) * 2)); lia.
Qed.
Lemma codebin_0 N : codebin N 0 = 0%nat.
Proof. unfold codebin. destruct (Nat.ltb_spec 0 ((N + 1) / 2 + 1)); [reflexivity|lia]. Qed.

Lemma sumtopo_length pad kwn : length kwn = length pad -> length (sumtopo pad kwn) = length pad.
Proof.
  intros H. unfold sumtopo. cbn [seq fold_left].
  repeat (rewrite map2_length || rewrite fft_length || rewrite map_length || rewrite upd_length). lia.
Qed.

Lemma nth_sumtopo pad kwn m : length kwn = length pad -> (m < length pad)%nat -> nth 0 kwn 0 = 0 ->
  let w := fun h => if (m =? 0)%nat then 0 else parker_poly 5 (nth m kwn 0) h in
  let t := fun l => 2 * PI * INR m * INR l / INR (length pad) in
  nth m (sumtopo pad kwn) C0 =
  (Rsum (length pad) (fun l => w (nth l pad 0) * cos (t l)), - Rsum (length pad) (fun l => w (nth l pad 0) * sin (t l))).
Proof.
  intros HL Hm H0 w t. unfold sumtopo. cbn [seq fold_left]. set (k := nth m kwn 0) in *.
  assert (F : forall p, nth m (fft (map (fun v => cre (v ^ p)) pad)) C0 =
    (Rsum (length pad) (fun j => nth j pad 0 ^ p * cos (t j)), - Rsum (length pad) (fun j => nth j pad 0 ^ p * sin (t j)))).
  { intros p. apply (nth_fft_real (fun v => v ^ p)). exact Hm. }
  assert (F1 : nth m (fft (map cre pad)) C0 = (Rsum (length pad) (fun j => nth j pad 0 * cos (t j)), - Rsum (length pad) (fun j => nth j pad 0 * sin (t j)))).
  { apply (nth_fft_real (fun v => v)). exact Hm. }
  assert (L1 : length (upd (fft (map cre pad)) 0 C0) = length pad) by (rewrite upd_length, fft_length, map_length; reflexivity).
  assert (Lp : forall p, length (map2 (fun F0 k0 => cscal (k0 ^ (p - 1) / INR (fact p)) F0) (fft (map (fun v => cre (v ^ p)) pad)) kwn) = length pad).
  { intros p. rewrite map2_length, fft_length, map_length. lia. }
  rewrite !(map2_nth _ _ _ cadd _ _ m C0 C0 C0) by (repeat rewrite map2_length; rewrite ?L1, ?Lp, ?fft_length, ?map_length; lia).
  rewrite !(map2_nth _ _ _ _ (fft _) kwn m C0 0 C0) by (rewrite ?fft_length, ?map_length; lia).
  rewrite !F. fold k. rewrite nth_upd, F1. unfold w, t in *. clear w F F1 Lp. rewrite fft_length, map_length.
  destruct (Nat.eqb_spec m 0) as [E|E].
  - subst m. fold k in H0. destruct (Nat.eqb_spec 0 0); [|lia]. rewrite (proj2 (Nat.ltb_lt 0 (length pad))) by exact Hm. cbn [andb].
    unfold cadd, cscal, C0. cbn [fst snd Nat.sub]. rewrite H0.
    rewrite !(Rsum_eq0 (length pad) (fun l => 0 * _)) by (intros; ring). rewrite !pow_i by lia. f_equal; unfold Rdiv; ring.
  - destruct (Nat.eqb_spec 0 m); [lia|]. cbn [andb]. unfold cadd, cscal. cbn [fst snd Nat.sub].
    assert (Fa : forall f : nat -> R, Rsum (length pad) (fun l => parker_poly 5 k (nth l pad 0) * f l) =
       Rsum (length pad) (fun j => nth j pad 0 * f j) + k ^ 1 / INR (fact 2) * Rsum (length pad) (fun j => nth j pad 0 ^ 2 * f j)
       + k ^ 2 / INR (fact 3) * Rsum (length pad) (fun j => nth j pad 0 ^ 3 * f j)
       + k ^ 3 / INR (fact 4) * Rsum (length pad) (fun j => nth j pad 0 ^ 4 * f j)
       + k ^ 4 / INR (fact 5) * Rsum (length pad) (fun j => nth j pad 0 ^ 5 * f j)).
    { intros f. rewrite <- !Rsum_scal, <- !Rsum_plus. apply Rsum_ext. intros l Hl. unfold parker_poly. cbn [Rsum Nat.add].
      replace (INR (fact 1)) with 1 by reflexivity. field. repeat split; apply INR_fact_neq_0. }
    rewrite !Fa. f_equal; ring.
Qed.

(** The result in closed form, for the code's own wavenumbers. *)
Lemma grav1d_formula x0 xs topo zlev rho n : length (x0 :: xs) = n -> length topo = n -> (2 <= n)%nat -> last (x0 :: xs) 0 <> x0 ->
  let dx := (last (x0 :: xs) 0 - x0) / (INR n - 1) in
  exists anom, grav1d_padded (x0 :: xs) topo zlev rho = Ok anom /\ length anom = n /\
  forall j, (j < n)%nat -> nth j anom 0 =
    mgal * (2 * PI * G_SI * rho) *
    parker1 (5 * n) (fun m => 2 * PI * INR (codebin (5 * n) m) / (INR (5 * n) * Rabs dx)) (edge_extended topo) 5
      (zlev - np_mean topo) (2 * n + j).
Proof.
  intros Hx Ht Hn Hlast dx. assert (Hdx : dx <> 0).
  { unfold dx. assert (2 <= INR n) by (replace 2 with (INR 2) by reflexivity; apply le_INR; exact Hn).
    apply Rmult_integral_contrapositive_currified; [lra|]. apply Rinv_neq_0_compat. lra. }
  unfold grav1d_padded. destruct topo as [|t0 ts]; [cbn in Ht; lia|]. set (topo := t0 :: ts) in *. rewrite Hx. fold dx.
  set (pad := padtopo topo). assert (Lp : length pad = (5 * n)%nat) by (unfold pad; rewrite padtopo_length; lia).
  set (N := (5 * n)%nat) in *. rewrite Lp. set (kwn := kwn1d N dx). assert (Lk : length kwn = N) by (apply kwn1d_length; lia).
  assert (K0 : nth 0 kwn 0 = 0) by (unfold kwn; rewrite nth_kwn1d, codebin_0 by (auto; lia); cbn [INR]; unfold Rdiv; ring).
  eexists. split; [reflexivity|].
  assert (Ls : length (sumtopo pad kwn) = N) by (rewrite sumtopo_length; lia).
  set (data := map2 _ _ _). assert (Ld : length data = N) by (unfold data; rewrite map2_length; lia).
  split; [rewrite map_length, slice_length, ifft_length; lia|]. intros j Hj.
  rewrite (nth_map _ _ _ _ j 0 C0) by (rewrite slice_length, ifft_length; lia). rewrite nth_slice by lia.
  set (g := 2 * PI * (6.673 * 1e-8) * rho) in *.
  rewrite (filter1_re N data (fun l => nth l pad 0)
    (fun m h => if (m =? 0)%nat then 0 else g * exp (- (zlev - np_mean topo) * nth m kwn 0) * parker_poly 5 (nth m kwn 0) h)); [|exact Ld|lia|].
  - unfold parker1. replace N with (S (N - 1))%nat at 2 by lia. rewrite Rsum_S_first.
    rewrite (Rsum_eq0 N) by (intros; cbn [Nat.eqb]; ring).
    replace (mgal * (2 * PI * G_SI * rho)) with (g * 100) by (unfold mgal, G_SI, g; lra).
    match goal with |- / INR N * (0 + ?a) * 100 = g * 100 * (/ INR N * ?b) => assert (E : a = g * b); [|rewrite E; ring] end.
    rewrite <- Rsum_scal. apply Rsum_ext. intros m Hm. cbv zeta. rewrite <- Rsum_scal. apply Rsum_ext. intros l Hl.
    cbn [Nat.eqb]. replace (nth l pad 0) with (edge_extended topo l) by (symmetry; apply nth_padtopo; lia).
    replace (nth (S m) kwn 0) with (2 * PI * INR (codebin N (S m)) / (INR N * Rabs dx)) by (unfold kwn; rewrite nth_kwn1d by (auto; lia); reflexivity).
    ring.
  - intros m Hm t. unfold data. rewrite (map2_nth _ _ _ _ _ _ m C0 0 C0) by lia.
    rewrite nth_sumtopo by (auto; lia). rewrite Lp. unfold cscal. cbn [fst snd].
    set (e := g * exp (- (zlev - np_mean topo) * nth m kwn 0)).
    rewrite Ropp_mult_distr_r_reverse, <- !Rsum_scal. fold t.
    f_equal; [|f_equal]; apply Rsum_ext; intros l Hl; destruct (m =? 0)%nat; unfold e, t; ring.
Qed.

(** ** grav2d_folding *)
Lemma axis_k2_length n d : Nat.even n = true -> (1 <= n)%nat -> length (axis_k2 n d) = n.
Proof.
  intros He Hn. apply Nat.even_spec in He. destruct He as [q ->]. unfold axis_k2. rewrite Nat.mul_comm, Nat.div_mul by lia.
  rewrite map_length, app_length, rev_length, seq_length, slice_length, seq_length. lia.
Qed.
Lemma axis_k2_length_odd q d : length (axis_k2 (2 * q + 1) d) = if (q =? 0)%nat then 1%nat else (2 * q)%nat.
Proof.
  unfold axis_k2. replace ((2 * q + 1) / 2)%nat with q by (rewrite Nat.add_comm, Nat.mul_comm, Nat.div_add by lia; reflexivity).
  rewrite map_length, app_length, rev_length, seq_length, slice_length, seq_length. destruct (Nat.eqb_spec q 0); lia.
Qed.

Lemma nth_axis_k2 n d i : Nat.even n = true -> (i < n)%nat -> d <> 0 -> nth i (axis_k2 n d) 0 = wavenumber n d i ^ 2.
Proof.
  intros He Hi Hd. assert (Hl : length (axis_k2 n d) = n) by (apply axis_k2_length; [exact He|lia]).
  assert (HN : 0 < INR n) by (apply lt_0_INR; lia). unfold wavenumber.
  assert (Hr : Rabs d * Rabs d = d * d) by (rewrite <- Rabs_mult; apply Rabs_right; nra).
  assert (Ha : 0 < Rabs d) by (apply Rabs_pos_lt; exact Hd).
  apply Nat.even_spec in He. destruct He as [q ->]. unfold axis_k2 in *. rewrite (Nat.mul_comm 2 q), Nat.div_mul in * by lia.
  set (xs := seq 1 (q + 1) ++ rev (slice (seq 1 (q + 1)) 1 (q + 1 - 1))) in *. rewrite map_length in Hl.
  rewrite (nth_map _ _ _ xs i 0 0%nat) by (rewrite Hl; exact Hi).
  assert (E : nth i xs 0%nat = S (Nat.min i (q * 2 - i))).
  { unfold xs. destruct (lt_dec i (q + 1)) as [H|H].
    - rewrite app_nth1 by (rewrite seq_length; exact H). rewrite seq_nth by exact H. lia.
    - rewrite app_nth2 by (rewrite seq_length; lia). rewrite seq_length, slice_seq by lia. rewrite nth_rev_seq by lia. lia. }
  rewrite E, S_INR. set (b := INR (Nat.min i (q * 2 - i))).
  replace ((2 * PI * b / (INR (q * 2) * Rabs d)) ^ 2) with ((2 * PI * b) ^ 2 / (INR (q * 2) ^ 2 * (Rabs d * Rabs d))) by (field; lra).
  rewrite Hr. field. repeat split; (lra || exact Hd).
Qed.

Lemma kwn2d_even nxt nyt dx dy : Nat.even nxt = true -> Nat.even nyt = true -> (1 <= nxt)%nat -> (1 <= nyt)%nat -> dx <> 0 -> dy <> 0 ->
  exists k, kwn2d nxt nyt dx dy = Ok k /\ grid nyt nxt k /\
  forall a b, (a < nyt)%nat -> (b < nxt)%nat -> get2 0 k a b = wavenumber2 nyt nxt dy dx a b.
Proof.
  intros Ex Ey Hx Hy Dx Dy. assert (Lx := axis_k2_length nxt dx Ex Hx). assert (Ly := axis_k2_length nyt dy Ey Hy).
  unfold kwn2d. rewrite Lx, Nat.eqb_refl. cbn [negb].
  rewrite (mapM_Ok_map _ _ _ (fun j => map (fun x => sqrt (x + nth j (axis_k2 nyt dy) 0)) (axis_k2 nxt dx))).
  - eexists. split; [reflexivity|]. split.
    + split; [rewrite map_length, seq_length; reflexivity|]. intros r Hr. apply in_map_iff in Hr. destruct Hr as [j [<- _]]. rewrite map_length. exact Lx.
    + intros a b Ha Hb. unfold get2. rewrite nth_map_seq by exact Ha. rewrite (nth_map _ _ _ _ b 0 0) by lia.
      rewrite !nth_axis_k2 by assumption. reflexivity.
  - intros j Hj. apply in_seq in Hj. unfold getr. rewrite (nth_error_nth' _ 0) by lia. reflexivity.
Qed.

Lemma zip2_grid {A B C : Type} (f : A -> B -> C) M N g h : grid M N g -> grid M N h -> grid M N (zip2 f g h).
Proof.
  intros [H1 H2] [H3 H4]. unfold zip2. split; [rewrite map2_length; lia|]. intros r Hr.
  apply (In_nth _ _ []) in Hr. destruct Hr as [i [Hi <-]]. rewrite map2_length in Hi.
  rewrite (map2_nth _ _ _ _ _ _ i [] []) by lia. rewrite map2_length.
  rewrite (H2 (nth i g [])), (H4 (nth i h [])) by (apply nth_In; lia). lia.
Qed.
Lemma get2_zip2 {A B C : Type} (f : A -> B -> C) M N g h i j d d1 d2 : grid M N g -> grid M N h -> (i < M)%nat -> (j < N)%nat ->
  get2 d (zip2 f g h) i j = f (get2 d1 g i j) (get2 d2 h i j).
Proof.
  intros [H1 H2] [H3 H4] Hi Hj. unfold zip2, get2. rewrite (map2_nth _ _ _ _ _ _ i [] []) by lia.
  apply map2_nth; [rewrite (H2 (nth i g [])) by (apply nth_In; lia); exact Hj|rewrite (H4 (nth i h [])) by (apply nth_In; lia); exact Hj].
Qed.

Lemma csum_powers_spec ny nx Z kwn : grid ny nx Z -> grid ny nx kwn -> forall steps i fct acc, (2 <= i)%nat ->
  fct = INR (fact (i - 1)) -> grid ny nx acc ->
  grid ny nx (csum_powers ny nx Z kwn i steps fct acc) /\
  forall a b, (a < ny)%nat -> (b < nx)%nat ->
  let k := get2 0 kwn a b in
  let t := fun i j => 2 * PI * INR a * INR i / INR ny + 2 * PI * INR b * INR j / INR nx in
  let w := fun h => if Req_EM_T k 0 then 0 else Rsum steps (fun s => k ^ (i + s - 1) / INR (fact (i + s)) * h ^ (i + s)) in
  get2 C0 (csum_powers ny nx Z kwn i steps fct acc) a b =
  cadd (get2 C0 acc a b) (Rsum ny (fun i => Rsum nx (fun j => w (get2 0 Z i j) * cos (t i j))),
                          - Rsum ny (fun i => Rsum nx (fun j => w (get2 0 Z i j) * sin (t i j)))).
Proof.
  intros HZ Hk. induction steps as [|s IH]; intros i fct acc Hi Hf Hacc.
  - split; [exact Hacc|]. intros a b Ha Hb k t w. cbn [csum_powers].
    assert (Z0 : forall f : nat -> nat -> R, Rsum ny (fun i0 => Rsum nx (fun j => w (get2 0 Z i0 j) * f i0 j)) = 0).
    { intros f. apply Rsum_eq0. intros i0 _. apply Rsum_eq0. intros j _. unfold w. cbn [Rsum]. destruct (Req_EM_T k 0); ring. }
    rewrite !Z0. unfold cadd. cbn [fst snd]. destruct (get2 C0 acc a b); cbn [fst snd]. f_equal; ring.
  - set (F := fft2 ny nx (map (map (fun z => cre (z ^ i))) Z)).
    set (D := zip2 (fun F0 k => if Req_EM_T k 0 then C0 else cscal (k ^ (i - 1) / (fct * INR i)) F0) F kwn).
    assert (HF : grid ny nx F) by apply fft2_grid. assert (HD : grid ny nx D) by (apply zip2_grid; assumption).
    change (csum_powers ny nx Z kwn i (S s) fct acc) with (csum_powers ny nx Z kwn (S i) s (fct * INR i) (zip2 cadd acc D)).
    destruct (IH (S i) (fct * INR i) (zip2 cadd acc D)) as [G1 G2]; [lia| |apply zip2_grid; assumption|].
    { subst fct. replace (S i - 1)%nat with (S (i - 1)) by lia. rewrite <- mult_INR. f_equal. replace i with (S (i - 1)) at 2 by lia. cbn [fact]. lia. }
    split; [exact G1|]. intros a b Ha Hb k t w. pose proof (G2 a b Ha Hb) as G3. cbv zeta in G3. rewrite G3. fold k.
    rewrite (get2_zip2 cadd ny nx acc D a b C0 C0 C0) by assumption.
    unfold D at 1. rewrite (get2_zip2 _ ny nx F kwn a b C0 C0 0) by assumption. fold k.
    unfold F. rewrite (get2_fft2_real (fun z => z ^ i) ny nx Z a b HZ Ha Hb).
    assert (Ff : fct * INR i = INR (fact i)).
    { subst fct. rewrite <- mult_INR. f_equal. replace i with (S (i - 1)) at 2 3 by lia. cbn [fact]. lia. }
    rewrite Ff. unfold w. destruct (Req_EM_T k 0) as [E|E].
    + unfold cadd, C0. cbn [fst snd].
      rewrite !(Rsum_eq0 ny (fun i0 => Rsum nx (fun j => 0 * _))) by (intros; apply Rsum_eq0; intros; ring). f_equal; ring.
    + assert (Sp : forall f : nat -> nat -> R,
        Rsum ny (fun i0 => Rsum nx (fun j => Rsum (S s) (fun s0 => k ^ (i + s0 - 1) / INR (fact (i + s0)) * get2 0 Z i0 j ^ (i + s0)) * f i0 j)) =
        k ^ (i - 1) / INR (fact i) * Rsum ny (fun i0 => Rsum nx (fun j => get2 0 Z i0 j ^ i * f i0 j)) +
        Rsum ny (fun i0 => Rsum nx (fun j => Rsum s (fun s0 => k ^ (S i + s0 - 1) / INR (fact (S i + s0)) * get2 0 Z i0 j ^ (S i + s0)) * f i0 j))).
      { intros f. rewrite <- Rsum_scal, <- Rsum_plus. apply Rsum_ext. intros i0 _. rewrite <- Rsum_scal, <- Rsum_plus. apply Rsum_ext. intros j _.
        rewrite Rsum_S_first. rewrite Nat.add_0_r.
        rewrite (Rsum_ext s (fun i1 => k ^ (i + S i1 - 1) / INR (fact (i + S i1)) * get2 0 Z i0 j ^ (i + S i1))
           (fun s0 => k ^ (S i + s0 - 1) / INR (fact (S i + s0)) * get2 0 Z i0 j ^ (S i + s0))); [ring|].
        intros s0 _. replace (i + S s0)%nat with (S i + s0)%nat by lia. reflexivity. }
      rewrite !Sp. unfold cadd, cscal. cbn [fst snd]. unfold t. f_equal; ring.
Qed.

Lemma fold_grid_grid M N Z : grid M N Z -> grid (2 * M) (2 * N) (fold_grid Z).
Proof.
  intros [H1 H2]. unfold fold_grid. split; [rewrite map_length, app_length, rev_length; lia|].
  intros r Hr. apply in_map_iff in Hr. destruct Hr as [r' [<- Hr]]. rewrite app_length, rev_length. apply in_app_iff in Hr.
  assert (In r' Z) by (destruct Hr as [Hr|Hr]; [exact Hr|apply in_rev; exact Hr]). rewrite (H2 r') by assumption. lia.
Qed.

Lemma nth_mirror {A : Type} (l : list A) i d : (i < 2 * length l)%nat -> nth i (l ++ rev l) d = nth (mirror (length l) i) l d.
Proof.
  intros H. unfold mirror. destruct (Nat.ltb_spec i (length l)) as [L|L].
  - apply app_nth1. exact L.
  - rewrite app_nth2 by exact L. rewrite rev_nth by lia. f_equal. lia.
Qed.

Lemma get2_fold M N Z i j : grid M N Z -> (i < 2 * M)%nat -> (j < 2 * N)%nat ->
  get2 0 (fold_grid Z) i j = get2 0 Z (mirror M i) (mirror N j).
Proof.
  intros [H1 H2] Hi Hj. unfold fold_grid, get2. rewrite (nth_map _ _ _ _ i [] []) by (rewrite app_length, rev_length; lia).
  rewrite (nth_mirror Z i []) by lia. rewrite H1. assert (Hm : (mirror M i < M)%nat) by (unfold mirror; destruct (Nat.ltb_spec i M); lia).
  assert (L : length (nth (mirror M i) Z []) = N) by (apply H2, nth_In; lia).
  rewrite nth_mirror by lia. rewrite L. reflexivity.
Qed.

Lemma concat_length_grid M N (g : list (list R)) : grid M N g -> length (concat g) = (M * N)%nat.
Proof.
  intros [H1 H2]. subst M. induction g as [|r g IH]; [reflexivity|]. cbn [concat length]. rewrite app_length, IH.
  - rewrite (H2 r) by (left; reflexivity). lia.
  - intros r' Hr. apply H2. right. exact Hr.
Qed.
Lemma pysum_concat_grid M N (g : list (list R)) : grid M N g -> pysum (concat g) = Rsum M (fun i => Rsum N (fun j => cell g i j)).
Proof.
  intros [H1 H2]. subst M. induction g as [|r g IH]; [reflexivity|]. cbn [concat length]. rewrite pysum_app, Rsum_S_first. f_equal.
  - rewrite pysum_Rsum. rewrite (H2 r) by (left; reflexivity). reflexivity.
  - rewrite IH; [reflexivity|]. intros r' Hr. apply H2. right. exact Hr.
Qed.
Lemma np_mean_grid M N g : grid M N g -> np_mean (concat g) = grid_mean M N g.
Proof.
  intros H. unfold np_mean, grid_mean. rewrite (concat_length_grid M N), (pysum_concat_grid M N) by exact H. rewrite mult_INR. reflexivity.
Qed.

(** Parker polynomial split into first and higher powers. *)
Lemma parker_poly_split P k h : (1 <= P)%nat ->
  parker_poly P k h = h + Rsum (P - 1) (fun s => k ^ (2 + s - 1) / INR (fact (2 + s)) * h ^ (2 + s)).
Proof.
  intros H. unfold parker_poly. replace P with (S (P - 1)) at 1 by lia. rewrite Rsum_S_first. f_equal.
  - cbn. field.
  - apply Rsum_ext. intros s _. replace (S s + 1)%nat with (2 + s)%nat by lia. replace (2 + s - 1)%nat with (S s) by lia. reflexivity.
Qed.

Lemma wavenumber_pos N d m : (0 < m < N)%nat -> d <> 0 -> 0 < wavenumber N d m.
Proof.
  intros H Hd. unfold wavenumber. pose proof PI_RGT_0. apply Rdiv_lt_0_compat.
  - apply Rmult_lt_0_compat; [lra|]. apply lt_0_INR. lia.
  - apply Rmult_lt_0_compat; [apply lt_0_INR; lia|apply Rabs_pos_lt; exact Hd].
Qed.
Lemma wavenumber_0 N d : wavenumber N d 0 = 0.
Proof. unfold wavenumber. cbn [Nat.min INR]. unfold Rdiv. ring. Qed.
Lemma wavenumber2_zero M N dy dx : wavenumber2 M N dy dx 0 0 = 0.
Proof. unfold wavenumber2. rewrite !wavenumber_0. replace (0 ^ 2 + 0 ^ 2) with 0 by ring. apply sqrt_0. Qed.
Lemma wavenumber2_pos M N dy dx a b : (a < M)%nat -> (b < N)%nat -> dx <> 0 -> dy <> 0 -> (a + b =? 0)%nat = false ->
  0 < wavenumber2 M N dy dx a b.
Proof.
  intros Ha Hb Dx Dy H. apply Nat.eqb_neq in H. unfold wavenumber2. apply sqrt_lt_R0.
  pose proof (pow2_ge_0 (wavenumber N dx b)). pose proof (pow2_ge_0 (wavenumber M dy a)).
  destruct (Nat.eq_dec b 0) as [->|Hb0].
  - pose proof (pow_lt _ 2 (wavenumber_pos M dy a ltac:(lia) Dy)). lra.
  - pose proof (pow_lt _ 2 (wavenumber_pos N dx b ltac:(lia) Dx)). lra.
Qed.

Lemma map_cre g : map (map cre) g = map (map (fun v => cre ((fun x => x) v))) g.
Proof. reflexivity. Qed.

(** Unpadded core: powers, continuation and inverse transform. *)
Lemma fold_core nyt nxt (Zf kwn : list (list R)) (dx dy grav zlev : R) P i j : (1 <= nyt)%nat -> (1 <= nxt)%nat -> dx <> 0 -> dy <> 0 ->
  grid nyt nxt Zf -> grid nyt nxt kwn ->
  (forall a b, (a < nyt)%nat -> (b < nxt)%nat -> get2 0 kwn a b = wavenumber2 nyt nxt dy dx a b) ->
  (i < nyt)%nat -> (j < nxt)%nat ->
  let data := fft2 nyt nxt (map (map cre) Zf) in
  let data := upd data 0 (upd (nth 0 data []) 0 C0) in
  let cs := csum_powers nyt nxt Zf kwn 2 (P - 1) 1 data in
  let data := zip2 (fun S k => cscal (grav * exp (- zlev * k)) S) cs kwn in
  fst (get2 C0 (ifft2 nyt nxt data) i j) =
  synthesis2 nyt nxt (wavenumber2 nyt nxt dy dx) (fun i j => get2 0 Zf i j)
    (fun k h => grav * exp (- zlev * k) * parker_poly (Nat.max 1 P) k h) i j.
Proof.
  intros Hy Hx Dx Dy HZ Hk Hkw Hi Hj data0 data1 cs data2.
  assert (G0 : grid nyt nxt data0) by apply fft2_grid.
  assert (R0 : length (nth 0 data0 []) = nxt) by (apply G0, nth_In; destruct G0; lia).
  assert (G1 : grid nyt nxt data1).
  { destruct G0 as [A1 A2]. unfold data1. split; [rewrite upd_length; exact A1|]. intros r Hr. apply (In_nth _ _ []) in Hr.
    destruct Hr as [q [Hq <-]]. rewrite upd_length in Hq. rewrite nth_upd. destruct (_ && _)%bool; [rewrite upd_length; exact R0|]. apply A2, nth_In. exact Hq. }
  assert (E1 : forall a b, (a < nyt)%nat -> (b < nxt)%nat -> get2 C0 data1 a b = if (a + b =? 0)%nat then C0 else get2 C0 data0 a b).
  { intros a b Ha Hb. destruct G0 as [A1 _]. unfold data1, get2. rewrite nth_upd, A1.
    destruct a as [|a]; cbn [Nat.eqb andb Nat.add].
    - rewrite (proj2 (Nat.ltb_lt 0 nyt)) by lia. rewrite nth_upd, R0. destruct b as [|b]; cbn [Nat.eqb andb]; [|reflexivity].
      rewrite (proj2 (Nat.ltb_lt 0 nxt)) by lia. reflexivity.
    - reflexivity. }
  destruct (csum_powers_spec nyt nxt Zf kwn HZ Hk (P - 1) 2 1 data1) as [G2 E2]; [lia|reflexivity|exact G1|]. fold cs in G2, E2.
  unfold synthesis2.
  rewrite (filter2_re nyt nxt data2 (fun i j => get2 0 Zf i j)
    (fun a b h => if (a + b =? 0)%nat then 0 else grav * exp (- zlev * wavenumber2 nyt nxt dy dx a b) * parker_poly (Nat.max 1 P) (wavenumber2 nyt nxt dy dx a b) h) i j Hi Hj); [reflexivity|].
  intros a b Ha Hb t. unfold data2. rewrite (get2_zip2 _ nyt nxt cs kwn a b C0 C0 0) by assumption.
  pose proof (E2 a b Ha Hb) as E3. cbv zeta in E3. rewrite E3. rewrite (E1 a b Ha Hb), (Hkw a b Ha Hb).
  unfold data0. rewrite map_cre. rewrite (get2_fft2_real (fun x => x) nyt nxt Zf a b HZ Ha Hb). set (k := wavenumber2 nyt nxt dy dx a b).
  destruct (Nat.eqb_spec (a + b) 0) as [E|E].
  - assert (a = 0%nat) by lia. assert (b = 0%nat) by lia. subst a b. assert (K0 : k = 0) by apply wavenumber2_zero.
    unfold C0, cadd, cscal. cbn [fst snd]. destruct (Req_EM_T k 0) as [_|B]; [|contradiction].
    rewrite !(Rsum_eq0 nyt (fun i0 => Rsum nxt (fun j0 => 0 * _))) by (intros; apply Rsum_eq0; intros; ring). f_equal; ring.
  - assert (Kp : 0 < k) by (apply wavenumber2_pos; try assumption; apply Nat.eqb_neq; exact E).
    destruct (Req_EM_T k 0) as [B|_]; [lra|]. unfold cadd, cscal. cbn [fst snd]. set (e := grav * exp (- zlev * k)).
    assert (Sp : forall f : nat -> nat -> R, Rsum nyt (fun i0 => Rsum nxt (fun j0 => e * parker_poly (Nat.max 1 P) k (get2 0 Zf i0 j0) * f i0 j0)) =
      e * (Rsum nyt (fun i0 => Rsum nxt (fun j0 => get2 0 Zf i0 j0 * f i0 j0)) +
           Rsum nyt (fun i0 => Rsum nxt (fun j0 => Rsum (P - 1) (fun s => k ^ (2 + s - 1) / INR (fact (2 + s)) * get2 0 Zf i0 j0 ^ (2 + s)) * f i0 j0)))).
    { intros f. rewrite <- Rsum_plus, <- Rsum_scal. apply Rsum_ext. intros i0 _. rewrite <- Rsum_plus, <- Rsum_scal. apply Rsum_ext. intros j0 _.
      rewrite parker_poly_split by lia. replace (Nat.max 1 P - 1)%nat with (P - 1)%nat by lia. ring. }
    unfold t. rewrite !Sp. f_equal; ring.
Qed.
