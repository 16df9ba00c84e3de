(** Lemmas about discrete Fourier transforms. *)
From Coq Require Import List Reals Arith Lia Lra.
From Verif Require Import M_Py M_Fft S_Base S_Four L_Base L_Np.
Import ListNotations.
Open Scope R_scope.

Lemma pysum_map_map (A B : Type) (f : A -> B) (g : B -> R) l : pysum (map g (map f l)) = pysum (map (fun x => g (f x)) l).
Proof. rewrite map_map. reflexivity. Qed.

Lemma csum_map_seq f n : csum (map f (seq 0 n)) = (Rsum n (fun i => fst (f i)), Rsum n (fun i => snd (f i))).
Proof. unfold csum. rewrite !map_map, !pysum_map_seq. reflexivity. Qed.

Lemma fft_length x : length (fft x) = length x.
Proof. unfold fft. rewrite map_length, seq_length. reflexivity. Qed.
Lemma ifft_length x : length (ifft x) = length x.
Proof. unfold ifft. rewrite map_length, seq_length. reflexivity. Qed.

Lemma nth_fft x m : (m < length x)%nat -> let t := fun j => 2 * PI * INR m * INR j / INR (length x) in
  nth m (fft x) C0 = (Rsum (length x) (fun j => fst (nth j x C0) * cos (t j) + snd (nth j x C0) * sin (t j)),
                      Rsum (length x) (fun j => snd (nth j x C0) * cos (t j) - fst (nth j x C0) * sin (t j))).
Proof.
  intros H t. unfold fft. rewrite nth_map_seq by exact H. rewrite csum_map_seq. f_equal; apply Rsum_ext; intros j Hj;
  unfold cmul, cis; cbn [fst snd]; rewrite cos_neg, sin_neg; unfold t; ring.
Qed.

(** Transform of a real sequence. *)
Lemma nth_fft_real (f : R -> R) x m : (m < length x)%nat -> let t := fun j => 2 * PI * INR m * INR j / INR (length x) in
  nth m (fft (map (fun v => cre (f v)) x)) C0 =
  (Rsum (length x) (fun j => f (nth j x 0) * cos (t j)), - Rsum (length x) (fun j => f (nth j x 0) * sin (t j))).
Proof.
  intros H t. assert (L : length (map (fun v => cre (f v)) x) = length x) by apply map_length.
  rewrite nth_fft by (rewrite L; exact H). rewrite L.
  replace (- Rsum (length x) (fun j => f (nth j x 0) * sin (t j))) with (Rsum (length x) (fun j => (-1) * (f (nth j x 0) * sin (t j)))) by (rewrite Rsum_scal; ring).
  f_equal; apply Rsum_ext; intros j Hj; rewrite (nth_map _ _ _ x j C0 0) by exact Hj; unfold cre, t; cbn [fst snd]; ring.
Qed.

Lemma nth_ifft_re x m : (m < length x)%nat -> let t := fun j => 2 * PI * INR m * INR j / INR (length x) in
  fst (nth m (ifft x) C0) = / INR (length x) * Rsum (length x) (fun j => fst (nth j x C0) * cos (t j) - snd (nth j x C0) * sin (t j)).
Proof.
  intros H t. unfold ifft. rewrite nth_map_seq by exact H. rewrite csum_map_seq. unfold cscal. cbn [fst]. f_equal.
Qed.

(** ** Sums of roots of unity *)
Lemma cos_sum_zero N m a : (0 < m < N)%nat -> Rsum N (fun l => cos (a + 2 * PI * INR m * INR l / INR N)) = 0.
Proof.
  intros H. assert (HN : 0 < INR N) by (apply lt_0_INR; lia). assert (Hm : 0 < INR m) by (apply lt_0_INR; lia).
  assert (Hlt : INR m < INR N) by (apply lt_INR; lia). set (b := 2 * PI * INR m / INR N).
  assert (Hs : 0 < sin (b / 2)).
  { pose proof PI_RGT_0 as Hp. unfold b. replace (2 * PI * INR m / INR N / 2) with (PI * (INR m / INR N)) by (field; lra).
    assert (0 < INR m / INR N) by (apply Rdiv_lt_0_compat; lra).
    assert (INR m / INR N < 1) by (apply Rmult_lt_reg_r with (INR N); [lra|]; unfold Rdiv; rewrite Rmult_assoc, Rinv_l, Rmult_1_r, Rmult_1_l by lra; exact Hlt).
    apply sin_gt_0; nra. }
  assert (T : forall n, 2 * sin (b / 2) * Rsum n (fun l => cos (a + 2 * PI * INR m * INR l / INR N)) = sin (a + b * INR n - b / 2) - sin (a - b / 2)).
  { induction n as [|n IH]; [cbn [Rsum INR]; replace (a + b * 0 - b / 2) with (a - b / 2) by ring; ring|].
    cbn [Rsum]. rewrite Rmult_plus_distr_l, IH. rewrite S_INR.
    replace (2 * PI * INR m * INR n / INR N) with (b * INR n) by (unfold b; field; lra).
    replace (a + b * (INR n + 1) - b / 2) with (a + b * INR n + b / 2) by field.
    set (c := a + b * INR n). rewrite sin_plus, (sin_minus c). ring. }
  specialize (T N). replace (b * INR N) with (2 * INR m * PI) in T by (unfold b; field; lra).
  replace (a + 2 * INR m * PI - b / 2) with (a - b / 2 + 2 * INR m * PI) in T by ring. rewrite sin_period in T.
  assert (Z : 2 * sin (b / 2) * Rsum N (fun l => cos (a + 2 * PI * INR m * INR l / INR N)) = 0) by lra.
  apply Rmult_integral in Z. destruct Z; lra.
Qed.

Lemma sin_sum_zero N m a : (0 < m < N)%nat -> Rsum N (fun l => sin (a + 2 * PI * INR m * INR l / INR N)) = 0.
Proof.
  intros H. rewrite <- (cos_sum_zero N m (a - PI / 2) H). apply Rsum_ext. intros l Hl.
  replace (a - PI / 2 + 2 * PI * INR m * INR l / INR N) with (- (PI / 2 - (a + 2 * PI * INR m * INR l / INR N))) by ring.
  rewrite cos_neg, cos_shift. reflexivity.
Qed.

(** ** Grids *)
Lemma get2_nth_map {A B : Type} (f : A -> B) (g : list (list A)) M N i j d d' : grid M N g -> (i < M)%nat -> (j < N)%nat ->
  get2 d (map (map f) g) i j = f (get2 d' g i j).
Proof.
  intros [H1 H2] Hi Hj. unfold get2. rewrite (nth_map _ _ (map f) g i [] []) by lia.
  apply nth_map. rewrite (H2 (nth i g [])); [exact Hj|]. apply nth_In. lia.
Qed.

Lemma grid_map_map {A B : Type} (f : A -> B) (g : list (list A)) M N : grid M N g -> grid M N (map (map f) g).
Proof.
  intros [H1 H2]. split; [rewrite map_length; exact H1|]. intros r Hr. apply in_map_iff in Hr. destruct Hr as [r' [<- Hr]].
  rewrite map_length. apply H2. exact Hr.
Qed.

Lemma grid_tab {A : Type} (f : nat -> nat -> A) M N : grid M N (map (fun i => map (f i) (seq 0 N)) (seq 0 M)).
Proof.
  split; [rewrite map_length, seq_length; reflexivity|]. intros r Hr. apply in_map_iff in Hr. destruct Hr as [i [<- _]].
  rewrite map_length, seq_length. reflexivity.
Qed.
Lemma get2_tab {A : Type} (f : nat -> nat -> A) M N i j d : (i < M)%nat -> (j < N)%nat ->
  get2 d (map (fun i => map (f i) (seq 0 N)) (seq 0 M)) i j = f i j.
Proof. intros Hi Hj. unfold get2. rewrite nth_map_seq by exact Hi. apply nth_map_seq. exact Hj. Qed.

Lemma fft2_grid M N g : grid M N (fft2 M N g).
Proof. unfold fft2. apply (grid_tab (fun a b => csum _)). Qed.
Lemma ifft2_grid M N g : grid M N (ifft2 M N g).
Proof. unfold ifft2. apply (grid_tab (fun a b => cscal _ _)). Qed.

(** Transform of a real grid. *)
Lemma get2_fft2_real (f : R -> R) M N g a b : grid M N g -> (a < M)%nat -> (b < N)%nat ->
  let t := fun i j => 2 * PI * INR a * INR i / INR M + 2 * PI * INR b * INR j / INR N in
  get2 C0 (fft2 M N (map (map (fun v => cre (f v))) g)) a b =
  (Rsum M (fun i => Rsum N (fun j => f (get2 0 g i j) * cos (t i j))),
   - Rsum M (fun i => Rsum N (fun j => f (get2 0 g i j) * sin (t i j)))).
Proof.
  intros Hg Ha Hb t. unfold fft2.
  rewrite (get2_tab (fun a b => csum (map (fun i => csum (map (fun j => cmul (get2 C0 (map (map (fun v => cre (f v))) g) i j)
     (cis (- (2 * PI * INR a * INR i / INR M + 2 * PI * INR b * INR j / INR N)))) (seq 0 N))) (seq 0 M)))) by assumption.
  rewrite csum_map_seq. f_equal.
  - apply Rsum_ext. intros i Hi. rewrite csum_map_seq. cbn [fst]. apply Rsum_ext. intros j Hj.
    rewrite (get2_nth_map _ g M N i j C0 0 Hg Hi Hj). unfold cmul, cis, cre. cbn [fst snd]. rewrite cos_neg. unfold t. ring.
  - replace (- Rsum M (fun i => Rsum N (fun j => f (get2 0 g i j) * sin (t i j)))) with
      (Rsum M (fun i => (-1) * Rsum N (fun j => f (get2 0 g i j) * sin (t i j)))) by (rewrite Rsum_scal; ring).
    apply Rsum_ext. intros i Hi. rewrite csum_map_seq. cbn [snd]. rewrite <- Rsum_scal. apply Rsum_ext. intros j Hj.
    rewrite (get2_nth_map _ g M N i j C0 0 Hg Hi Hj). unfold cmul, cis, cre. cbn [fst snd]. rewrite sin_neg. unfold t. ring.
Qed.

Lemma get2_ifft2_re M N g i j : (i < M)%nat -> (j < N)%nat ->
  let t := fun a b => 2 * PI * INR i * INR a / INR M + 2 * PI * INR j * INR b / INR N in
  fst (get2 C0 (ifft2 M N g) i j) = / (INR M * INR N) *
    Rsum M (fun a => Rsum N (fun b => fst (get2 C0 g a b) * cos (t a b) - snd (get2 C0 g a b) * sin (t a b))).
Proof.
  intros Hi Hj t. unfold ifft2.
  rewrite (get2_tab (fun a b => cscal (/ (INR M * INR N)) (csum (map (fun i => csum (map (fun j => cmul (get2 C0 g i j)
     (cis (2 * PI * INR a * INR i / INR M + 2 * PI * INR b * INR j / INR N))) (seq 0 N))) (seq 0 M))))) by assumption.
  unfold cscal. cbn [fst]. rewrite csum_map_seq. cbn [fst]. f_equal. apply Rsum_ext. intros a Ha. rewrite csum_map_seq. reflexivity.
Qed.

(** Filtering a real grid in the Fourier domain: if entry (a,b) of the transform is
    (sum of w_ab(h) cos, - sum of w_ab(h) sin), the real part of the inverse is the synthesis. *)
Lemma filter2_re M N g (h : nat -> nat -> R) (w : nat -> nat -> R -> R) i j :
  (i < M)%nat -> (j < N)%nat ->
  (forall a b, (a < M)%nat -> (b < N)%nat ->
    let t := fun i j => 2 * PI * INR a * INR i / INR M + 2 * PI * INR b * INR j / INR N in
    get2 C0 g a b = (Rsum M (fun i => Rsum N (fun j => w a b (h i j) * cos (t i j))),
                     - Rsum M (fun i => Rsum N (fun j => w a b (h i j) * sin (t i j))))) ->
  fst (get2 C0 (ifft2 M N g) i j) = / (INR M * INR N) *
    Rsum M (fun a => Rsum N (fun b => Rsum M (fun i' => Rsum N (fun j' => w a b (h i' j') * cos (phase2 M N a b i j i' j'))))).
Proof.
  intros Hi Hj H. rewrite get2_ifft2_re by assumption. f_equal.
  assert (HM : INR M <> 0) by (apply not_0_INR; lia). assert (HN : INR N <> 0) by (apply not_0_INR; lia).
  apply Rsum_ext. intros a Ha. apply Rsum_ext. intros b Hb. rewrite (H a b Ha Hb). cbn [fst snd].
  set (p := 2 * PI * INR i * INR a / INR M + 2 * PI * INR j * INR b / INR N).
  match goal with |- ?A * cos p - - ?B * sin p = _ => transitivity (A * cos p + B * sin p); [ring|] end.
  rewrite <- !Rsum_scal_r, <- Rsum_plus. apply Rsum_ext. intros i' Hi'.
  rewrite <- !Rsum_scal_r, <- Rsum_plus. apply Rsum_ext. intros j' Hj'.
  set (q := 2 * PI * INR a * INR i' / INR M + 2 * PI * INR b * INR j' / INR N).
  replace (phase2 M N a b i j i' j') with (p - q) by (unfold phase2, p, q; field; auto). rewrite cos_minus. ring.
Qed.

(** One dimension. *)
Lemma filter1_re N g (h : nat -> R) (w : nat -> R -> R) j : length g = N -> (j < N)%nat ->
  (forall m, (m < N)%nat -> let t := fun l => 2 * PI * INR m * INR l / INR N in
    nth m g C0 = (Rsum N (fun l => w m (h l) * cos (t l)), - Rsum N (fun l => w m (h l) * sin (t l)))) ->
  fst (nth j (ifft g) C0) = / INR N * Rsum N (fun m => Rsum N (fun l => w m (h l) * cos (2 * PI * INR m * (INR j - INR l) / INR N))).
Proof.
  intros HL Hj H. rewrite nth_ifft_re by lia. rewrite HL. f_equal. assert (HN : INR N <> 0) by (apply not_0_INR; lia).
  apply Rsum_ext. intros m Hm. rewrite (H m Hm). cbn [fst snd].
  set (p := 2 * PI * INR j * INR m / INR N).
  match goal with |- ?A * cos p - - ?B * sin p = _ => transitivity (A * cos p + B * sin p); [ring|] end.
  rewrite <- !Rsum_scal_r, <- Rsum_plus. apply Rsum_ext. intros l Hl.
  replace (2 * PI * INR m * (INR j - INR l) / INR N) with (p - 2 * PI * INR m * INR l / INR N) by (unfold p; field; auto).
  rewrite cos_minus. ring.
Qed.
