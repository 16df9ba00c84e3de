(** Proofs for the gaussian filter. *)
From Coq Require Import List ZArith Reals Lia Lra Bool.
From Verif Require Import M_Py S_Base L_Base M_Gauss S_Gauss.
Import ListNotations.
Open Scope R_scope.

(** ** The coefficient loop *)
Lemma gauss_fold_closed half frac : forall (l : list Z) m g,
  (m + length l <= length g)%nat ->
  let st := fold_left (gauss_step half frac) l (m, g) in
  fst st = (m + length l)%nat /\ length (snd st) = length g /\
  forall i, (i < length g)%nat ->
    nth i (snd st) 0 =
      if (Nat.leb m i && Nat.ltb i (m + length l))%bool
      then exp (- (1/2) * (((IZR half - IZR (nth (i - m) l 0%Z)) * frac) ^ 2))
      else nth i g 0.
Proof.
  induction l as [|a l IH]; intros m g Hlen st.
  - subst st. simpl. split; [lia|]. split; [reflexivity|].
    intros i Hi. rewrite Nat.add_0_r.
    destruct (Nat.leb_spec m i); destruct (Nat.ltb_spec i m); simpl; try reflexivity; lia.
  - subst st. cbn [fold_left]. unfold gauss_step at 2. unfold gauss_step at 3. unfold gauss_step at 4.
    cbn zeta. cbn [length] in *.
    set (v := exp _) at 1 2 3.
    specialize (IH (S m) (upd g m v)). rewrite upd_length in IH.
    specialize (IH ltac:(lia)). destruct IH as [H1 [H2 H3]].
    split; [rewrite H1; lia|]. split; [exact H2|].
    intros i Hi. rewrite H3 by exact Hi.
    rewrite nth_upd.
    destruct (Nat.leb_spec (S m) i); destruct (Nat.ltb_spec i (S m + length l));
    destruct (Nat.leb_spec m i); destruct (Nat.ltb_spec i (m + S (length l)));
    destruct (Nat.eqb_spec i m); destruct (Nat.ltb_spec m (length g)); simpl; try lia; try reflexivity.
    + replace (i - m)%nat with (S (i - S m)) by lia. reflexivity.
    + subst i. rewrite Nat.sub_diag. unfold v. reflexivity.
Qed.

Definition half_win (fl : Z) : list R :=
  map (fun m => win_raw fl (Z.of_nat m)) (seq 0 (Z.to_nat (fl / 2 + 1))).

Lemma gauss_half (fl : Z) : (1 <= fl)%Z ->
  snd (fold_left (gauss_step (fl / 2) (6 / IZR fl)) (range_down (Z.to_nat (fl / 2 + 1)))
         (O, repeat 0 (Z.to_nat (fl / 2 + 1)))) = half_win fl.
Proof.
  intros Hfl. set (n := Z.to_nat (fl / 2 + 1)).
  assert (Hh : (0 <= fl / 2)%Z) by (apply Z.div_pos; lia).
  destruct (gauss_fold_closed (fl / 2) (6 / IZR fl) (range_down n) O (repeat 0 n)) as [_ [H2 H3]].
  { rewrite range_down_length, repeat_length. lia. }
  apply list_eq_nth with (d := 0).
  - rewrite H2. unfold half_win. rewrite map_length, seq_length, repeat_length. reflexivity.
  - intros i Hi. rewrite H2 in Hi. rewrite H3 by exact Hi. rewrite repeat_length in Hi.
    rewrite range_down_length.
    destruct (Nat.leb_spec 0 i); [|lia]. destruct (Nat.ltb_spec i (0 + n)); [|lia].
    cbn [andb]. unfold half_win. fold n. rewrite nth_map_seq by lia.
    rewrite Nat.sub_0_r, nth_range_down by lia.
    unfold win_raw. f_equal.
    assert (E : IZR (fl / 2) - IZR (Z.of_nat (n - i)) = IZR (Z.of_nat i - 1)).
    { rewrite <- minus_IZR. f_equal. unfold n in *. lia. }
    rewrite E. 
    assert (Hf : IZR fl <> 0) by (apply not_0_IZR; lia).
    assert (Ea : (Z.abs (Z.of_nat i) - 1 = Z.of_nat i - 1)%Z) by lia.
    rewrite Ea. field. exact Hf.
Qed.

Lemma half_win_cons fl : (1 <= fl)%Z ->
  half_win fl = win_raw fl 0 :: map (fun m => win_raw fl (Z.of_nat m)) (seq 1 (win_mid fl)).
Proof.
  intros H. unfold half_win, win_mid.
  assert (Hh : (0 <= fl / 2)%Z) by (apply Z.div_pos; lia).
  replace (Z.to_nat (fl / 2 + 1)) with (S (Z.to_nat (fl / 2))) by lia. reflexivity.
Qed.

Lemma win_len_mid fl : (1 <= fl)%Z -> win_len fl = (2 * win_mid fl + 1)%nat.
Proof.
  intros H. unfold win_len, win_mid.
  assert (Hh : (0 <= fl / 2)%Z) by (apply Z.div_pos; lia). lia.
Qed.

Lemma win_raw_abs fl d : win_raw fl (- d) = win_raw fl d.
Proof. unfold win_raw. rewrite Z.abs_opp. reflexivity. Qed.

Lemma gauss_full fl : (1 <= fl)%Z ->
  let t := map (fun m => win_raw fl (Z.of_nat m)) (seq 1 (win_mid fl)) in
  rev t ++ [win_raw fl 0] ++ t =
  map (fun k => win_raw fl (Z.of_nat k - fl / 2)) (seq 0 (win_len fl)).
Proof.
  intros H t.
  assert (Hh : (0 <= fl / 2)%Z) by (apply Z.div_pos; lia).
  assert (Hm : Z.of_nat (win_mid fl) = (fl / 2)%Z) by (unfold win_mid; lia).
  assert (Ht : length t = win_mid fl) by (unfold t; rewrite map_length, seq_length; reflexivity).
  assert (Hn : forall i, (i < win_mid fl)%nat -> nth i t 0 = win_raw fl (Z.of_nat i + 1)).
  { intros i Hi. unfold t. rewrite nth_map with (d' := O) by (rewrite seq_length; lia).
    rewrite seq_nth by lia. f_equal. lia. }
  apply list_eq_nth with (d := 0).
  - rewrite !app_length, rev_length, map_length, seq_length, Ht, win_len_mid by exact H. simpl. lia.
  - rewrite !app_length, rev_length, Ht. cbn [length]. intros i Hi.
    rewrite nth_map_seq by (rewrite win_len_mid by exact H; lia).
    destruct (lt_eq_lt_dec i (win_mid fl)) as [[Hlt|Heq]|Hgt].
    + rewrite app_nth1 by (rewrite rev_length; lia).
      rewrite rev_nth by lia. rewrite Ht, Hn by lia.
      rewrite <- win_raw_abs. f_equal. lia.
    + rewrite app_nth2 by (rewrite rev_length; lia). rewrite rev_length, Ht.
      subst i. rewrite Nat.sub_diag. simpl. f_equal. lia.
    + rewrite app_nth2 by (rewrite rev_length; lia). rewrite rev_length, Ht.
      rewrite app_nth2 by (simpl; lia). cbn [length].
      rewrite Hn by lia. f_equal. lia.
Qed.

Lemma gaussian_coeffs_closed fl : (1 <= fl)%Z ->
  gaussian_coeffs fl = Ok (map (weight fl) (seq 0 (win_len fl))).
Proof.
  intros H. unfold gaussian_coeffs.
  assert (Hh : (0 <= fl / 2)%Z) by (apply Z.div_pos; lia).
  destruct (Z.eqb_spec fl 0); [lia|].
  destruct (Z.ltb_spec (fl / 2 + 1) 0); [lia|].
  pose proof (gauss_half fl H) as Hg.
  destruct (fold_left _ _ _) as [m g]. simpl in Hg. subst g.
  rewrite half_win_cons by exact H. rewrite gauss_full by exact H.
  f_equal. rewrite map_map. apply map_ext_in. intros k Hk. apply in_seq in Hk.
  unfold weight. f_equal. f_equal.
  rewrite pysum_Rsum, map_length, seq_length. apply Rsum_ext.
  intros i Hi. rewrite nth_map_seq by exact Hi. reflexivity.
Qed.

(** ** Weights *)
Lemma win_raw_pos fl d : 0 < win_raw fl d.
Proof. apply exp_pos. Qed.

Lemma win_len_pos fl : (1 <= fl)%Z -> (0 < win_len fl)%nat.
Proof. intros H. rewrite win_len_mid by exact H. lia. Qed.

Lemma weight_den_pos fl : (1 <= fl)%Z ->
  0 < Rsum (win_len fl) (fun j => win_raw fl (Z.of_nat j - fl / 2)).
Proof. intros H. apply Rsum_pos; [apply win_len_pos; exact H|]. intros; apply win_raw_pos. Qed.

Lemma weight_pos fl k : (1 <= fl)%Z -> 0 < weight fl k.
Proof.
  intros H. unfold weight. apply Rdiv_lt_0_compat; [apply win_raw_pos|].
  apply weight_den_pos; exact H.
Qed.

Lemma weight_sum fl : (1 <= fl)%Z -> Rsum (win_len fl) (weight fl) = 1.
Proof.
  intros H. unfold weight. rewrite Rsum_div.
  apply Rinv_r. apply Rgt_not_eq, weight_den_pos; exact H.
Qed.

Lemma weight_sym fl k : (1 <= fl)%Z -> (k < win_len fl)%nat ->
  weight fl (win_len fl - 1 - k) = weight fl k.
Proof.
  intros H Hk. unfold weight. f_equal.
  assert (Hm : Z.of_nat (win_mid fl) = (fl / 2)%Z).
  { unfold win_mid. assert ((0 <= fl / 2)%Z) by (apply Z.div_pos; lia). lia. }
  rewrite <- (win_raw_abs fl (Z.of_nat k - fl / 2)). f_equal.
  rewrite win_len_mid in * by exact H. lia.
Qed.

(** ** The ring buffer *)
Lemma gf_loop_length c : forall x r, length (gf_loop c r x) = length x.
Proof. induction x; intros; simpl; auto. Qed.

(** the buffer holds the last samples, newest last *)
Definition ring_ok (hist : list R) (r : list R) : Prop :=
  forall k, (k < length r)%nat ->
    nth (length r - 1 - k) r 0 = sample hist (Z.of_nat (length hist) - 1 - Z.of_nat k).

Lemma ring_ok_init n : ring_ok [] (repeat 0 n).
Proof.
  intros k Hk. rewrite repeat_length in *. rewrite nth_repeat_lt by lia.
  unfold sample. cbn [length]. destruct (Z.ltb_spec (Z.of_nat 0 - 1 - Z.of_nat k) 0); [reflexivity|lia].
Qed.

Lemma ring_ok_step hist r a : (0 < length r)%nat ->
  ring_ok hist r -> ring_ok (hist ++ [a]) (tl r ++ [a]).
Proof.
  intros Hr H k Hk. rewrite !app_length, length_tl in *. cbn [length] in *.
  destruct k as [|k].
  - rewrite app_nth2 by (rewrite length_tl; lia). rewrite length_tl.
    replace (length r - 1 + 1 - 1 - 0 - (length r - 1))%nat with O by lia.
    unfold sample. destruct (Z.ltb_spec (Z.of_nat (length hist + 1) - 1 - Z.of_nat 0) 0); [lia|].
    rewrite app_nth2 by lia.
    replace (Z.to_nat _ - length hist)%nat with O by lia. reflexivity.
  - rewrite app_nth1 by (rewrite length_tl; lia). rewrite nth_tl.
    specialize (H k ltac:(lia)).
    replace (S (length r - 1 + 1 - 1 - S k)) with (length r - 1 - k)%nat by lia.
    rewrite H. unfold sample.
    replace (Z.of_nat (length hist + 1) - 1 - Z.of_nat (S k))%Z with (Z.of_nat (length hist) - 1 - Z.of_nat k)%Z by lia.
    destruct (Z.ltb_spec (Z.of_nat (length hist) - 1 - Z.of_nat k) 0); [reflexivity|].
    rewrite app_nth1 by lia. reflexivity.
Qed.

Lemma gf_loop_nth c : forall x hist r i,
  length r = length c -> (0 < length c)%nat -> ring_ok hist r -> (i < length x)%nat ->
  nth i (gf_loop c r x) 0 =
  Rsum (length c) (fun j => nth (length c - 1 - j) c 0 *
    sample (hist ++ x) (Z.of_nat (length hist) + Z.of_nat i - Z.of_nat j)).
Proof.
  induction x as [|a x IH]; intros hist r i Hr Hc Hok Hi; [simpl in Hi; lia|].
  assert (Hr' : length (tl r ++ [a]) = length c) by (rewrite app_length, length_tl; simpl; lia).
  pose proof (ring_ok_step hist r a ltac:(lia) Hok) as Hok'.
  cbn [gf_loop]. destruct i as [|i].
  - cbn [nth]. rewrite pysum_Rsum, map2_length, Hr', Nat.min_id.
    rewrite Rsum_rev. apply Rsum_ext. intros j Hj.
    rewrite map2_nth with (d1 := 0) (d2 := 0) by lia.
    rewrite Rmult_comm. f_equal.
    specialize (Hok' j ltac:(lia)). rewrite Hr' in Hok'. rewrite Hok'.
    rewrite app_length. cbn [length]. unfold sample.
    replace (Z.of_nat (length hist + 1) - 1 - Z.of_nat j)%Z with (Z.of_nat (length hist) + Z.of_nat 0 - Z.of_nat j)%Z by lia.
    destruct (Z.ltb_spec (Z.of_nat (length hist) + Z.of_nat 0 - Z.of_nat j) 0); [reflexivity|].
    replace (hist ++ a :: x) with ((hist ++ [a]) ++ x) by (rewrite <- app_assoc; reflexivity).
    rewrite (app_nth1 (hist ++ [a]) x) by (rewrite app_length; simpl; lia). reflexivity.
  - cbn [nth]. rewrite (IH (hist ++ [a])); auto; [|simpl in Hi; lia].
    apply Rsum_ext. intros j Hj. f_equal. rewrite app_length. cbn [length].
    rewrite <- app_assoc. cbn [app]. f_equal. lia.
Qed.

Lemma gaussian_filter_spec x fl : (1 <= fl)%Z ->
  (gaussian_filter x fl = Raise AssertionError <-> (Z.of_nat (length x) <= fl)%Z) /\
  ((fl < Z.of_nat (length x))%Z -> exists out, gaussian_filter x fl = Ok out /\
     length out = length x /\
     forall i, (i < length x)%nat -> nth i out 0 = moving x fl i).
Proof.
  intros H. unfold gaussian_filter. rewrite gaussian_coeffs_closed by exact H.
  cbn [bind]. rewrite map_length, seq_length.
  destruct (Z.leb_spec (Z.of_nat (length x)) fl) as [Hle|Hlt].
  - split; [split; auto|]. intros; lia.
  - split; [split; [discriminate|lia]|]. intros _. eexists. split; [reflexivity|].
    split; [apply gf_loop_length|]. intros i Hi.
    assert (Hl : length (map (weight fl) (seq 0 (win_len fl))) = win_len fl)
      by (rewrite map_length, seq_length; reflexivity).
    rewrite (gf_loop_nth _ x [] _ i);
      [ | rewrite repeat_length; congruence | rewrite Hl; apply win_len_pos; exact H
        | apply ring_ok_init | exact Hi].
    rewrite Hl. unfold moving. apply Rsum_ext. intros j Hj.
    rewrite nth_map_seq by lia. reflexivity.
Qed.

Lemma gaussian_filter_ok_inv x fl out : gaussian_filter x fl = Ok out ->
  (1 <= fl)%Z /\ (fl < Z.of_nat (length x))%Z /\ length out = length x /\
  forall i, (i < length x)%nat -> nth i out 0 = moving x fl i.
Proof.
  intros H. assert (Hfl : (1 <= fl)%Z).
  { unfold gaussian_filter in H. destruct (Z.leb_spec (Z.of_nat (length x)) fl); [discriminate|].
    destruct (Z_lt_le_dec fl 1) as [Hn|]; [exfalso|assumption].
    unfold gaussian_coeffs in H. destruct (Z.eqb_spec fl 0); [discriminate|].
    assert (Hd : (fl / 2 + 1 <= 0)%Z) by (assert (fl / 2 < 0)%Z by (apply Z.div_lt_upper_bound; lia); lia).
    destruct (Z.ltb_spec (fl / 2 + 1) 0); [discriminate|].
    replace (Z.to_nat (fl / 2 + 1)) with O in H by lia. simpl in H. discriminate. }
  destruct (gaussian_filter_spec x fl Hfl) as [H1 H2].
  split; [exact Hfl|]. destruct (Z_le_gt_dec (Z.of_nat (length x)) fl) as [Hle|Hgt].
  - apply H1 in Hle. congruence.
  - split; [lia|]. destruct (H2 ltac:(lia)) as [o [E [L M]]]. rewrite E in H. injection H as <-.
    split; assumption.
Qed.

Lemma gaussian_filter_bad_fl x fl : (fl < 1)%Z ->
  gaussian_filter x fl =
  if (fl =? 0)%Z then (match x with [] => Raise AssertionError | _ => Raise ZeroDivisionError end)
  else if (fl <? -2)%Z then Raise ValueError else Raise IndexError.
Proof.
  intros H. unfold gaussian_filter.
  destruct (Z.eqb_spec fl 0) as [->|Hz].
  - destruct x; simpl; reflexivity.
  - destruct (Z.leb_spec (Z.of_nat (length x)) fl); [lia|].
    unfold gaussian_coeffs. destruct (Z.eqb_spec fl 0); [lia|].
    assert (Hd : (fl / 2 < 0)%Z) by (apply Z.div_lt_upper_bound; lia).
    destruct (Z.ltb_spec fl (-2)).
    + assert (fl / 2 < -1)%Z by (apply Z.div_lt_upper_bound; lia).
      destruct (Z.ltb_spec (fl / 2 + 1) 0); [reflexivity|lia].
    + assert (-1 <= fl / 2)%Z by (apply Z.div_le_lower_bound; lia).
      destruct (Z.ltb_spec (fl / 2 + 1) 0); [lia|].
      replace (Z.to_nat (fl / 2 + 1)) with O by lia. reflexivity.
Qed.

(** ** Consequences *)
Lemma sample_add x y n : length x = length y -> forall a b,
  sample (map2 (fun u v => a * u + b * v) x y) n = a * sample x n + b * sample y n.
Proof.
  intros Hl a b. unfold sample. destruct (Z.ltb_spec n 0); [lra|].
  destruct (lt_dec (Z.to_nat n) (length x)).
  - rewrite map2_nth with (d1 := 0) (d2 := 0) by lia. reflexivity.
  - rewrite !nth_overflow; try lia; [lra|]. rewrite map2_length. lia.
Qed.

Lemma moving_linear x y fl i a b : length x = length y ->
  moving (map2 (fun u v => a * u + b * v) x y) fl i = a * moving x fl i + b * moving y fl i.
Proof.
  intros Hl. unfold moving. rewrite <- !Rsum_scal, <- Rsum_plus.
  apply Rsum_ext. intros j Hj. rewrite sample_add by exact Hl. lra.
Qed.

Lemma moving_const c n fl i : (1 <= fl)%Z -> (win_len fl - 1 <= i)%nat -> (i < n)%nat ->
  moving (repeat c n) fl i = c.
Proof.
  intros H Hi Hn. unfold moving.
  rewrite (Rsum_ext _ _ (fun j => weight fl (win_len fl - 1 - j) * c)).
  - rewrite Rsum_scal_r. rewrite <- (Rsum_rev (win_len fl) (weight fl)).
    rewrite weight_sum by exact H. lra.
  - intros j Hj. f_equal. unfold sample.
    destruct (Z.ltb_spec (Z.of_nat i - Z.of_nat j) 0); [lia|].
    apply nth_repeat_lt. lia.
Qed.

Lemma moving_bounds x fl i lo hi : (1 <= fl)%Z ->
  lo <= 0 <= hi -> (forall v, In v x -> lo <= v <= hi) -> lo <= moving x fl i <= hi.
Proof.
  intros H Hz Hb. unfold moving.
  assert (Hs : forall n, lo <= sample x n <= hi).
  { intros n. unfold sample. destruct (Z.ltb_spec n 0); [exact Hz|].
    destruct (lt_dec (Z.to_nat n) (length x)) as [Hl|Hl].
    - apply Hb. apply nth_In. exact Hl.
    - rewrite nth_overflow by lia. exact Hz. }
  assert (Hw : forall v, Rsum (win_len fl) (fun j => weight fl (win_len fl - 1 - j) * v) = v).
  { intros v. rewrite Rsum_scal_r, <- (Rsum_rev (win_len fl) (weight fl)), weight_sum by exact H. lra. }
  split.
  - rewrite <- (Hw lo) at 1. apply Rsum_le. intros j Hj.
    apply Rmult_le_compat_l; [left; apply weight_pos; exact H|]. apply Hs.
  - rewrite <- (Hw hi) at 1. apply Rsum_le. intros j Hj.
    apply Rmult_le_compat_l; [left; apply weight_pos; exact H|]. apply Hs.
Qed.

Lemma weight_centre_dips fl : (2 <= fl)%Z ->
  weight fl (win_mid fl) < weight fl (win_mid fl + 1) /\
  weight fl (win_mid fl) < weight fl (win_mid fl - 1) /\
  (win_mid fl + 1 < win_len fl)%nat.
Proof.
  intros H. assert (Hh : (1 <= fl / 2)%Z) by (apply Z.div_le_lower_bound; lia).
  assert (Hm : Z.of_nat (win_mid fl) = (fl / 2)%Z) by (unfold win_mid; lia).
  assert (Hlt : forall d, Z.abs d = 1%Z -> win_raw fl 0 < win_raw fl d).
  { intros d Hd. unfold win_raw. rewrite Hd. apply exp_increasing.
    assert (Hp : 0 < IZR fl) by (apply IZR_lt; lia).
    replace (1 - 1)%Z with 0%Z by lia. replace (Z.abs 0 - 1)%Z with (-1)%Z by lia.
    replace (0 * 6 / IZR fl) with 0 by (field; lra).
    assert (0 < 6 / IZR fl) by (apply Rdiv_lt_0_compat; lra).
    replace (-1 * 6 / IZR fl) with (- (6 / IZR fl)) by (field; lra). nra. }
  assert (Hd : 0 < / Rsum (win_len fl) (fun j => win_raw fl (Z.of_nat j - fl / 2)))
    by (apply Rinv_0_lt_compat, weight_den_pos; lia).
  repeat split.
  - unfold weight, Rdiv. apply Rmult_lt_compat_r; [exact Hd|].
    replace (Z.of_nat (win_mid fl) - fl / 2)%Z with 0%Z by lia. apply Hlt. lia.
  - unfold weight, Rdiv. apply Rmult_lt_compat_r; [exact Hd|].
    replace (Z.of_nat (win_mid fl) - fl / 2)%Z with 0%Z by lia. apply Hlt. lia.
  - rewrite win_len_mid by lia. unfold win_mid in *. lia.
Qed.

Lemma weight_peak_next fl k : (2 <= fl)%Z -> (k < win_len fl)%nat ->
  weight fl k <= weight fl (win_mid fl + 1).
Proof.
  intros H Hk. assert (Hh : (1 <= fl / 2)%Z) by (apply Z.div_le_lower_bound; lia).
  assert (Hm : Z.of_nat (win_mid fl) = (fl / 2)%Z) by (unfold win_mid; lia).
  unfold weight, Rdiv. apply Rmult_le_compat_r.
  - left. apply Rinv_0_lt_compat, weight_den_pos; lia.
  - replace (Z.of_nat (win_mid fl + 1) - fl / 2)%Z with 1%Z by lia.
    unfold win_raw. set (q := IZR _ * 6 / IZR fl) at 1.
    replace (Z.abs 1 - 1)%Z with 0%Z by lia.
    assert (Hp : 0 < IZR fl) by (apply IZR_lt; lia).
    replace (0 * 6 / IZR fl) with 0 by (field; lra).
    destruct (Req_dec q 0) as [->|Hq]; [right; reflexivity|].
    left. apply exp_increasing. assert (0 < q * q) by nra. nra.
Qed.
