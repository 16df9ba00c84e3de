(** Lemmas on accelerations from navigation and the level error. *)
From Coq Require Import ZArith Reals Lia Lra Arith List Bool.
From Verif Require Import M_Py L_Base S_Base M_Np L_Np S_Nav M_Nav L_Nav M_Up S_Up L_Up S_CC M_CC L_CC M_Level.
Import ListNotations.
Open Scope R_scope.

Lemma framed_length n f : length (framed n f) = n.
Proof. unfold framed. rewrite map_length, seq_length. reflexivity. Qed.
Lemma nth_framed n f k : (k < n)%nat -> nth k (framed n f) None = if ((5 <=? k)%nat && (k + 5 <? n)%nat)%bool then Some (f k) else None.
Proof. intros H. unfold framed. rewrite nth_map_seq by exact H. reflexivity. Qed.
Lemma convolve_nan_length x : length (convolve_nan x) = length x.
Proof. unfold convolve_nan. rewrite map_length, seq_length. reflexivity. Qed.
Lemma existsb_slice (x : list (option R)) a b : existsb is_nan (slice x a b) = true <-> exists i, (a <= i < b)%nat /\ (i < length x)%nat /\ nth i x None = None.
Proof.
  rewrite existsb_exists. split.
  - intros (v & Iv & Nv). apply (In_nth _ _ None) in Iv. destruct Iv as (i & Hi & Ei). rewrite slice_length in Hi. rewrite nth_slice in Ei by lia.
    exists (a + i)%nat. split; [lia|]. split; [lia|]. rewrite Ei. destruct v; [discriminate|reflexivity].
  - intros (i & H1 & H2 & E). exists None. split; [|reflexivity]. rewrite <- E. replace i with (a + (i - a))%nat by lia.
    rewrite <- (nth_slice _ x a b (i - a) None) by lia. apply nth_In. rewrite slice_length. lia.
Qed.
Lemma nth_convolve_nan n f k : (11 <= n)%nat -> (k < n)%nat ->
  nth k (convolve_nan (framed n f)) None = if ((10 <=? k)%nat && (k + 10 <? n)%nat)%bool then Some (diff10 f k) else None.
Proof.
  intros Hn Hk. unfold convolve_nan. rewrite nth_map_seq by (rewrite framed_length; exact Hk).
  destruct (existsb is_nan (slice (framed n f) (k - 5) (k + 6))) eqn:E.
  - apply existsb_slice in E. destruct E as (i & H1 & H2 & E). rewrite framed_length in H2. rewrite nth_framed in E by exact H2.
    destruct (Nat.leb_spec 10 k), (Nat.ltb_spec (k + 10) n); cbn [andb]; try reflexivity. exfalso.
    destruct (Nat.leb_spec 5 i), (Nat.ltb_spec (i + 5) n); cbn [andb] in E; try lia. discriminate.
  - assert (A : forall i, (k - 5 <= i < k + 6)%nat -> (i < n)%nat -> (5 <= i)%nat /\ (i + 5 < n)%nat).
    { intros i H1 H2. destruct (nth i (framed n f) None) eqn:V.
      - rewrite nth_framed in V by exact H2. destruct (Nat.leb_spec 5 i), (Nat.ltb_spec (i + 5) n); cbn [andb] in V; try discriminate. split; assumption.
      - assert (X : existsb is_nan (slice (framed n f) (k - 5) (k + 6)) = true); [|rewrite X in E; discriminate].
        apply existsb_slice. exists i. rewrite framed_length. auto. }
    destruct (Nat.leb_spec 10 k) as [L1|L1].
    2:{ destruct (A (k - 5)%nat ltac:(lia) ltac:(lia)) as [? _]. lia. }
    destruct (Nat.ltb_spec (k + 10) n) as [L2|L2].
    2:{ destruct (Nat.lt_ge_cases (k + 5) n) as [L3|L3]; [destruct (A (k + 5)%nat ltac:(lia) L3); lia|destruct (A (n - 1)%nat ltac:(lia) ltac:(lia)); lia]. }
    cbn [andb]. f_equal. rewrite nth_tay10 by (rewrite ?map_length, ?framed_length; lia). apply diff10_ext; [lia|]. intros i Hi.
    rewrite (nth_map _ _ getv (framed n f) i 0 None) by (rewrite framed_length; lia). rewrite nth_framed by lia.
    destruct (A i ltac:(lia) ltac:(lia)) as [A1 A2]. apply Nat.leb_le in A1. apply Nat.ltb_lt in A2. rewrite A1, A2. reflexivity.
Qed.
Definition north_speed (lat : list R) (samp : R) (k : nat) : R := samp * (meridian_radius (rad (nth k lat 0)) * rad (diff10 (fun i => nth i lat 0) k) * 1).
Definition east_speed (lon lat : list R) (samp : R) (k : nat) : R := samp * (parallel_radius (rad (nth k lat 0)) * rad (diff10 (fun i => nth i lon 0) k) * 1).
Lemma scaled_framed c n f : scaled c (framed n f) = framed n (fun k => c * f k).
Proof. apply framed_map. Qed.
Lemma platform_acc_form lon lat samp n : length lon = n -> length lat = n -> (11 <= n)%nat ->
  exists ac al, platform_acc lon lat samp = Ok (ac, al) /\ length ac = n /\ length al = n /\
  forall k, (k < n)%nat ->
    (nth k ac None, nth k al None) =
    if ((10 <=? k)%nat && (k + 10 <? n)%nat)%bool
    then let p := rotate_acceleration_EN_to_cl (fst (ENvel_to_course_heading1 (east_speed lon lat samp k) (north_speed lat samp k)))
                    (1e5 * samp * diff10 (east_speed lon lat samp) k) (1e5 * samp * diff10 (north_speed lat samp) k) in (Some (fst p), Some (snd p))
    else (None, None).
Proof.
  intros Lo La Hn. unfold platform_acc. rewrite latlon_to_EN_eq by lia. cbn [bind]. rewrite Lo, !scaled_framed.
  match goal with |- context [framed n ?f] => change f with (north_speed lat samp) end.
  match goal with |- context [convolve_nan (framed n ?f)] => change f with (east_speed lon lat samp) end.
  match goal with |- context [map2 course (framed n ?f)] => change f with (east_speed lon lat samp) end.
  set (N := north_speed lat samp). set (E := east_speed lon lat samp). set (acc := map3 rotated _ _ _).
  assert (Ls : forall c f, length (scaled c (convolve_nan (framed n f))) = n) by (intros; unfold scaled; rewrite map_length, convolve_nan_length, framed_length; reflexivity).
  assert (Lc : length (map2 course (framed n E) (framed n N)) = n) by (rewrite map2_length, !framed_length; lia).
  assert (L : length acc = n) by (unfold acc; rewrite map3_length, Lc, !Ls; lia).
  exists (map fst acc), (map snd acc). split; [reflexivity|]. rewrite !map_length. split; [exact L|]. split; [exact L|]. intros k Hk.
  rewrite (nth_map _ _ fst acc k None (None, None)), (nth_map _ _ snd acc k None (None, None)) by lia.
  unfold acc. rewrite (map3_nth _ _ _ _ rotated _ _ _ k 0 None None (None, None)) by (rewrite ?Lc, ?Ls; lia).
  unfold scaled. rewrite !(nth_map _ _ (option_map (fun v => 1e5 * samp * v)) _ k None None) by (rewrite convolve_nan_length, framed_length; exact Hk).
  rewrite !nth_convolve_nan by lia. destruct (Nat.leb_spec 10 k) as [L1|L1]; cbn [andb]; [|reflexivity]. destruct (Nat.ltb_spec (k + 10) n) as [L2|L2]; [|reflexivity].
  cbn [option_map]. rewrite (map2_nth _ _ _ course _ _ k None None 0) by (rewrite framed_length; lia). rewrite !nth_framed by lia.
  replace (5 <=? k)%nat with true by (symmetry; apply Nat.leb_le; lia). replace (k + 5 <? n)%nat with true by (symmetry; apply Nat.ltb_lt; lia). cbn [andb course].
  unfold rotated. destruct (rotate_acceleration_EN_to_cl _ _ _). reflexivity.
Qed.
Lemma curvature_skip h d x s i : curvature h d (skipn s x) i = curvature h d x (s + i).
Proof.
  unfold curvature. apply Rsum_ext. intros j Hj. f_equal. apply Rsum_ext. intros u Hu. apply Rsum_ext. intros v Hv. f_equal.
  replace (s + i + j + u + v)%nat with (s + (i + j + u + v))%nat by lia. generalize (i + j + u + v)%nat. clear. revert x. induction s as [|s IH]; intros x k; [reflexivity|].
  destruct x as [|a x]; [destruct k; reflexivity|]. cbn [skipn nth Nat.add]. apply IH.
Qed.
Lemma curvature_cf h d x F i : (forall k, (i <= k <= i + 219)%nat -> nth k x 0 = F k) -> curvature h d x i = cf h d F i.
Proof. intros H. apply (cf_ext h d (fun k => nth k x 0) F i H). Qed.
Lemma cf_shift h d F s i : cf h d F (i + s) = cf h d (fun k => F (k + s)%nat) i.
Proof. unfold cf. apply Rsum_ext. intros j Hj. f_equal. apply Rsum_ext. intros u Hu. apply Rsum_ext. intros v Hv. do 2 f_equal. lia. Qed.
Lemma cc_series_trunc ub x m : Forall (fun ab => (snd ab <= m)%nat) ub -> cc_series ub (firstn m x) = cc_series ub x.
Proof.
  intros H. unfold cc_series. f_equal. apply map_ext_in. intros [a b] I. rewrite Forall_forall in H. specialize (H _ I). cbn [fst snd] in *. f_equal.
  unfold slice. rewrite skipn_firstn_comm, firstn_firstn. f_equal. lia.
Qed.
Lemma cc_table_trunc faa vcc ve al ax lev m : length faa = m -> cc_table faa vcc ve al ax (firstn m lev) None 1 = cc_table faa vcc ve al ax lev None 1.
Proof.
  intros L. unfold cc_table. rewrite cc_series_trunc; [reflexivity|]. rewrite L. apply Forall_forall. intros [a b] I. unfold used_bounds in I. apply filter_In in I. destruct I as [I _].
  cbn in I. destruct I as [I|[]]. injection I as <- <-. cbn. lia.
Qed.
