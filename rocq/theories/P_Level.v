(** Properties C82-C84: accelerations, level error and cross-coupling correction of dgs_ccp_calc.py. *)
From Coq Require Import ZArith Reals Lia Lra Arith List Bool.
From Verif Require Import M_Py L_Base S_Base M_Np L_Np S_Nav M_Nav L_Nav P_Nav M_Up S_Up L_Up P_Up S_CC M_CC L_CC P_CC S_Level M_Level L_Level.
Import ListNotations.
Open Scope R_scope.

Lemma east_speed_spec lon lat samp k : (5 <= k)%nat -> east_speed lon lat samp k = east_velocity dw lon lat samp k.
Proof. intros H. unfold east_speed, east_velocity, deriv. rewrite diff10_weights by exact H. ring. Qed.
Lemma north_speed_spec lat samp k : (5 <= k)%nat -> north_speed lat samp k = north_velocity dw lat samp k.
Proof. intros H. unfold north_speed, north_velocity, deriv. rewrite diff10_weights by exact H. ring. Qed.
Lemma diff10_deriv f g k : (10 <= k)%nat -> (forall j, (5 <= j)%nat -> f j = g j) -> diff10 f k = deriv dw g k.
Proof. intros H E. rewrite diff10_weights by lia. unfold deriv. apply Rsum_ext. intros u Hu. rewrite E by lia. reflexivity. Qed.

(** C82: size and direction of the accelerations; the ten samples at either end are missing. *)
Theorem C82_accelerations : exists d, differentiates d /\ forall lon lat samp n, length lon = n -> length lat = n -> (11 <= n)%nat ->
  exists cross long, platform_acc lon lat samp = Ok (cross, long) /\ length cross = n /\ length long = n /\
  forall k, (k < n)%nat ->
    ((k < 10 \/ n <= k + 10)%nat -> nth_error cross k = Some None /\ nth_error long k = Some None) /\
    ((10 <= k)%nat -> (k + 10 < n)%nat -> exists c l, nth_error cross k = Some (Some c) /\ nth_error long k = Some (Some l) /\
       let ve := east_velocity d lon lat samp in let vn := north_velocity d lat samp in
       let ae := mgal d ve samp k in let an := mgal d vn samp k in
       c ^ 2 + l ^ 2 = ae ^ 2 + an ^ 2 /\
       sqrt (ve k ^ 2 + vn k ^ 2) * l = ve k * ae + vn k * an /\
       sqrt (ve k ^ 2 + vn k ^ 2) * c = vn k * ae - ve k * an).
Proof.
  exists dw. split; [exact dw_differentiates|]. intros lon lat samp n Lo La Hn.
  destruct (platform_acc_form lon lat samp n Lo La Hn) as (ac & al & E & L1 & L2 & V). exists ac, al. split; [exact E|]. split; [exact L1|]. split; [exact L2|].
  intros k Hk. specialize (V k Hk). rewrite (nth_error_nth' ac None), (nth_error_nth' al None) by lia. split.
  - intros H. assert (B : ((10 <=? k)%nat && (k + 10 <? n)%nat)%bool = false) by (destruct (Nat.leb_spec 10 k), (Nat.ltb_spec (k + 10) n); cbn; try reflexivity; lia).
    rewrite B in V. injection V as -> ->. auto.
  - intros H1 H2. apply Nat.leb_le in H1 as B1. apply Nat.ltb_lt in H2 as B2. rewrite B1, B2 in V. cbn [andb] in V. cbv zeta in V.
    rewrite (diff10_deriv (east_speed lon lat samp) (east_velocity dw lon lat samp) k H1) in V by (intros; apply east_speed_spec; assumption).
    rewrite (diff10_deriv (north_speed lat samp) (north_velocity dw lat samp) k H1) in V by (intros; apply north_speed_spec; assumption).
    rewrite east_speed_spec, north_speed_spec in V by lia. replace 1e5 with 100000 in V by lra.
    fold (mgal dw (east_velocity dw lon lat samp) samp k) in V. fold (mgal dw (north_velocity dw lat samp) samp k) in V.
    set (ve := east_velocity dw lon lat samp) in *. set (vn := north_velocity dw lat samp) in *. cbv zeta.
    set (ae := mgal dw ve samp k) in *. set (an := mgal dw vn samp k) in *.
    destruct (ENvel_to_course_heading1 (ve k) (vn k)) as [h v] eqn:Eh. cbn [fst] in V.
    assert (Ev : v = sqrt (ve k ^ 2 + vn k ^ 2)) by (unfold ENvel_to_course_heading1 in Eh; injection Eh as _ <-; reflexivity).
    apply C20_polar_form in Eh. destruct Eh as (Hv & He & Hnn & _). rewrite <- Ev.
    destruct (rotate_acceleration_EN_to_cl h ae an) as [c l] eqn:Er. cbn [fst snd] in V. injection V as -> ->. exists c, l. split; [reflexivity|]. split; [reflexivity|].
    split; [apply (C21_magnitude h); exact Er|]. unfold rotate_acceleration_EN_to_cl in Er. injection Er as <- <-. change (deg2rad h) with (deg2rad h). rewrite !(L_Nav.deg2rad_rad h). rewrite <- He, <- Hnn. split; ring.
Qed.
Print Assumptions C82_accelerations.

(** A ship keeping its latitude and its longitude rate has no acceleration. *)
Theorem C82_steady : forall lon y samp n x0 q, length lon = n -> (11 <= n)%nat -> (forall k, (k < n)%nat -> nth k lon 0 = x0 + q * INR k) ->
  exists cross long, platform_acc lon (repeat y n) samp = Ok (cross, long) /\ length cross = n /\ length long = n /\
  forall v, In v cross \/ In v long -> v = None \/ v = Some 0.
Proof.
  intros lon y samp n x0 q Lo Hn Hl. destruct (platform_acc_form lon (repeat y n) samp n Lo (repeat_length _ _) Hn) as (ac & al & E & L1 & L2 & V).
  exists ac, al. split; [exact E|]. split; [exact L1|]. split; [exact L2|].
  assert (Ry : forall j, (j < n)%nat -> nth j (repeat y n) 0 = y) by (intros j Hj; rewrite (nth_indep _ 0 y) by (rewrite repeat_length; exact Hj); apply nth_repeat).
  assert (NV : forall j, (5 <= j)%nat -> (j + 5 < n)%nat -> north_speed (repeat y n) samp j = 0).
  { intros j J1 J2. unfold north_speed. rewrite (diff10_ext (fun i => nth i (repeat y n) 0) (fun _ => y) j J1) by (intros i Hi; apply Ry; lia). rewrite diff10_const. unfold rad. unfold Rdiv. ring. }
  assert (EV : forall j, (5 <= j)%nat -> (j + 5 < n)%nat -> east_speed lon (repeat y n) samp j = samp * (parallel_radius (rad y) * rad q * 1)).
  { intros j J1 J2. unfold east_speed. rewrite Ry by lia. rewrite (diff10_ext (fun i => nth i lon 0) (fun i => q * INR i ^ 1 + x0) j J1) by (intros i Hi; rewrite Hl by lia; ring).
    rewrite (diff10_shift (fun i => q * INR i ^ 1)), diff10_scal, diff10_pow by lia. cbn [INR Nat.pred pow]. do 3 f_equal. f_equal. ring. }
  assert (P : forall k, (k < n)%nat -> (nth k ac None = None \/ nth k ac None = Some 0) /\ (nth k al None = None \/ nth k al None = Some 0)).
  { intros k Hk. specialize (V k Hk). destruct (Nat.leb_spec 10 k) as [K1|K1]; cbn [andb] in V; [|injection V as -> ->; auto]. destruct (Nat.ltb_spec (k + 10) n) as [K2|K2]; [|injection V as -> ->; auto].
    rewrite (diff10_ext (north_speed (repeat y n) samp) (fun _ => 0) k) in V by (try lia; intros i Hi; apply NV; lia).
    rewrite (diff10_ext (east_speed lon (repeat y n) samp) (fun _ => samp * (parallel_radius (rad y) * rad q * 1)) k) in V by (try lia; intros i Hi; apply EV; lia).
    rewrite !diff10_const, Rmult_0_r in V. cbv zeta in V. unfold rotate_acceleration_EN_to_cl in V. cbn [fst snd] in V. injection V as -> ->. split; right; f_equal; ring. }
  intros v [Iv|Iv]; apply (In_nth _ _ None) in Iv; destruct Iv as (k & Hk & <-); destruct (P k ltac:(lia)); assumption.
Qed.
Print Assumptions C82_steady.
Example C82_case : exists cross long, platform_acc (map INR (seq 0 25)) (repeat 0 25) 1 = Ok (cross, long) /\ nth_error cross 9 = Some None /\ nth_error long 12 = Some (Some 0).
Proof.
  destruct (C82_steady (map INR (seq 0 25)) 0 1 25 0 1) as (c & l & E & L1 & L2 & V); [rewrite map_length, seq_length; reflexivity|lia|intros k Hk; rewrite nth_map_seq by exact Hk; cbn [Nat.add]; ring|].
  destruct C82_accelerations as (d & _ & A). destruct (A (map INR (seq 0 25)) (repeat 0 25) 1 25%nat) as (c' & l' & E' & _ & _ & W); [rewrite map_length, seq_length; reflexivity|apply repeat_length|lia|].
  rewrite E in E'. injection E' as <- <-. exists c, l. split; [exact E|]. split; [apply (W 9%nat); lia|].
  destruct (W 12%nat ltac:(lia)) as [_ X]. destruct (X ltac:(lia) ltac:(lia)) as (a & b & _ & Hb & _). rewrite Hb. apply nth_error_In in Hb. destruct (V (Some b) (or_intror Hb)) as [Y|Y]; congruence.
Qed.

(** C83: what the level error is. *)
Lemma cleaned_off v k n : (k < n)%nat -> cleaned v (nth k (repeat (Some 0) n) None) = sound v.
Proof.
  intros H. rewrite (nth_indep _ None (Some 0)) by (rewrite repeat_length; exact H). rewrite nth_repeat. unfold cleaned, sound. destruct v as [x|]; [|reflexivity]. destruct (Rlt_dec 0 0); [lra|reflexivity].
Qed.
Theorem C83_level_error : forall g ac al samp n, length g = n -> length ac = n -> length al = n -> ~ In 0 g -> 0 < samp -> 1 < 120 * samp ->
  exists L ct lt u, level_error g ac al samp = Ok L /\ length L = n /\ forall k, (k < n)%nat ->
    tilted_up (Nat.even k) (ct k) (lt k) (u k) /\
    platform_equation 240 (1 / samp) 0.7071 (fun j => sound (nth j ac None) / nth j g 0) ct k /\
    platform_equation 240 (1 / samp) 0.7071 (fun j => sound (nth j al None) / nth j g 0) lt k /\
    let '(x, y, z) := u k in
    nth k L 0 = nth k g 0 * (1 - z) - sound (nth k al None) * x + sound (nth k ac None) * y.
Proof.
  intros g ac al samp n Lg Lc Ll Hg Hs Hs2. assert (D : 0 < 1 / samp) by (apply Rdiv_lt_0_compat; lra).
  assert (D2 : 2 * (1 / samp) < 240) by (apply (Rmult_lt_reg_r samp); [exact Hs|]; replace (2 * (1 / samp) * samp) with 2 by (field; lra); lra).
  destruct (C38_up_vecs (1 / samp) (map Some g) ac al (repeat (Some 0) n) 240 0.7071 240 0.7071 n) as (r & ct & lt & Er & Lr & V); rewrite ?map_length, ?repeat_length; auto; try lra.
  { intros I. apply in_map_iff in I. destruct I as (w & Ew & I). injection Ew as ->. exact (Hg I). }
  destruct (C40_arrays_cleaned _ _ _ _ _ _ _ _ _ _ Er) as (_ & _ & A).
  unfold level_error. rewrite Lc, Er. cbn [bind]. eexists. exists ct, lt, (fun k => nth k (u_vecs r) (0, 0, 0)). split; [reflexivity|]. rewrite map_length, seq_length. split; [exact Lg|].
  intros k Hk. destruct (V k Hk) as (V1 & V2 & V3). split; [exact V1|].
  destruct (Req_EM_T 0.7071 0) as [Z|Z] in V2, V3; [lra|]. clear Z.
  assert (P : forall a per y, platform_equation per (1 / samp) 0.7071 (fun j => driving (cleaned (nth j a None) (nth j (repeat (Some 0) n) None)) (nth j (map Some g) None)) y k ->
     platform_equation per (1 / samp) 0.7071 (fun j => sound (nth j a None) / nth j g 0) y k).
  { intros a per y H. unfold platform_equation in *. cbv zeta in *.
    assert (B : forall j, back (fun j => driving (cleaned (nth j a None) (nth j (repeat (Some 0) n) None)) (nth j (map Some g) None)) k j = back (fun j => sound (nth j a None) / nth j g 0) k j).
    { intros j. unfold back. destruct (j <=? k)%nat; [|reflexivity]. rewrite cleaned_off by lia. rewrite (nth_map _ _ Some g (k - j)%nat None 0) by lia. reflexivity. }
    rewrite !B in H. exact H. }
  split; [apply P; exact V2|]. split; [apply P; exact V3|]. rewrite nth_map_seq by lia. rewrite (proj1 (A k ltac:(lia))), (proj2 (A k ltac:(lia))), !cleaned_off by lia. cbn [getv].
  destruct (nth k (u_vecs r) (0, 0, 0)) as [[x y] z]. unfold level_sample. ring.
Qed.
Print Assumptions C83_level_error.

(** A steady ship has no level error. *)
Theorem C83_steady : forall lon y g samp n x0 q, length lon = n -> length g = n -> (11 <= n)%nat -> ~ In 0 g ->
  (forall k, (k < n)%nat -> nth k lon 0 = x0 + q * INR k) -> level_script lon (repeat y n) g samp = Ok (repeat 0 n).
Proof.
  intros lon y g samp n x0 q Lo Lg Hn Hg Hl. destruct (C82_steady lon y samp n x0 q Lo Hn Hl) as (c & l & E & L1 & L2 & V).
  unfold level_script. rewrite E. cbn [bind fst snd]. unfold level_error. rewrite L1.
  assert (S0 : forall w, In w c \/ In w l -> sound w = 0) by (intros w I; destruct (V w I) as [->| ->]; reflexivity).
  pose proof (C40_ignored_samples (1 / samp) (map Some g) c l (repeat (Some 0) n) (repeat (Some 0) n) (repeat (Some 0) n) 240 0.7071 240 0.7071) as I0.
  rewrite I0; rewrite ?repeat_length; auto.
  2,3: intros i Hi; rewrite !cleaned_off by lia; rewrite S0 by (first [left; apply nth_In; lia|right; apply nth_In; lia]); rewrite (nth_indep _ None (Some 0)) by (rewrite repeat_length; lia); rewrite nth_repeat; reflexivity.
  destruct (up_vecs (1 / samp) (map Some g) (repeat (Some 0) n) (repeat (Some 0) n) (repeat (Some 0) n) 240 0.7071 240 0.7071) as [r|e] eqn:Er.
  2:{ exfalso. unfold up_vecs in Er. rewrite !repeat_length, map_length, Lg, Nat.eqb_refl in Er. cbn [andb negb] in Er.
      destruct (tilt_filter 240 (1 / samp) 0.7071) as [cn cd]. rewrite calc_up_vecs_ok in Er by (rewrite !map_length, !lfilter2_length; reflexivity). discriminate. }
  cbn [bind]. assert (U : u_vecs r = repeat (0, 0, 1) n).
  { rewrite (C38_at_rest (1 / samp) (map Some g) (repeat (Some 0) n) (repeat (Some 0) n) (repeat (Some 0) n) 240 0.7071 240 0.7071 r); [rewrite repeat_length; reflexivity| |  | |exact Er]; [intros v Hv; apply repeat_spec in Hv; exact Hv|intros v Hv; apply repeat_spec in Hv; exact Hv|].
    intros I. apply in_map_iff in I. destruct I as (w & Ew & I). injection Ew as ->. exact (Hg I). }
  destruct (C40_arrays_cleaned _ _ _ _ _ _ _ _ _ _ Er) as (_ & _ & A). rewrite repeat_length in A. f_equal.
  apply (nth_ext _ _ 0 0); [rewrite map_length, seq_length, repeat_length; exact Lg|]. rewrite map_length, seq_length. intros k Hk. rewrite Lg in Hk.
  rewrite nth_map_seq by lia. rewrite (proj1 (A k Hk)), (proj2 (A k Hk)), !cleaned_off by lia. rewrite U.
  rewrite !(nth_indep (repeat _ n) _ (Some 0)) by (rewrite repeat_length; exact Hk).
  rewrite (nth_indep (repeat (0, 0, 1) n) (0, 0, 0) (0, 0, 1)) by (rewrite repeat_length; exact Hk). rewrite !nth_repeat.
  unfold level_sample, sound, getv. ring.
Qed.
Print Assumptions C83_steady.

(** Without long acceleration the tilt is about one axis, and only the loss of gravity along the tilted
    axis is left. *)
Lemma warp_pos samp : 0 < samp -> 1 < 120 * samp -> 0 < prewarp (1 / samp) (2 * PI / 240).
Proof.
  intros H1 H2. pose proof PI_RGT_0 as P. unfold prewarp. replace (2 / (1 / samp)) with (2 * samp) by (field; lra). apply Rmult_lt_0_compat; [lra|].
  assert (Q : 0 < / samp < 120) by (split; [apply Rinv_0_lt_compat; lra|apply (Rmult_lt_reg_r samp); [lra|]; rewrite Rinv_l by lra; lra]).
  replace (2 * PI / 240 * (1 / samp) / 2) with (PI * (/ samp) / 240) by (field; lra). apply tan_gt_0; nra.
Qed.
Lemma platform_rest samp x y n : 0 < samp -> 1 < 120 * samp -> (forall k, (k < n)%nat -> platform_equation 240 (1 / samp) 0.7071 x y k) ->
  (forall k, (k < n)%nat -> x k = 0) -> forall k, (k < n)%nat -> y k = 0.
Proof.
  intros S1 S2 E X. pose proof (warp_pos samp S1 S2) as W. induction k as [k IH] using lt_wf_ind. intros Hk.
  specialize (E k Hk). unfold platform_equation in E. cbv zeta in E. set (W0 := prewarp (1 / samp) (2 * PI / 240)) in *. set (WS := prewarp (1 / samp) schuler) in *.
  assert (B : forall j, back x k j = 0) by (intros j; unfold back; destruct (j <=? k)%nat; [apply X; lia|reflexivity]).
  assert (C : forall j, (1 <= j)%nat -> back y k j = 0) by (intros j Hj; unfold back; destruct (Nat.leb_spec j k); [apply IH; lia|reflexivity]).
  rewrite !B, !(C 1%nat), !(C 2%nat) in E by lia. unfold back in E. cbn [Nat.leb] in E. rewrite Nat.sub_0_r in E.
  replace (2 / (1 / samp)) with (2 * samp) in E by (field; lra).
  assert (F : ((2 * samp) ^ 2 + 2 * 0.7071 * W0 * (2 * samp) + W0 ^ 2) * y k = 0) by lra.
  apply Rmult_integral in F. destruct F as [F|F]; [|exact F]. exfalso. assert (0 < W0 * samp) by (apply Rmult_lt_0_compat; lra). nra.
Qed.
Theorem C83_cross_only : forall g ac al samp n, length g = n -> length ac = n -> length al = n -> ~ In 0 g -> 0 < samp -> 1 < 120 * samp ->
  (forall v, In v al -> v = None \/ v = Some 0) ->
  exists L ct, level_error g ac al samp = Ok L /\ length L = n /\ forall k, (k < n)%nat ->
    platform_equation 240 (1 / samp) 0.7071 (fun j => sound (nth j ac None) / nth j g 0) ct k /\
    nth k L 0 = nth k g 0 * (1 - 1 / sqrt (1 + ct k ^ 2)).
Proof.
  intros g ac al samp n Lg Lc Ll Hg Hs Hs2 Z. destruct (C83_level_error g ac al samp n Lg Lc Ll Hg Hs Hs2) as (L & ct & lt & u & E & LL & V).
  assert (Al : forall k, (k < n)%nat -> sound (nth k al None) = 0) by (intros k Hk; destruct (Z (nth k al None)) as [->| ->]; [apply nth_In; lia|reflexivity..]).
  exists L, ct. split; [exact E|]. split; [exact LL|]. intros k Hk. destruct (V k Hk) as (T & P1 & _ & W). split; [exact P1|].
  assert (LT : lt k = 0).
  { apply (platform_rest samp (fun j => sound (nth j al None) / nth j g 0) lt n Hs Hs2); [intros j Hj; apply (V j Hj)|intros j Hj; cbv beta; rewrite Al by exact Hj; unfold Rdiv; ring|exact Hk]. }
  destruct (u k) as [[x y] z]. rewrite Al in W by exact Hk. rewrite W. unfold tilted_up in T. rewrite LT in T. destruct T as (U & Zp & T).
  assert (Y : y = 0) by (destruct (Nat.even k), T as [T1 T2]; [rewrite T2|rewrite T1]; ring).
  assert (X : x = - ct k * z) by (destruct (Nat.even k), T as [T1 T2]; [exact T1|]; rewrite T2, Y; replace (0 ^ 2 + z ^ 2) with (z * z) by ring; rewrite sqrt_square by lra; reflexivity).
  pose proof (pow2_ge_0 (ct k)) as Sq.
  assert (Q : sqrt (1 + ct k ^ 2) * z = 1).
  { rewrite <- (sqrt_square z) at 1 by lra. rewrite <- sqrt_mult; [|lra|apply Rmult_le_pos; lra]. transitivity (sqrt 1); [|exact sqrt_1]. f_equal. rewrite X, Y in U. lra. }
  assert (S : 0 < sqrt (1 + ct k ^ 2)) by (apply sqrt_lt_R0; lra).
  replace (1 / sqrt (1 + ct k ^ 2)) with z; [rewrite Y; ring|]. apply (Rmult_eq_reg_l (sqrt (1 + ct k ^ 2))); [|lra]. rewrite Q. field. lra.
Qed.
Print Assumptions C83_cross_only.

(** The level error is gravity less what the tilted sensor sees of gravity and of the two accelerations,
    whatever sign each axis has: refuted, a cross acceleration is multiplied by the other axis. *)
Definition level_claim : Prop := exists s1 s2, s1 ^ 2 = 1 /\ s2 ^ 2 = 1 /\
  forall g ac al samp n L, length g = n -> length ac = n -> length al = n -> ~ In 0 g -> 0 < samp -> 1 < 120 * samp ->
  level_error g ac al samp = Ok L -> exists ct lt, 
    (forall k, (k < n)%nat -> platform_equation 240 (1 / samp) 0.7071 (fun j => sound (nth j ac None) / nth j g 0) ct k /\
                              platform_equation 240 (1 / samp) 0.7071 (fun j => sound (nth j al None) / nth j g 0) lt k) /\
    forall k x y z, (k < n)%nat -> tilted_up (Nat.even k) (ct k) (lt k) (x, y, z) ->
      nth k L 0 = nth k g 0 - (nth k g 0 * z + s1 * sound (nth k ac None) * x + s2 * sound (nth k al None) * y).
Lemma schuler_small : 0 < schuler < 0.01.
Proof.
  unfold schuler. split; [apply sqrt_lt_R0; lra|]. rewrite <- (sqrt_square 0.01) by lra. apply sqrt_lt_1_alt. lra.
Qed.
Theorem C83_projection_refuted : ~ level_claim.
Proof.
  intros (s1 & s2 & Q1 & Q2 & H).
  assert (Hg : ~ In 0 [980000]) by (intros [I|[]]; lra).
  destruct (C83_level_error [980000] [Some 100] [Some 0] 1 1 eq_refl eq_refl eq_refl Hg ltac:(lra) ltac:(lra)) as (L & c & l & u & E & LL & V).
  destruct (V 0%nat ltac:(lia)) as (T & P1 & P2 & W). clear V.
  destruct (H [980000] [Some 100] [Some 0] 1 1%nat L eq_refl eq_refl eq_refl Hg ltac:(lra) ltac:(lra) E) as (ct & lt & P & F). clear H. destruct (P 0%nat ltac:(lia)) as [P3 P4].
  pose proof (warp_pos 1 ltac:(lra) ltac:(lra)) as W0p.
  assert (WS : 0 <= prewarp (1 / 1) schuler < prewarp (1 / 1) (2 * PI / 240)).
  { pose proof schuler_small. pose proof PI_RGT_0. pose proof PI2_3_2 as P32. unfold PI2 in P32. pose proof PI_4. unfold prewarp. replace (2 / (1 / 1)) with 2 by field.
    assert (tan 0 < tan (schuler * (1 / 1) / 2) < tan (2 * PI / 240 * (1 / 1) / 2)) by (split; apply tan_increasing; lra). rewrite tan_0 in *. lra. }
  unfold platform_equation, back in P1, P2, P3, P4. cbv zeta in P1, P2, P3, P4. cbn [Nat.leb Nat.sub nth sound] in P1, P2, P3, P4.
  set (W0 := prewarp (1 / 1) (2 * PI / 240)) in *. set (S := prewarp (1 / 1) schuler) in *. replace (2 / (1 / 1)) with 2 in * by field.
  set (K := 4 + 4 * 0.7071 * W0 + W0 ^ 2). assert (Kp : 0 < K) by (unfold K; nra).
  assert (C1 : K * c 0%nat = (S ^ 2 - W0 ^ 2 - 4 * 0.7071 * W0) * (100 / 980000)) by (unfold K; lra).
  assert (C3 : K * ct 0%nat = (S ^ 2 - W0 ^ 2 - 4 * 0.7071 * W0) * (100 / 980000)) by (unfold K; lra).
  assert (C2 : K * l 0%nat = 0) by (unfold K; lra). assert (C4 : K * lt 0%nat = 0) by (unfold K; lra).
  assert (N : K * c 0%nat < 0) by (rewrite C1; assert (S ^ 2 < W0 ^ 2) by nra; nra).
  assert (Ec : ct 0%nat = c 0%nat) by (apply (Rmult_eq_reg_l K); lra). assert (El : lt 0%nat = l 0%nat) by (apply (Rmult_eq_reg_l K); lra).
  assert (l0 : l 0%nat = 0) by (apply (Rmult_eq_reg_l K); lra).
  destruct (u 0%nat) as [[x y] z]. specialize (F 0%nat x y z ltac:(lia)). rewrite Ec, El in F. specialize (F T). rewrite W in F. cbn [nth sound] in F.
  cbn [Nat.even] in T. destruct T as (U & Zp & X & Y). assert (Y0 : y = 0) by (rewrite Y, l0; ring). rewrite Y0 in F.
  assert (G : s1 * x = 0) by lra. apply Rmult_integral in G. destruct G as [G|G]; [rewrite G in Q1; lra|].
  rewrite G in X. assert (D : c 0%nat * z = 0) by lra. apply Rmult_integral in D. destruct D as [D|D]; [|lra]. rewrite D in N. lra.
Qed.
Print Assumptions C83_projection_refuted.
Example C83_case : level_script (map INR (seq 0 25)) (repeat 0 25) (repeat 978000 25) 1 = Ok (repeat 0 25).
Proof.
  apply (C83_steady _ _ _ _ _ 0 1); [rewrite map_length, seq_length; reflexivity|apply repeat_length|lia|intros I; apply repeat_spec in I; lra|].
  intros k Hk. rewrite nth_map_seq by exact Hk. cbn [Nat.add]. ring.
Qed.

Lemma seq_shift' s n : map (fun i => s + i)%nat (seq 0 n) = seq s n.
Proof. revert s. induction n as [|n IH]; intros s; [reflexivity|]. cbn [seq map]. rewrite Nat.add_0_r. f_equal. rewrite <- (IH (S s)), <- seq_shift, map_map. apply map_ext. intros; lia. Qed.
(** C84: the rows of the fit.  The level error is not shortened with the table, so it is two samples early. *)
Theorem C84_rows : exists h d, low_pass h /\ differentiates d /\ forall faa vcc ve al ax level n,
  length faa = n -> length vcc = n -> length ve = n -> length al = n -> length ax = n -> length level = n ->
  ((n < 1002)%nat -> ccp_table faa vcc ve al ax level = Raise ValueError) /\
  ((1002 <= n)%nat -> exists df, ccp_table faa vcc ve al ax level = Ok df /\
    d_ve df = map (curvature h d ve) (seq 3 (n - 422)) /\ d_vcc df = map (curvature h d vcc) (seq 3 (n - 422)) /\
    d_al df = map (curvature h d al) (seq 3 (n - 422)) /\ d_ax df = map (curvature h d ax) (seq 3 (n - 422)) /\
    d_g df = map (fun i => - curvature h d faa i) (seq 3 (n - 422)) /\
    d_lev df = map (curvature h d level) (seq 1 (n - 422))).
Proof.
  exists lp, dw. split; [exact lp_low_pass|]. split; [exact dw_differentiates|]. intros faa vcc ve al ax level n L0 L1 L2 L3 L4 L5.
  unfold ccp_table, cc_table, end_inds, used_bounds, seg_bounds. rewrite skipn_length, L0. cbn [map combine filter fst snd]. rewrite Nat.min_id, Nat.sub_0_r.
  split; intros Hn; destruct (Nat.ltb_spec (n - 2) 1000); try lia; cbn [negb]; [reflexivity|]. eexists. split; [reflexivity|]. cbn [d_ve d_vcc d_al d_ax d_g d_lev].
  assert (B : forall x : list R, (n - 2 <= length x)%nat -> Forall (fun ab => (fst ab + 1000 <= snd ab <= length x)%nat) [(0, n - 2)%nat]) by (intros x Hx; constructor; [cbn; lia|constructor]).
  rewrite !cc_series_rows by (apply B; rewrite ?skipn_length; lia). unfold curvature_rows. cbn [map concat fst snd]. rewrite !app_nil_r.
  replace (n - 2 - 0 - 420)%nat with (n - 422)%nat by lia.
  assert (Q : forall x, map (fun r => curvature lp dw (skipn 2 x) (0 + 1 + r)) (seq 0 (n - 422)) = map (curvature lp dw x) (seq 3 (n - 422))).
  { intros x. rewrite <- (seq_shift' 3). rewrite map_map. apply map_ext. intros r. rewrite curvature_skip. f_equal. }
  rewrite !Q, map_map. repeat split; try reflexivity. rewrite <- (seq_shift' 1), map_map. reflexivity.
Qed.
Print Assumptions C84_rows.

(** Each row compares the field and the level error over the same samples: refuted. *)
Theorem C84_same_samples_refuted : exists faa vcc ve al ax level df,
  length faa = 1002%nat /\ length vcc = 1002%nat /\ length ve = 1002%nat /\ length al = 1002%nat /\ length ax = 1002%nat /\ length level = 1002%nat /\
  (forall k, nth k faa 0 = - nth k level 0) /\ ccp_table faa vcc ve al ax level = Ok df /\
  length (d_g df) = length (d_lev df) /\ forall i, (i < length (d_g df))%nat -> nth i (d_g df) 0 = nth i (d_lev df) 0 + 12.
Proof.
  destruct C84_rows as (h & d & Hh & Hd & R). set (n := 1002%nat). set (lev := map (fun k => INR k ^ 3) (seq 0 n)). set (z := repeat 0 n).
  assert (Ll : length lev = n) by (unfold lev; rewrite map_length, seq_length; reflexivity). assert (Lz : length z = n) by apply repeat_length.
  assert (Lf : length (map Ropp lev) = n) by (rewrite map_length; exact Ll).
  destruct (R (map Ropp lev) z z z z lev n Lf Lz Lz Lz Lz Ll) as [_ Q]. destruct Q as (df & E & _ & _ & _ & _ & Eg & El); [unfold n; lia|].
  exists (map Ropp lev), z, z, z, z, lev, df. do 6 (split; [assumption|]).
  assert (O : forall k, nth k (map Ropp lev) 0 = - nth k lev 0) by (intros k; rewrite <- Ropp_0 at 1; apply map_nth).
  split; [exact O|]. split; [exact E|]. rewrite Eg, El, !map_length, !seq_length. split; [reflexivity|]. intros i Hi.
  rewrite (nth_map _ _ _ (seq 3 (n - 422)) i 0 0%nat), (nth_map _ _ _ (seq 1 (n - 422)) i 0 0%nat) by (rewrite seq_length; exact Hi). rewrite !seq_nth by exact Hi.
  assert (Hn : (i + 222 < n)%nat) by (unfold n in *; lia). clearbody n.
  rewrite (curvature_cf h d (map Ropp lev) (fun k => (-1) * INR k ^ 3)) by (intros k Hk; rewrite O; unfold lev; rewrite nth_map_seq by lia; cbn [Nat.add]; ring).
  rewrite (curvature_cf h d lev (fun k => INR k ^ 3)) by (intros k Hk; unfold lev; rewrite nth_map_seq by lia; reflexivity).
  rewrite cf_scal. replace (3 + i)%nat with (1 + i + 2)%nat by lia. rewrite cf_shift.
  rewrite (cf_ext h d _ (fun k => INR k ^ 3 + (8 + 12 * INR k + 6 * INR k ^ 2))) by (intros k Hk; rewrite plus_INR; cbn [INR]; ring).
  rewrite (cf_plus h d (fun k => INR k ^ 3)), (cf_quadratic h d 8 12 6 (1 + i) Hd (proj1 Hh)). ring.
Qed.
Print Assumptions C84_same_samples_refuted.

(** Without noise the correction removes the four monitors and leaves what the level error contributes. *)
Theorem C84_correction : forall faa vcc ve al ax level n df params s0 s1 s2 cve cvcc cal cax clev,
  length faa = n -> length vcc = n -> length ve = n -> length al = n -> length ax = n -> length level = n ->
  (forall k, (k + 2 < n)%nat -> nth (k + 2) faa 0 = (s0 + s1 * INR k + s2 * INR k ^ 2) -
     (cve * nth (k + 2) ve 0 + cvcc * nth (k + 2) vcc 0 + cal * nth (k + 2) al 0 + cax * nth (k + 2) ax 0 + clev * nth k level 0)) ->
  ccp_table faa vcc ve al ax level = Ok df -> independent (d_ve df) (d_vcc df) (d_al df) (d_ax df) (d_lev df) -> cc_params df params ->
  faa_ccp params faa vcc ve al ax = map (fun k => s0 + s1 * INR k + s2 * INR k ^ 2 - clev * nth k level 0) (seq 0 (n - 2)).
Proof.
  intros faa vcc ve al ax level n df params s0 s1 s2 cve cvcc cal cax clev L0 L1 L2 L3 L4 L5 Hf Hdf Hi Hp.
  assert (N : forall x k, nth k (skipn 2 x) 0 = nth (k + 2) x 0) by (intros [|a [|b x]] k; rewrite Nat.add_comm; destruct k; reflexivity).
  unfold ccp_table in Hdf. rewrite <- (cc_table_trunc _ _ _ _ _ level (n - 2)) in Hdf by (rewrite skipn_length, L0; reflexivity).
  assert (F : forall k, (k < n - 2)%nat -> nth k (firstn (n - 2) level) 0 = nth k level 0).
  { intros k Hk. rewrite <- (firstn_skipn (n - 2) level) at 2. rewrite app_nth1 by (rewrite firstn_length; lia). reflexivity. }
  assert (P : params = [-2 * s2; cve; cvcc; cal; cax; clev]).
  { apply (C37_coefficients_recovered _ _ _ _ _ _ None 1 (n - 2)%nat df params s0 s1 s2 cve cvcc cal cax clev) with (9 := Hdf); try assumption; try (rewrite ?firstn_length, ?skipn_length; lia); [discriminate|].
    intros k Hk. rewrite !N, F by exact Hk. apply Hf. lia. }
  unfold faa_ccp. rewrite skipn_length, L0. apply map_ext_in. intros k Hk. apply in_seq in Hk. rewrite !N, Hf by lia. rewrite P. unfold named_param. cbn [nth length Nat.sub Nat.add]. ring.
Qed.
Print Assumptions C84_correction.
(** Series that meet these conditions, for any coefficients. *)
Theorem C84_correctable : forall n s0 s1 s2 cve cvcc cal cax clev, (1002 <= n)%nat ->
  exists faa vcc ve al ax level df params, length faa = n /\ length vcc = n /\ length ve = n /\ length al = n /\ length ax = n /\ length level = n /\
  (forall k, (k + 2 < n)%nat -> nth (k + 2) faa 0 = (s0 + s1 * INR k + s2 * INR k ^ 2) -
     (cve * nth (k + 2) ve 0 + cvcc * nth (k + 2) vcc 0 + cal * nth (k + 2) al 0 + cax * nth (k + 2) ax 0 + clev * nth k level 0)) /\
  ccp_table faa vcc ve al ax level = Ok df /\ independent (d_ve df) (d_vcc df) (d_al df) (d_ax df) (d_lev df) /\ cc_params df params.
Proof.
  intros n s0 s1 s2 cve cvcc cal cax clev Hn.
  destruct (C37_recoverable (n - 2) s0 s1 s2 cve cvcc cal cax clev ltac:(lia)) as (faa & vcc & ve & al & ax & lev & df & L0 & L1 & L2 & L3 & L4 & L5 & Hf & E & I & P).
  exists (0 :: 0 :: faa), (0 :: 0 :: vcc), (0 :: 0 :: ve), (0 :: 0 :: al), (0 :: 0 :: ax), (lev ++ [0; 0]), df, [-2 * s2; cve; cvcc; cal; cax; clev].
  do 6 (split; [cbn [length]; rewrite ?app_length; cbn [length]; lia|]). split.
  - intros k Hk. rewrite !(Nat.add_comm k 2). cbn [Nat.add nth]. rewrite (app_nth1 lev) by lia. apply Hf. lia.
  - split; [|split; assumption]. unfold ccp_table. cbn [skipn]. rewrite <- (cc_table_trunc _ _ _ _ _ (lev ++ [0; 0]) (n - 2) L0).
    rewrite firstn_app, L5, Nat.sub_diag. cbn [firstn]. rewrite app_nil_r, firstn_all2 by lia. exact E.
Qed.
Print Assumptions C84_correctable.
Example C84_case : let z := repeat 0 1001 in ccp_table z z z z z z = Raise ValueError.
Proof. destruct C84_rows as (h & d & _ & _ & R). apply (R _ _ _ _ _ _ 1001%nat); try apply repeat_length. lia. Qed.
