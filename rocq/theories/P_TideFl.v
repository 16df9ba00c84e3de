(** C101: the tidal correction in double precision. *)
From Coq Require Import List ZArith QArith Qreals Reals Lia Lra Bool.
From Verif Require Import M_Py S_Base L_Base M_Np M_Cal L_Np L_Cal M_Tide S_Cal S_Tide L_Tide
  M_Float S_Round L_Round L_Float M_TideFl L_TideFl P_Float L_Node.
Import ListNotations.
Open Scope R_scope.

(** ** The time arguments *)
Lemma century_err F a b : good_arith F -> (0 <= a <= 73050)%Z -> (0 <= b < 86400)%Z ->
  Rabs (eval_fl F (args [IZR a; IZR b]) century_fx - (IZR a + IZR b / 3600 / 24) / 36525) <= / 2 ^ 50.
Proof.
  intros G Ha Hb. assert (A1 : 0 <= IZR a <= 73050) by (split; apply IZR_le; lia).
  assert (B1 : 0 <= IZR b <= 86400) by (split; apply IZR_le; lia).
  pose proof (er_le_ok F [sym 73050 1 0; sym 86400 1 0] [IZR a; IZR b] [IZR a; IZR b] century_fx 1 (2 ^ 50) G) as H.
  replace (/ 2 ^ 50) with (1 / IZR (2 ^ 50)) by (change (2 ^ 50)%Z with 1125899906842624%Z; lra).
  apply H.
  - split; [apply ok_exact; [reflexivity|rewrite Rabs_pos_eq; lra]|].
    split; [apply ok_exact; [reflexivity|rewrite Rabs_pos_eq; lra]|exact Logic.I].
  - reflexivity.
  - vm_compute. reflexivity.
Qed.

Lemma hour_err F h m s : good_arith F -> rnd F = b64 -> (0 <= h < 24)%Z -> (0 <= m < 60)%Z -> (0 <= s < 60)%Z ->
  Rabs (eval_fl F (args [IZR h; IZR m; IZR s]) hour_fx - (IZR h + IZR m / 60 + IZR s / 3600)) <= / 2 ^ 47 /\
  0 <= eval_fl F (args [IZR h; IZR m; IZR s]) hour_fx.
Proof.
  intros G HB Hh Hm Hs. assert (A1 : 0 <= IZR h <= 24) by (split; apply IZR_le; lia).
  assert (A2 : 0 <= IZR m <= 60) by (split; apply IZR_le; lia).
  assert (A3 : 0 <= IZR s <= 60) by (split; apply IZR_le; lia). split.
  - pose proof (er_le_ok F [sym 24 1 0; sym 60 1 0; sym 60 1 0] [IZR h; IZR m; IZR s] [IZR h; IZR m; IZR s] hour_fx 1 (2 ^ 47) G) as H.
    replace (/ 2 ^ 47) with (1 / IZR (2 ^ 47)) by (change (2 ^ 47)%Z with 140737488355328%Z; lra).
    apply H.
    + split; [apply ok_exact; [reflexivity|rewrite Rabs_pos_eq; lra]|].
      split; [apply ok_exact; [reflexivity|rewrite Rabs_pos_eq; lra]|].
      split; [apply ok_exact; [reflexivity|rewrite Rabs_pos_eq; lra]|exact Logic.I].
    + reflexivity.
    + vm_compute. reflexivity.
  - cbn [hour_fx eval_fl args nth]. rewrite HB.
    assert (0 <= b64 (IZR m / 60)) by (apply b64_nonneg; lra).
    assert (0 <= b64 (IZR s / 3600)) by (apply b64_nonneg; lra).
    apply b64_nonneg. apply Rplus_le_le_0_compat; [|assumption]. apply b64_nonneg. lra.
Qed.

Lemma days_range us : 0 <= IZR (us / 1000000) / 86400 / 36525 <= 2 -> (0 <= td_days us <= 73050)%Z /\ (0 <= td_seconds us < 86400)%Z.
Proof.
  intros H. assert (B : 0 <= IZR (us / 1000000) <= 6311520000) by lra.
  destruct B as [B1 B2]. apply le_IZR in B1. apply le_IZR in B2.
  unfold td_days, td_seconds, us_per_day, us_per_sec. Z.div_mod_to_equations. lia.
Qed.

Transparent L_Float.sc.
Lemma err_150 : vz (2 ^ 150) = / 2 ^ 50.
Proof. unfold vz, L_Float.sc. lra. Qed.
Lemma err_153 : vz (2 ^ 153) = / 2 ^ 47.
Proof. unfold vz, L_Float.sc. lra. Qed.
Opaque L_Float.sc.

(** the computed time arguments are near the exact ones *)
Lemma tide_time_near F y m d h mi s us off t : double_arith F ->
  datetime_new y m d h mi s us (Some off) = Ok t ->
  let T := IZR ((utc_us t off - local_us origin_time) / 1000000) / 86400 / 36525 in
  let t0 := IZR h + IZR mi / 60 + IZR s / 3600 in
  0 <= T <= 2 ->
  exists Tt t0t, tide_time_fl F t = Ok (Tt, t0t) /\
    ok (nth 0 tide_in (Bd 0 0 0)) T Tt /\ ok (nth 1 tide_in (Bd 0 0 0)) t0 t0t.
Proof.
  intros G H T t0 HT. apply datetime_new_inv in H. destruct H as [-> [H1 [H2 [H3 [H4 [H5 H6]]]]]].
  unfold tide_time_fl, sub_us. cbn [utcoffset origin_time bind].
  set (us' := (utc_us _ _ - utc_us _ _)%Z).
  assert (Eus : us' = (utc_us (mk_datetime y m d h mi s us (Some off)) off - local_us origin_time)%Z).
  { reflexivity. }
  assert (ET : T = (IZR (td_days us') + IZR (td_seconds us') / 3600 / 24) / 36525).
  { unfold T. rewrite days_seconds_whole, Eus. reflexivity. }
  assert (HD : (0 <= td_days us' <= 73050)%Z /\ (0 <= td_seconds us' < 86400)%Z).
  { apply days_range. rewrite Eus. exact HT. }
  pose proof (double_good F G) as GA. destruct HD as [D1 D2].
  pose proof (century_err F _ _ GA D1 D2) as C1. rewrite <- ET in C1.
  destruct (hour_err F h mi s GA (proj1 G) H3 H4 H5) as [C2 C3]. cbn [hour minute second] in *.
  pose proof (hour_fields h mi s H3 H4 H5) as HF. fold t0 in HF, C2.
  destruct (Rlt_dec _ 0) as [Hlt|_]; [lra|].
  eexists _, _. split; [reflexivity|]. unfold tide_in. cbn [nth].
  split; split; cbn [lo hi er]; rewrite ?vz_0, ?vz_sc, ?err_150, ?err_153; try assumption; lra.
Qed.

(** ** The prediction *)
Lemma tide_time_fl_some F t : aware t -> exists p, tide_time_fl F t = Ok p.
Proof. intros [off H]. unfold tide_time_fl, sub_us. rewrite H. cbn [utcoffset origin_time bind]. eexists. reflexivity. Qed.

Lemma longman_fl_nth F lon lat times alt Tt t0t k ln lt tm :
  length lat = length lon -> length times = length lon -> Forall aware times -> altitude_ok alt (length lon) ->
  nth_error lon k = Some ln -> nth_error lat k = Some lt -> nth_error times k = Some tm ->
  tide_time_fl F tm = Ok (Tt, t0t) ->
  exists g0 gm gs, longman_tide_prediction_fl F lon lat times alt true = Ok (Components g0 gm gs) /\
    longman_tide_prediction_fl F lon lat times alt false = Ok (Total g0) /\
    length g0 = length lon /\ length gm = length lon /\ length gs = length lon /\
    nth_error g0 k = Some (fst (fst (t_out_fl F ln lt (alt_at alt k) t0t Tt))) /\
    nth_error gm k = Some (snd (fst (t_out_fl F ln lt (alt_at alt k) t0t Tt))) /\
    nth_error gs k = Some (snd (t_out_fl F ln lt (alt_at alt k) t0t Tt)).
Proof.
  intros L1 L2 Ha Hok Hln Hlt Htm Htt. unfold longman_tide_prediction_fl.
  rewrite L1, L2, Nat.eqb_refl. cbn [negb].
  destruct (mapM_some _ _ (tide_time_fl F) times) as [tts Em].
  { intros t Ht. apply tide_time_fl_some. rewrite Forall_forall in Ha. apply Ha. exact Ht. }
  rewrite Em. cbn [bind]. destruct (mapM_nth _ _ _ _ _ Em) as [Lt Ht].
  destruct (Ht k tm Htm) as [p [Hp Ep]]. rewrite Htt in Ep. injection Ep as <-.
  assert (Hk : (k < length lon)%nat) by (apply nth_error_Some; congruence).
  assert (Hal : exists alts, match alt with Alt h => Ok (repeat h (length lon))
             | Alts hs => if (length hs =? length lon)%nat then Ok hs else Raise ValueError end = Ok alts /\
             length alts = length lon /\ List.nth k alts 0 = alt_at alt k).
  { destruct alt as [h|hs]; cbn [altitude_ok] in Hok.
    - exists (repeat h (length lon)). split; [reflexivity|]. split; [apply repeat_length|]. apply nth_repeat_lt. exact Hk.
    - rewrite Hok, Nat.eqb_refl. exists hs. auto. }
  destruct Hal as [alts [Ea [La Hal]]]. rewrite Ea. cbn [bind].
  set (outs := map2 _ _ _).
  assert (Lo : length outs = length lon).
  { unfold outs. rewrite map2_length, map3_length. lia. }
  assert (Ho : nth_error outs k = Some (t_out_fl F ln lt (alt_at alt k) t0t Tt)).
  { rewrite (nth_error_nth' _ (0,0,0)) by lia. f_equal. unfold outs.
    rewrite (map2_nth _ _ _ _ _ _ _ (fun _ _ => (0,0,0)) (0,0)) by (rewrite ?map3_length; lia).
    rewrite (map3_nth _ _ _ _ _ _ _ _ _ 0 0 0) by lia.
    rewrite (nth_error_nth _ _ _ Hln), (nth_error_nth _ _ _ Hlt), Hal, (nth_error_nth _ _ _ Hp). reflexivity. }
  eexists _, _, _. split; [reflexivity|]. split; [reflexivity|].
  rewrite !map_length, Lo. split; [reflexivity|]. split; [reflexivity|]. split; [reflexivity|].
  rewrite !nth_error_map, Ho. split; [reflexivity|]. split; reflexivity.
Qed.

Lemma check_far : tide_check 3 1000 1 10000000000 = true.
Proof. vm_compute. reflexivity. Qed.
Lemma check_near : tide_check 3 1000000000000 1 1000000 = true.
Proof. vm_compute. reflexivity. Qed.

(** C101: the tide computed in double precision, for 1900 to 2099 and positions anywhere up to
    10 km, is the tide of the specification to a ten-billionth of a mGal; when the moon's node
    is near 180 degrees, where the code divides two small numbers, to a millionth.  Excluded
    are only the seven minutes before and after the node passes through 180 degrees (every 18.6
    years). *)
Theorem C101_tide : forall F lon lat times alt k ln lt hgt y m d h mi s us tm i T,
  double_arith F -> length lat = length lon -> length times = length lon ->
  Forall (fun t => utcoffset t <> None) times ->
  (alt = Alt hgt \/ exists hs, alt = Alts hs /\ length hs = length lon /\ nth_error hs k = Some hgt) ->
  nth_error lon k = Some ln -> nth_error lat k = Some lt -> nth_error times k = Some tm ->
  datetime_new y m d h mi s us (Some 0%Z) = Ok tm ->
  instant (y, m, d) h mi s us i -> julian_centuries i T ->
  0 <= T <= 2 -> Rabs ln <= 360 -> Rabs lt <= 90 -> Rabs hgt <= 10000 ->
  1 / 100000000000 <= 1 + cos (moon_node T) ->
  exists g0 gm gs a b c,
    longman_tide_prediction_fl F lon lat times alt true = Ok (Components g0 gm gs) /\
    longman_tide_prediction_fl F lon lat times alt false = Ok (Total g0) /\
    length g0 = length lon /\ length gm = length lon /\ length gs = length lon /\
    nth_error g0 k = Some a /\ nth_error gm k = Some b /\ nth_error gs k = Some c /\
    let within (eps : R) :=
      Rabs (a - (lunar_tide T ln lt hgt (utc_hours i) + solar_tide T ln lt hgt (utc_hours i))) <= eps /\
      Rabs (b - lunar_tide T ln lt hgt (utc_hours i)) <= eps /\
      Rabs (c - solar_tide T ln lt hgt (utc_hours i)) <= eps in
    within (1 / 1000000) /\ (1 / 100 <= 1 + cos (moon_node T) -> within (1 / 10000000000)).
Proof.
  intros F lon lat times alt k ln lt hgt y m d h mi s us tm i T G L1 L2 Ha Hal Hln Hlt Htm Hnew Hi HT HR R1 R2 R3 HN.
  assert (Hal' : altitude_ok alt (length lon) /\ alt_at alt k = hgt).
  { destruct Hal as [->|[hs [-> [Hl Hn]]]]; [split; [exact Logic.I|reflexivity]|].
    split; [exact Hl|]. apply (nth_error_nth _ _ _ Hn). }
  destruct Hal' as [Hok Hat].
  assert (Haw : Forall aware times).
  { eapply Forall_impl; [|exact Ha]. intros t Ht. destruct (utcoffset t) as [o|] eqn:E; [|congruence]. exists o. exact E. }
  pose proof (tide_time_near F _ _ _ _ _ _ _ _ _ G Hnew) as Hnear. cbv zeta in Hnear.
  pose proof (new_century_range _ _ _ _ _ _ _ _ _ Hnew ltac:(lia)) as Hrange.
  apply datetime_new_inv in Hnew. destruct Hnew as [-> [H1 [H2 [H3 [H4 [H5 H6]]]]]].
  assert (Ei : utc_us (mk_datetime y m d h mi s us (Some 0%Z)) 0 = i).
  { unfold utc_us. rewrite Z.sub_0_r. rewrite (instant_unique _ _ _ _ _ _ Hi).
    apply (instant_unique (y, m, d) h mi s us). apply instant_local. exact H2. }
  rewrite Ei in *.
  assert (ET : IZR ((i - local_us origin_time) / 1000000) / 86400 / 36525 = T).
  { destruct HT as [o [Ho ->]]. rewrite (instant_unique _ _ _ _ _ _ Ho), (instant_unique _ _ _ _ _ _ origin_instant). reflexivity. }
  rewrite ET in *.
  assert (Eh : IZR h + IZR mi / 60 + IZR s / 3600 = utc_hours i).
  { destruct Hi as [n [_ ->]]. rewrite utc_hours_fields by assumption. reflexivity. }
  rewrite Eh in *. destruct (Hnear HR) as (Tt & t0t & Htt & O1 & O2).
  destruct (longman_fl_nth F lon lat times alt Tt t0t k ln lt _ L1 L2 Haw Hok Hln Hlt Htm Htt)
    as (g0 & gm & gs & A0 & A1 & A2 & A3 & A4 & A5 & A6 & A7).
  rewrite Hat in *. exists g0, gm, gs. do 3 eexists.
  split; [exact A0|]. split; [exact A1|]. split; [exact A2|]. split; [exact A3|]. split; [exact A4|].
  split; [exact A5|]. split; [exact A6|]. split; [exact A7|]. cbv zeta beta.
  assert (HN1 : cos (moon_node T) <> -1) by lra.
  pose proof (t_out_spec ln lt hgt (utc_hours i) T HN1 (e1_range T Hrange)) as ES.
  pose proof (den_low T) as HD. rewrite el_N in HD. pose proof (double_good F G) as GA.
  split.
  - pose proof (tide_err F 3 1000000000000 1 1000000 T (utc_hours i) ln lt hgt Tt t0t GA eq_refl eq_refl check_near
      O1 O2 R1 R2 R3 ltac:(lra)) as K. cbv zeta in K. rewrite ES in K. cbn [fst snd] in K. exact K.
  - intros HF.
    pose proof (tide_err F 3 1000 1 10000000000 T (utc_hours i) ln lt hgt Tt t0t GA eq_refl eq_refl check_far
      O1 O2 R1 R2 R3 ltac:(lra)) as K. cbv zeta in K. rewrite ES in K. cbn [fst snd] in K. exact K.
Qed.
Print Assumptions C101_tide.

(** C101: the condition holds whenever the node is an arcsecond or more away from 180 degrees,
    and the stronger one when it is 9 degrees away. *)
Lemma away_from_half_turn N e : 0 <= e <= 1 -> (forall k : Z, e <= Rabs (N - IZR (2 * k + 1) * PI)) ->
  e ^ 2 / 2 - e ^ 4 / 24 <= 1 + cos N.
Proof.
  intros He H. pose proof PI_num as HP.
  set (q := N / (2 * PI)). set (k := Int_part q).
  destruct (base_Int_part q) as [I1 I2]. fold k in I1, I2.
  assert (EN : N = q * (2 * PI)) by (unfold q; field; lra).
  specialize (H k). set (r := N - IZR (2 * k + 1) * PI) in *.
  assert (Er : r = (q - IZR k) * (2 * PI) - PI).
  { unfold r. rewrite EN, plus_IZR, mult_IZR. ring. }
  assert (Br : Rabs r <= PI).
  { apply Rabs_le. rewrite Er. assert (0 <= (q - IZR k) * (2 * PI) <= 1 * (2 * PI)).
    { split; [apply Rmult_le_pos; lra|apply Rmult_le_compat_r; lra]. } lra. }
  assert (EC : cos N = - cos (Rabs r)).
  { assert (E1 : cos (Rabs r) = cos r) by (unfold Rabs; destruct (Rcase_abs r); [apply cos_neg|reflexivity]).
    rewrite E1. replace N with (r + PI + 2 * IZR k * PI) by (unfold r; rewrite plus_IZR, mult_IZR; ring).
    rewrite cos_turns, neg_cos. reflexivity. }
  rewrite EC. pose proof (proj2 (cos_num e He)) as C.
  assert (D : cos (Rabs r) <= cos e).
  { destruct (Rle_lt_or_eq_dec e (Rabs r) H) as [Hlt|Heq]; [|rewrite <- Heq; lra].
    left. apply cos_decreasing_1; lra. }
  lra.
Qed.
Theorem C101_node : forall T,
  ((forall k : Z, PI / 180 / 3600 <= Rabs (moon_node T - IZR (2 * k + 1) * PI)) -> 1 / 100000000000 <= 1 + cos (moon_node T)) /\
  ((forall k : Z, 9 * (PI / 180) <= Rabs (moon_node T - IZR (2 * k + 1) * PI)) -> 1 / 100 <= 1 + cos (moon_node T)).
Proof.
  intros T. pose proof PI_num as HP. split; intros H.
  - apply away_from_half_turn in H; [|lra]. eapply Rle_trans; [|exact H].
    set (e := PI / 180 / 3600) in *. assert (B : 0.00000484 <= e <= 0.00000487) by (unfold e; lra).
    assert (B2 : 2.34e-11 <= e ^ 2 <= 1) by nra. replace (e ^ 4) with (e ^ 2 * e ^ 2) by ring. nra.
  - apply away_from_half_turn in H; [|lra]. eapply Rle_trans; [|exact H].
    set (e := 9 * (PI / 180)) in *. assert (B : 0.157 <= e <= 0.158) by (unfold e; lra).
    assert (B2 : 0.024 <= e ^ 2 <= 0.025) by nra. replace (e ^ 4) with (e ^ 2 * e ^ 2) by ring. nra.
Qed.
Print Assumptions C101_node.

(** At noon on the last day of 1899 the node was 80 degrees from 180; library functions as
    assumed exist. *)
Example C101_case : double_arith rounded /\ julian_centuries (-2209032000000000) 0 /\
  datetime_new 1899 12 31 12 0 0 0 (Some 0%Z) = Ok origin_time /\
  instant (1899, 12, 31)%Z 12 0 0 0 (-2209032000000000) /\ 1 / 100 <= 1 + cos (moon_node 0).
Proof.
  split; [exact rounded_double|]. split.
  { exists (-2209032000000000)%Z. split; [rewrite <- origin_value; exact origin_instant|].
    rewrite Z.sub_diag, Z.div_0_l by lia. lra. }
  split; [reflexivity|]. split; [rewrite <- origin_value; exact origin_instant|].
  apply C101_node. intros k. unfold moon_node, poly3. pose proof PI_num as HP.
  replace (4.523588564 + -33.75715303 * 0 + 0.000036749 * 0 ^ 2 + 0 * 0 ^ 3) with 4.523588564 by ring.
  destruct (Z_le_gt_dec k 0) as [Hk|Hk].
  - assert (IZR (2 * k + 1) <= 1) by (apply IZR_le; lia). rewrite Rabs_pos_eq; nra.
  - assert (3 <= IZR (2 * k + 1)) by (apply IZR_le; lia). rewrite Rabs_left1; nra.
Qed.
