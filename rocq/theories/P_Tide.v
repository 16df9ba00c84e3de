(** Properties C22-C26: the tidal correction. *)
From Coq Require Import List ZArith Reals Lia Lra.
From Verif Require Import M_Py M_Np M_Cal M_Tide S_Base S_Cal S_Tide L_Base L_Np L_Cal L_Tide L_Node.
Import ListNotations.
Open Scope R_scope.

(** C22: the zenith cosines are dot products of the zenith with the directions of moon and sun. The
    moon's node at exactly 180 degrees is excluded: there the code divides 0 by 0 (NaN).  No
    timestamp is such a time (C22_node). *)
Theorem C22_zenith_cosines : forall lon lat hour T,
  t_cos_phi lon lat hour T = dot (zenith T lon lat hour) (sun_direction T) /\
  (cos (moon_node T) <> -1 -> t_cos_theta lon lat hour T = dot (zenith T lon lat hour) (moon_direction T)) /\
  dot (zenith T lon lat hour) (zenith T lon lat hour) = 1 /\
  dot (sun_direction T) (sun_direction T) = 1 /\ dot (moon_direction T) (moon_direction T) = 1 /\
  -1 <= t_cos_phi lon lat hour T <= 1 /\ -1 <= t_cos_theta lon lat hour T <= 1.
Proof.
  intros lon lat hour T. split; [apply cos_phi_dot|]. split; [apply cos_theta_dot|].
  split; [apply unit_zenith|]. split; [apply unit_sun|]. split; [apply unit_moon|].
  split; [apply cos_phi_bound|apply cos_theta_bound].
Qed.
Print Assumptions C22_zenith_cosines.

(** C22: at no instant is the moon's node at 180 degrees (it would make pi a rational number). *)
Theorem C22_node : forall i T, julian_centuries i T -> cos (moon_node T) <> -1 /\
  forall k : Z, moon_node T <> IZR (2 * k + 1) * PI.
Proof.
  intros i T H. pose proof (node_not_180 i T H) as K. split; [exact K|].
  intros k E. apply K. rewrite E. replace (IZR (2 * k + 1) * PI) with (PI + 2 * IZR k * PI) by (rewrite plus_IZR, mult_IZR; ring).
  rewrite cos_turns. apply cos_PI.
Qed.
Print Assumptions C22_node.

(** C22 end to end: sample k of the prediction is the tide of the spec at the instant of its UTC
    timestamp, whatever the other samples are. *)
Theorem C22_prediction : forall lon lat times alt k ln lt hgt y m d h mi s us tm i T,
  length lat = length lon -> length times = length lon ->
  Forall (fun t => utcoffset t <> None) times ->
  (alt = Alt hgt \/ exists hs, alt = Alts hs /\ length hs = length lon /\ nth_error hs k = Some hgt) ->
  nth_error lon k = Some ln -> nth_error lat k = Some lt -> nth_error times k = Some tm ->
  datetime_new y m d h mi s us (Some 0%Z) = Ok tm ->
  instant (y, m, d) h mi s us i -> julian_centuries i T ->
  exists g0 gm gs,
    longman_tide_prediction lon lat times alt true = Ok (Components g0 gm gs) /\
    longman_tide_prediction lon lat times alt false = Ok (Total g0) /\
    length g0 = length lon /\ length gm = length lon /\ length gs = length lon /\
    nth_error g0 k = Some (lunar_tide T ln lt hgt (utc_hours i) + solar_tide T ln lt hgt (utc_hours i)) /\
    nth_error gm k = Some (lunar_tide T ln lt hgt (utc_hours i)) /\
    nth_error gs k = Some (solar_tide T ln lt hgt (utc_hours i)).
Proof.
  intros lon lat times alt k ln lt hgt y m d h mi s us tm i T L1 L2 Ha Hal Hln Hlt Htm Hnew Hi HT. pose proof (node_not_180 i T HT) as HN.
  assert (Hal' : altitude_ok alt (length lon) /\ alt_at alt k = hgt).
  { destruct Hal as [->|[hs [-> [Hl Hn]]]]; [split; [exact I|reflexivity]|].
    split; [exact Hl|]. apply (nth_error_nth _ _ _ Hn). }
  destruct Hal' as [Hok Hat].
  destruct (longman_ok lon lat times alt true L1 L2) as [r Hr]; [|exact Hok|].
  { eapply Forall_impl; [|exact Ha]. intros t Ht. destruct (utcoffset t) as [o|] eqn:E; [|congruence]. exists o. exact E. }
  pose proof (tide_time_new _ _ _ _ _ _ _ _ _ Hnew) as Htt.
  pose proof (new_century_range _ _ _ _ _ _ _ _ _ Hnew ltac:(lia)) as Hrange.
  apply datetime_new_inv in Hnew. destruct Hnew as [-> [H1 [H2 [H3 [H4 [H5 H6]]]]]].
  assert (Ei : utc_us (mk_datetime y m d h mi s us (Some 0%Z)) 0 = i).
  { unfold utc_us. rewrite Z.sub_0_r. rewrite (instant_unique _ _ _ _ _ _ Hi).
    apply (instant_unique (y, m, d) h mi s us). apply instant_local. exact H2. }
  rewrite Ei in *.
  assert (ET : IZR ((i - local_us origin_time) / 1000000) / 86400 / 36525 = T).
  { destruct HT as [o [Ho ->]]. rewrite (instant_unique _ _ _ _ _ _ Ho), (instant_unique _ _ _ _ _ _ origin_instant). reflexivity. }
  rewrite ET in *.
  assert (Eh : IZR h + IZR mi / 60 + IZR s / 3600 = utc_hours i).
  { destruct Hi as [n [_ ->]]. rewrite utc_hours_fields by assumption. reflexivity. }
  rewrite Eh in *.
  destruct (longman_nth _ _ _ _ _ _ _ _ _ _ _ Hr Hln Hlt Htm Htt) as [g0 [gm [gs [-> [A1 [A2 [A3 [A4 [A5 [A6 A7]]]]]]]]]].
  rewrite Hat in *. rewrite (t_out_spec ln lt hgt _ _ HN (e1_range T Hrange)) in A5, A6, A7.
  exists g0, gm, gs. tauto.
Qed.
Print Assumptions C22_prediction.

(** Values of the ingredients: two quarter turns, and the degree 2 and 3 terms under the body and on its horizon. *)
Example C22_case : dot (1, 0, 0) (rot_x (PI / 2) (rot_z (PI / 2) (0, -1, 0))) = 1 /\
  tidal_term 2 1 1 1 1 = 2 * newton /\ tidal_term 3 1 1 1 0 = 0.
Proof.
  cbn [dot rot_x rot_z]. rewrite sin_PI2. unfold tidal_term. rewrite legendre_2, legendre_3. cbn [INR Nat.sub Nat.add]. split; [lra|].
  split; field.
Qed.

(** C23 *)
Theorem C23_longitude_period : forall lon lat times alt c,
  longman_tide_prediction (map (fun x => x + 360) lon) lat times alt c =
  longman_tide_prediction lon lat times alt c.
Proof.
  intros lon lat times alt c. unfold longman_tide_prediction. rewrite map_length.
  destruct (negb _); [reflexivity|]. destruct (negb _); [reflexivity|].
  destruct (mapM tide_time times) as [tts|e]; [|reflexivity]. cbn [bind].
  destruct (match alt with Alt h => _ | Alts hs => _ end) as [alts|e]; [|reflexivity]. cbn [bind].
  assert (E : map2 (fun f (tt : R * R) => f (snd tt) (fst tt)) (map3 t_out (map (fun x => x + 360) lon) lat alts) tts =
              map2 (fun f (tt : R * R) => f (snd tt) (fst tt)) (map3 t_out lon lat alts) tts); [|rewrite E; reflexivity].
  clear. revert lat alts tts. induction lon as [|x lon IH]; intros [|y lat] [|z alts] [|t tts]; try reflexivity.
  cbn [map map3 map2]. rewrite periodic_lon, IH. reflexivity.
Qed.
Print Assumptions C23_longitude_period.

Theorem C23_components_sum : forall lon lat times alt g0 gm gs,
  longman_tide_prediction lon lat times alt true = Ok (Components g0 gm gs) ->
  length g0 = length lon /\ length gm = length lon /\ length gs = length lon /\
  longman_tide_prediction lon lat times alt false = Ok (Total g0) /\
  forall k a b c, nth_error g0 k = Some a -> nth_error gm k = Some b -> nth_error gs k = Some c -> a = b + c.
Proof.
  intros lon lat times alt g0 gm gs. unfold longman_tide_prediction.
  destruct (Nat.eqb_spec (length lon) (length lat)) as [E1|]; [|discriminate].
  destruct (Nat.eqb_spec (length lon) (length times)) as [E2|]; [|discriminate]. cbn [negb].
  destruct (mapM tide_time times) as [tts|e] eqn:Em; [|discriminate]. cbn [bind].
  destruct (mapM_nth _ _ _ _ _ Em) as [Lt _].
  intros H.
  assert (Ha : exists alts, match alt with Alt h => Ok (repeat h (length lon))
             | Alts hs => if (length hs =? length lon)%nat then Ok hs else Raise ValueError end = Ok alts /\ length alts = length lon).
  { destruct alt as [h|hs].
    - exists (repeat h (length lon)). split; [reflexivity|apply repeat_length].
    - destruct (Nat.eqb_spec (length hs) (length lon)) as [E|E]; [|discriminate]. exists hs. auto. }
  destruct Ha as [alts [Ea La]]. rewrite Ea in *. cbn [bind] in *. injection H as <- <- <-.
  set (outs := map2 _ _ _).
  assert (Lo : length outs = length lon) by (unfold outs; rewrite map2_length, map3_length; lia).
  rewrite !map_length, Lo. do 3 (split; [reflexivity|]). split; [reflexivity|].
  intros k a b c. rewrite !nth_error_map.
  destruct (nth_error outs k) as [o|] eqn:Eo; [|discriminate]. cbn [option_map].
  intros Ha Hb Hc. injection Ha as <-. injection Hb as <-. injection Hc as <-.
  assert (Hk : (k < length outs)%nat) by (apply nth_error_Some; congruence).
  apply (nth_error_nth _ _ (0,0,0)) in Eo. unfold outs in Eo.
  rewrite (map2_nth _ _ _ _ _ _ _ (fun _ _ => (0,0,0)) (0,0)) in Eo by (rewrite ?map3_length; lia).
  rewrite (map3_nth _ _ _ _ _ _ _ _ _ 0 0 0) in Eo by lia.
  subst o. unfold t_out. cbv zeta. cbn [fst snd]. ring.
Qed.
Print Assumptions C23_components_sum.

Theorem C23_unequal_lengths_raise : forall lon lat times alt c,
  length lat <> length lon \/ length times <> length lon ->
  longman_tide_prediction lon lat times alt c = Raise AssertionError.
Proof.
  intros lon lat times alt c H. unfold longman_tide_prediction.
  destruct (Nat.eqb_spec (length lon) (length lat)) as [E1|]; [|reflexivity].
  destruct (Nat.eqb_spec (length lon) (length times)) as [E2|]; [|reflexivity]. exfalso. destruct H; congruence.
Qed.
Print Assumptions C23_unequal_lengths_raise.

Example C23_case : longman_tide_prediction [1; 2] [3; 4] [] (Alt 0) true = Raise AssertionError /\
  longman_tide_prediction [361] [3] [origin_time] (Alt 7) true = longman_tide_prediction [1] [3] [origin_time] (Alt 7) true.
Proof.
  split; [reflexivity|]. rewrite <- (C23_longitude_period [1]). cbn [map]. replace (1 + 360) with 361 by ring. reflexivity.
Qed.

(** C24: the time arguments. *)
Theorem C24_time_argument : forall y m d h mi s us t i,
  datetime_new y m d h mi s us (Some 0%Z) = Ok t -> instant (y, m, d) h mi s us i ->
  exists T, convert_datetime_tidetime t = Ok (T, utc_hours i) /\ julian_centuries i T /\
    0 <= utc_hours i < 24.
Proof.
  intros y m d h mi s us t i Hnew Hi. apply datetime_new_inv in Hnew.
  destruct Hnew as [-> [H1 [H2 [H3 [H4 [H5 H6]]]]]].
  assert (Ei : utc_us (mk_datetime y m d h mi s us (Some 0%Z)) 0 = i).
  { unfold utc_us. rewrite Z.sub_0_r. rewrite (instant_unique _ _ _ _ _ _ Hi).
    apply (instant_unique (y, m, d) h mi s us). apply instant_local. exact H2. }
  exists (IZR ((i - local_us origin_time) / 1000000) / 86400 / 36525).
  assert (Eh : IZR h + IZR mi / 60 + IZR s / 3600 = utc_hours i).
  { destruct Hi as [n [_ ->]]. rewrite utc_hours_fields by assumption. reflexivity. }
  split; [|split].
  - rewrite (convert_aware _ 0%Z) by reflexivity. rewrite Ei, <- Eh. reflexivity.
  - exists (local_us origin_time). split; [exact origin_instant|reflexivity].
  - rewrite <- Eh. apply hour_fields; assumption.
Qed.
Print Assumptions C24_time_argument.

(** With an offset the century is that of the instant, but the hour is the local one. *)
Theorem C24_offset_times : forall y m d h mi s us off t i,
  datetime_new y m d h mi s us (Some off) = Ok t -> instant (y, m, d) h mi s us i ->
  exists T, convert_datetime_tidetime t = Ok (T, utc_hours i) /\ julian_centuries (i - off) T.
Proof.
  intros y m d h mi s us off t i Hnew Hi. apply datetime_new_inv in Hnew.
  destruct Hnew as [-> [H1 [H2 [H3 [H4 [H5 H6]]]]]].
  assert (Ei : utc_us (mk_datetime y m d h mi s us (Some off)) off = (i - off)%Z).
  { unfold utc_us. f_equal. rewrite (instant_unique _ _ _ _ _ _ Hi).
    apply (instant_unique (y, m, d) h mi s us). apply instant_local. exact H2. }
  exists (IZR ((i - off - local_us origin_time) / 1000000) / 86400 / 36525).
  assert (Eh : IZR h + IZR mi / 60 + IZR s / 3600 = utc_hours i).
  { destruct Hi as [n [_ ->]]. rewrite utc_hours_fields by assumption. reflexivity. }
  split.
  - rewrite (convert_aware _ off) by reflexivity. rewrite Ei, <- Eh. reflexivity.
  - exists (local_us origin_time). split; [exact origin_instant|reflexivity].
Qed.
Print Assumptions C24_offset_times.

Theorem C24_naive_raises : forall t, utcoffset t = None -> convert_datetime_tidetime t = Raise TypeError.
Proof. intros t H. unfold convert_datetime_tidetime, sub_us. rewrite H. reflexivity. Qed.
Print Assumptions C24_naive_raises.

(** 36525 days after the epoch and six and a half hours more. *)
Example C24_case : exists T, convert_datetime_tidetime (mk_datetime 2000 1 1 18 30 0 999999 (Some 0%Z)) = Ok (T, 18.5) /\
  T = (36525 + 6.5 / 24) / 36525.
Proof.
  eexists. rewrite (convert_aware _ 0%Z) by reflexivity. split.
  - cbn [hour minute second]. f_equal. f_equal. lra.
  - replace ((utc_us _ _ - local_us origin_time) / 1000000)%Z with (3155783400)%Z by reflexivity. lra.
Qed.

(** C25: the same instant in two time zones gives different tides. *)
Definition zoned (k : Z) : datetime := mk_datetime 2000 1 1 (3 * k) 0 0 0 (Some ((3 * k - 12) * 3600000000)%Z).

Theorem C25_same_instant_same_tide_refuted : exists t1 t2 o1 o2,
  utcoffset t1 = Some o1 /\ utcoffset t2 = Some o2 /\ utc_us t1 o1 = utc_us t2 o2 /\
  exists a b, longman_tide_prediction [0] [0] [t1] (Alt 0) false = Ok (Total [a]) /\
    longman_tide_prediction [0] [0] [t2] (Alt 0) false = Ok (Total [b]) /\ a <> b.
Proof.
  set (T := IZR ((utc_us (zoned 0) (-43200000000) - local_us origin_time) / 1000000) / 86400 / 36525).
  destruct (some_zone_differs T) as [k [Hk Hd]].
  exists (zoned (k + 4)), (zoned k), ((3 * (k + 4) - 12) * 3600000000)%Z, ((3 * k - 12) * 3600000000)%Z.
  assert (G : forall j, (0 <= j < 8)%Z -> longman_tide_prediction [0] [0] [zoned j] (Alt 0) false =
     Ok (Total [fst (fst (t_out 0 0 0 (3 * IZR j) T))])).
  { intros j Hj. unfold longman_tide_prediction. cbn [length Nat.eqb negb mapM].
    rewrite (tide_time_aware (zoned j) ((3 * j - 12) * 3600000000)%Z); [|reflexivity|cbn [hour zoned]; lia|cbn [minute zoned]; lia|cbn [second zoned]; lia].
    replace (utc_us (zoned j) ((3 * j - 12) * 3600000000)) with (utc_us (zoned 0) (-43200000000)).
    - cbn [bind repeat map3 map2 map fst snd hour zoned minute second]. fold T.
      replace (IZR (3 * j) + 0 / 60 + 0 / 3600) with (3 * IZR j) by (rewrite mult_IZR; lra). reflexivity.
    - assert (E : (j = 0 \/ j = 1 \/ j = 2 \/ j = 3 \/ j = 4 \/ j = 5 \/ j = 6 \/ j = 7)%Z) by lia.
      destruct E as [E|[E|[E|[E|[E|[E|[E|E]]]]]]]; subst j; reflexivity. }
  split; [reflexivity|]. split; [reflexivity|]. split.
  - destruct Hk as [E|[E|[E|E]]]; subst k; reflexivity.
  - eexists _, _. split; [apply G; lia|]. split; [apply G; lia|].
    replace (3 * IZR (k + 4)) with (3 * IZR k + 12) by (rewrite plus_IZR; lra). exact Hd.
Qed.
Print Assumptions C25_same_instant_same_tide_refuted.

Example C25_case : utc_us (zoned 1) (-32400000000) = utc_us (zoned 5) 10800000000 /\ hour (zoned 5) = 15%Z.
Proof. split; reflexivity. Qed.

(** C26: at sea level the tide is below 0.25 mGal, for every timestamp Python can represent. *)
Theorem C26_bound : forall lon lat times c g0,
  Forall (fun t => exists y m d h mi s us off, datetime_new y m d h mi s us (Some off) = Ok t /\
            (-86400000000 < off < 86400000000)%Z) times ->
  longman_tide_prediction lon lat times (Alt 0) c = Ok g0 ->
  match g0 with
  | Total g => Forall (fun x => Rabs x <= 0.2251) g
  | Components g gm gs => Forall (fun x => Rabs x <= 0.2251) g /\
      Forall (fun x => Rabs x <= 0.1625) gm /\ Forall (fun x => Rabs x <= 0.0626) gs
  end.
Proof.
  intros lon lat times c g0 Ht. unfold longman_tide_prediction.
  destruct (Nat.eqb_spec (length lon) (length lat)) as [E1|]; [|discriminate].
  destruct (Nat.eqb_spec (length lon) (length times)) as [E2|]; [|discriminate]. cbn [negb].
  destruct (mapM tide_time times) as [tts|e] eqn:Em; [|discriminate]. cbn [bind].
  assert (G : Forall (fun o => Rabs (fst (fst o)) <= 0.2251 /\ Rabs (snd (fst o)) <= 0.1625 /\ Rabs (snd o) <= 0.0626)
             (map2 (fun f (tt : R * R) => f (snd tt) (fst tt)) (map3 t_out lon lat (repeat 0 (length lon))) tts)).
  { assert (He : Forall (fun tt : R * R => Rabs (t_e1 (fst tt)) <= 0.02) tts).
    { clear E2. revert tts Em. induction Ht as [|t times [y [m [d [h [mi [s [us [off [Hn Ho]]]]]]]]] Ht IH]; intros tts Em.
      - cbn in Em. injection Em as <-. constructor.
      - cbn [mapM] in Em. rewrite (tide_time_new _ _ _ _ _ _ _ _ _ Hn) in Em. cbn [bind] in Em.
        destruct (mapM tide_time times) as [l|]; [|discriminate]. cbn [bind] in Em. injection Em as <-. constructor; [|apply IH; reflexivity].
        cbn [fst]. apply e1_range. apply (new_century_range _ _ _ _ _ _ _ _ _ Hn). lia. }
    clear - He. generalize (repeat_length 0 (length lon)). intros _.
    revert lat tts He. induction lon as [|x lon IH]; intros lat tts He; [constructor|].
    destruct lat as [|y lat]; [constructor|]. destruct He as [|[T t0] tts H He]; [constructor|].
    cbn [length repeat map3 map2 fst snd]. constructor; [|apply IH; exact He]. cbn [fst] in H.
    pose proof (gm_bound x y t0 T) as B1. pose proof (gs_bound x y t0 T H) as B2.
    unfold t_out. cbv zeta. cbn [fst snd]. split; [|split; assumption].
    replace ((t_gm x y 0 t0 T + t_gs x y 0 t0 T) * 1e3 * t_love)
      with (t_gm x y 0 t0 T * 1e3 * t_love + t_gs x y 0 t0 T * 1e3 * t_love) by ring.
    eapply Rle_trans; [apply Rabs_triang|lra]. }
  cbn [bind]. destruct c; intros H; injection H as <-.
  - repeat split; rewrite Forall_map; (eapply Forall_impl; [|exact G]); cbn; tauto.
  - rewrite Forall_map. eapply Forall_impl; [|exact G]. cbn. tauto.
Qed.
Print Assumptions C26_bound.

Example C26_case : exists g, longman_tide_prediction [10] [20] [origin_time] (Alt 0) false = Ok (Total [g]) /\ Rabs g <= 0.25.
Proof.
  assert (E : exists g, longman_tide_prediction [10] [20] [origin_time] (Alt 0) false = Ok (Total [g])).
  { unfold longman_tide_prediction. cbn [length Nat.eqb negb mapM].
    rewrite (tide_time_aware origin_time 0%Z); [|reflexivity|cbn; lia|cbn; lia|cbn; lia]. eexists. reflexivity. }
  destruct E as [g E]. exists g. split; [exact E|].
  apply C26_bound in E; [inversion E; subst; lra|]. constructor; [|constructor].
  exists 1899%Z, 12%Z, 31%Z, 12%Z, 0%Z, 0%Z, 0%Z, 0%Z. split; [reflexivity|lia].
Qed.
