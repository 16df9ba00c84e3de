(** C102: the free-air anomaly in double precision. *)
From Coq Require Import List ZArith QArith Qreals Reals Lia Lra Bool.
From Verif Require Import M_Py S_Base L_Base M_Np M_Cal L_Np L_Cal M_Corr S_Corr L_Corr M_Tide S_Cal S_Tide L_Tide P_Corr P_Tide
  M_Faa M_Float S_Round L_Round L_Float M_TideFl L_TideFl P_Float P_TideFl M_FaaFl.
Import ListNotations.
Open Scope R_scope.

Lemma eotvos_full_mag F lon lat ht samp e :
  good_arith F -> 0 <= samp <= 10 ->
  length lon = length lat -> length ht = length lat -> (3 <= length lat)%nat ->
  sailed samp (length lat) (fun i => nth i lon 0) (fun i => nth i lat 0) (fun i => nth i ht 0) ->
  eotvos_full lon lat ht samp 6378137 6356752.3142 = Ok e ->
  forall k, (k < length lat)%nat -> Rabs (nth k e 0) <= 1100000.
Proof.
  intros G HS H1 H2 H3 HSail He k Hk. rewrite eotvos_full_eq in He by assumption.
  assert (Q : map (fun k => eotvos_at lon lat ht samp 6378137 6356752.3142 (clamp k (length lat))) (seq 0 (length lat)) = e) by congruence.
  rewrite <- Q, nth_map_seq by exact Hk.
  apply (eotvos_at_mag F 10 1100000); try assumption; [vm_compute; reflexivity|]. unfold clamp. lia.
Qed.

Lemma map2_at {A B C : Type} (f : A -> B -> C) l m k a b : nth_error l k = Some a -> nth_error m k = Some b ->
  nth_error (map2 f l m) k = Some (f a b).
Proof.
  revert m k. induction l as [|x l IH]; intros [|y m] [|k] H1 H2; try discriminate; cbn [map2 nth_error] in *.
  - congruence.
  - apply IH; assumption.
Qed.

Lemma ok_near n d a b x xt : (0 < d)%Z -> (0 < b)%Z -> Rabs x <= IZR n / IZR d -> Rabs (xt - x) <= IZR a / IZR b ->
  ok (L_Float.sym n d (a * L_Float.sc / b + 1)) x xt.
Proof.
  intros Hd Hb Hx He. apply ok_sym; [exact Hd|exact Hx|]. eapply Rle_trans; [exact He|].
  destruct (IZR_div (a * L_Float.sc) b Hb) as [H _].
  unfold L_Float.vz. rewrite plus_IZR. pose proof sc_pos. assert (0 < IZR b) by (apply IZR_lt; exact Hb).
  replace (IZR a / IZR b) with (IZR (a * L_Float.sc) / IZR b / IZR L_Float.sc) by (rewrite mult_IZR; field; lra).
  apply Rmult_le_compat_r; [left; apply Rinv_0_lt_compat, sc_pos|]. lra.
Qed.


(** The corrections added up: a/b is the error allowed in the Eotvos correction. *)
Definition sum_check (a b n d : Z) (f : fx) : bool :=
  er_le (bound (bargs [L_Float.sym 1000000 1 0; L_Float.sym 983300 1 (7 * L_Float.sc / 10000000000 + 1);
                       L_Float.sym 1 1 (2 * L_Float.sc / 1000000000000 + 1); L_Float.sym 1100000 1 (a * L_Float.sc / b + 1);
                       L_Float.sym 1 1 (1 * L_Float.sc / 1000000 + 1)]) f) n d.
Lemma sum_err F a b n d f g lat e et t tt : double_arith F -> (0 < b)%Z -> (0 < d)%Z -> sum_check a b n d f = true ->
  Rabs g <= 1000000 -> Rabs lat <= 90 -> Rabs e <= 1100000 -> Rabs (et - e) <= IZR a / IZR b ->
  Rabs t <= 1 -> Rabs (tt - t) <= 1 / 1000000 ->
  Rabs (eval_fl F (args [g; wgs_grav_fl F lat; free_air_second_order_fl F lat 0 false; et; tt]) f
        - eval (args [g; wgs_grav lat; free_air_second_order lat 0 false; e; t]) f) <= IZR n / IZR d.
Proof.
  intros G Hb Hd HC Hg Hlat He Het Ht Htt. unfold sum_check in HC.
  refine (er_le_ok F _ _ _ f n d (double_good F G) _ Hd HC). cbn [all_ok]. clear HC.
  split; [apply ok_exact; [reflexivity|lra]|].
  split; [apply ok_near; [reflexivity|reflexivity| |]|].
  { destruct C32_equator_and_poles as (_ & _ & H). specialize (H lat). rewrite Rabs_pos_eq; lra. }
  { pose proof (C99_wgs_grav F lat G Hlat). lra. }
  split; [apply ok_near; [reflexivity|reflexivity| |]|].
  { unfold free_air_second_order. cbv zeta. rewrite Rmult_0_r. replace (0 ^ 2) with 0 by ring. rewrite Rmult_0_r, Ropp_0, Rplus_0_r, Rabs_R0. lra. }
  { pose proof (C99_free_air F lat 0 false G Hlat) as K. rewrite Rabs_R0 in K. specialize (K ltac:(lra)). lra. }
  split; [apply ok_near; [reflexivity|exact Hb|lra|exact Het]|].
  split; [apply ok_near; [reflexivity|reflexivity|lra|lra]|exact Logic.I].
Qed.

Lemma tide_size ln lt tm y m d h mi s us i T : datetime_new y m d h mi s us (Some 0%Z) = Ok tm ->
  instant (y, m, d) h mi s us i -> julian_centuries i T ->
  Rabs (lunar_tide T ln lt 0 (utc_hours i) + solar_tide T ln lt 0 (utc_hours i)) <= 1.
Proof.
  intros Htm Hi HT.
  assert (HO : Forall (fun t => utcoffset t <> None) [tm]).
  { constructor; [|constructor]. apply datetime_new_inv in Htm. destruct Htm as [-> _]. discriminate. }
  destruct (C22_prediction [ln] [lt] [tm] (Alt 0) 0 ln lt 0 y m d h mi s us tm i T eq_refl eq_refl HO (or_introl eq_refl)
    eq_refl eq_refl eq_refl Htm Hi HT) as (g0 & gm & gs & _ & H & _ & _ & _ & N & _).
  apply C26_bound in H.
  - rewrite Forall_forall in H. specialize (H _ (nth_error_In _ _ N)). lra.
  - constructor; [|constructor]. exists y, m, d, h, mi, s, us, 0%Z. split; [exact Htm|lia].
Qed.

(** C102: for a sailed track, readings up to 1000000 mGal and times from 1900 to 2099 with the
    moon's node an arcsecond or more from 180 degrees, the computed anomaly and the computed
    full field are those of the formulas to 5.2e-5 mGal at up to one sample per second, and to
    0.00501 mGal at up to ten. *)
Theorem C102_anomaly : forall F grav lon lat times samp n k g ln lt y m d h mi s us tm i T,
  double_arith F -> length grav = n -> length lon = n -> length lat = n -> length times = n -> (3 <= n)%nat ->
  0 <= samp <= 10 -> sailed samp n (fun i => nth i lon 0) (fun i => nth i lat 0) (fun _ => 0) ->
  Forall (fun t => utcoffset t <> None) times ->
  nth_error grav k = Some g -> nth_error lon k = Some ln -> nth_error lat k = Some lt -> nth_error times k = Some tm ->
  Rabs g <= 1000000 ->
  datetime_new y m d h mi s us (Some 0%Z) = Ok tm -> instant (y, m, d) h mi s us i -> julian_centuries i T -> 0 <= T <= 2 ->
  1 / 100000000000 <= 1 + cos (moon_node T) ->
  exists faa full faa' full' E a b a' b' e,
    corrected grav lon lat times samp = Ok (faa, full) /\ corrected_fl F grav lon lat times samp = Ok (faa', full') /\
    eotvos_full lon lat (repeat 0 n) samp 6378137 6356752.3142 = Ok E /\
    length faa' = n /\ length full' = n /\
    nth_error faa k = Some a /\ nth_error full k = Some b /\ nth_error faa' k = Some a' /\ nth_error full' k = Some b' /\
    nth_error E k = Some e /\
    let tide := lunar_tide T ln lt 0 (utc_hours i) + solar_tide T ln lt 0 (utc_hours i) in
    let within (eps : R) := Rabs (a' - a) <= eps /\ Rabs (b' - b) <= eps /\
      Rabs (a' - (g - somigliana (S_Nav.rad lt) + e + tide)) <= eps + 1e-5 /\ Rabs (b' - (g + e + tide)) <= eps in
    within 0.00501 /\ (samp <= 1 -> within 0.000052).
Proof.
  intros F grav lon lat times samp n k g ln lt y m d h mi s us tm i T G Lg Ln Lt Lm Hn HS HSail HO
    Kg Kn Kt Km Hg Htm Hi HT HT2 HN.
  assert (Hk : (k < n)%nat) by (rewrite <- Lg; apply nth_error_Some; rewrite Kg; discriminate).
  set (z := repeat 0 n).
  assert (Lz : length z = n) by apply repeat_length.
  assert (Nz : forall j, nth j z 0 = 0).
  { intros j. unfold z. destruct (Nat.lt_ge_cases j n); [apply nth_repeat|apply nth_overflow; rewrite repeat_length; assumption]. }
  assert (HSz : sailed samp (length lat) (fun i => nth i lon 0) (fun i => nth i lat 0) (fun i => nth i z 0)).
  { rewrite Lt. destruct HSail as [A B]. split.
    - intros j Hj. specialize (A j Hj). cbv beta in A |- *. rewrite Nz. exact A.
    - intros j Hj. specialize (B j Hj). unfold rate, curv in *. rewrite !Nz. exact B. }
  destruct (HSail) as [HR _]. destruct (HR k Hk) as (Rlat & Rlon & _).
  rewrite (nth_error_nth _ _ 0 Kt) in Rlat. rewrite (nth_error_nth _ _ 0 Kn) in Rlon.
  destruct (C22_prediction lon lat times (Alt 0) k ln lt 0 y m d h mi s us tm i T) as (g0 & gm & gs & _ & P2 & L0 & _ & _ & N0 & _);
    try assumption; [congruence|congruence|left; reflexivity|].
  destruct (C101_tide F lon lat times (Alt 0) k ln lt 0 y m d h mi s us tm i T) as (g0' & gm' & gs' & ta & tb & tc & _ & P2' & L0' & _ & _ & N0' & _ & _ & W & _);
    try assumption; [congruence|congruence|left; reflexivity|rewrite Rabs_R0; lra|]. destruct W as [W _].
  destruct (C99_eotvos F lon lat z samp G) as (E & E' & HE & HE' & LE & LE' & W1 & W2); try assumption; [congruence|congruence|lia|].
  pose proof (eotvos_full_mag F lon lat z samp E (double_good F G) HS ltac:(congruence) ltac:(congruence) ltac:(lia) HSz HE k ltac:(lia)) as ME.
  pose proof (tide_size ln lt tm y m d h mi s us i T Htm Hi HT) as MT.
  set (tide := lunar_tide T ln lt 0 (utc_hours i) + solar_tide T ln lt 0 (utc_hours i)) in *.
  set (W' := fun f => eval_fl F (args [g; wgs_grav_fl F lt; free_air_second_order_fl F lt 0 false; nth k E' 0; ta]) f).
  set (e := nth k E 0) in *.
  exists (map2 Rplus (map2 Rplus (map2 Rminus grav (map2 (fun l h => wgs_grav l + free_air_second_order l h false) lat z)) E) g0),
    (map2 Rplus (map2 Rplus grav E) g0).
  eexists. eexists. exists E, (g - (wgs_grav lt + free_air_second_order lt 0 false) + e + tide), (g + e + tide), (W' faa_fx), (W' full_fx), e.
  split. { unfold corrected. rewrite Lt. fold z. rewrite HE. cbn [bind]. rewrite P2. reflexivity. }
  split. { unfold corrected_fl. rewrite Lt. fold z. destruct G as [-> _]. rewrite HE'. cbn [bind]. rewrite P2'. reflexivity. }
  split; [exact HE|].
  split; [rewrite map_length, seq_length; exact Lg|]. split; [rewrite map_length, seq_length; exact Lg|].
  assert (KE : nth_error E k = Some e) by (apply nth_error_nth'; lia).
  assert (KE' : nth_error E' k = Some (nth k E' 0)) by (apply nth_error_nth'; lia).
  assert (Kz : nth_error z k = Some 0) by (unfold z; apply nth_error_repeat; exact Hk).
  split. { exact (map2_at _ _ _ _ _ _ (map2_at _ _ _ _ _ _ (map2_at _ _ _ _ _ _ Kg (map2_at _ _ _ _ _ _ Kt Kz)) KE) N0). }
  split. { exact (map2_at _ _ _ _ _ _ (map2_at _ _ _ _ _ _ Kg KE) N0). }
  assert (Q : forall f, nth_error (map (fun k => eval_fl F (args [nth k grav 0; wgs_grav_fl F (nth k lat 0);
      free_air_second_order_fl F (nth k lat 0) (nth k z 0) false; nth k E' 0; nth k g0' 0]) f) (seq 0 (length grav))) k = Some (W' f)).
  { intros f. rewrite nth_error_map.
    rewrite (nth_error_nth' (seq 0 (length grav)) 0%nat (n := k)) by (rewrite seq_length; lia).
    rewrite seq_nth by lia. cbn [option_map Nat.add].
    rewrite (nth_error_nth _ _ 0 Kg), (nth_error_nth _ _ 0 Kt), Nz, (nth_error_nth _ _ 0 N0'). reflexivity. }
  split; [exact (Q faa_fx)|]. split; [exact (Q full_fx)|]. split; [exact KE|].
  pose proof (C32_somigliana lt) as SG.
  assert (FA0 : free_air_second_order lt 0 false = 0) by (unfold free_air_second_order; cbv zeta; ring).
  assert (S1 : forall a b n d : Z, (0 < b)%Z -> (0 < d)%Z -> sum_check a b n d faa_fx = true -> sum_check a b n d full_fx = true ->
    Rabs (nth k E' 0 - e) <= IZR a / IZR b ->
    Rabs (W' faa_fx - (g - (wgs_grav lt + free_air_second_order lt 0 false) + e + tide)) <= IZR n / IZR d /\
    Rabs (W' full_fx - (g + e + tide)) <= IZR n / IZR d).
  { intros a b n' d' Hb Hd C1 C2 HEE. split.
    - exact (sum_err F a b n' d' faa_fx g lt e (nth k E' 0) tide ta G Hb Hd C1 Hg Rlat ME HEE MT W).
    - exact (sum_err F a b n' d' full_fx g lt e (nth k E' 0) tide ta G Hb Hd C2 Hg Rlat ME HEE MT W). }
  assert (S2 : forall x eps, Rabs (x - (g - (wgs_grav lt + free_air_second_order lt 0 false) + e + tide)) <= eps ->
    Rabs (x - (g - somigliana (S_Nav.rad lt) + e + tide)) <= eps + 1e-5).
  { intros x eps Hx. rewrite FA0 in Hx.
    replace (x - (g - somigliana (S_Nav.rad lt) + e + tide))
      with ((x - (g - (wgs_grav lt + 0) + e + tide)) + - (wgs_grav lt - somigliana (S_Nav.rad lt))) by ring.
    eapply Rle_trans; [apply Rabs_triang|]. rewrite Rabs_Ropp. lra. }
  cbv zeta. split.
  - destruct (S1 5 1000 501 100000)%Z as [A B]; [reflexivity|reflexivity|vm_compute; reflexivity|vm_compute; reflexivity|apply W1|].
    assert (A' : Rabs (W' faa_fx - (g - (wgs_grav lt + free_air_second_order lt 0 false) + e + tide)) <= 0.00501) by lra.
    split; [exact A'|]. split; [lra|]. split; [exact (S2 _ _ A')|lra].
  - intros HS1.
    destruct (S1 5 100000 52 1000000)%Z as [A B]; [reflexivity|reflexivity|vm_compute; reflexivity|vm_compute; reflexivity|apply W2; exact HS1|].
    assert (A' : Rabs (W' faa_fx - (g - (wgs_grav lt + free_air_second_order lt 0 false) + e + tide)) <= 0.000052) by lra.
    split; [exact A'|]. split; [lra|]. split; [exact (S2 _ _ A')|lra].
Qed.
Print Assumptions C102_anomaly.

(** A ship lying still: reading minus normal gravity plus tide, to less than a ten-thousandth of a mGal. *)
Theorem C102_anchored : forall F x y0 grav times samp n k g y m d h mi s us tm i T,
  double_arith F -> length grav = n -> length times = n -> (3 <= n)%nat -> 0 <= samp <= 1 -> Rabs x <= 360 -> Rabs y0 <= 90 ->
  Forall (fun t => utcoffset t <> None) times -> nth_error grav k = Some g -> nth_error times k = Some tm -> Rabs g <= 1000000 ->
  datetime_new y m d h mi s us (Some 0%Z) = Ok tm -> instant (y, m, d) h mi s us i -> julian_centuries i T -> 0 <= T <= 2 ->
  1 / 100000000000 <= 1 + cos (moon_node T) ->
  exists faa full a, corrected_fl F grav (repeat x n) (repeat y0 n) times samp = Ok (faa, full) /\ length faa = n /\ nth_error faa k = Some a /\
    Rabs (a - (g - somigliana (S_Nav.rad y0) + (lunar_tide T x y0 0 (utc_hours i) + solar_tide T x y0 0 (utc_hours i)))) <= 0.000062.
Proof.
  intros F x y0 grav times samp n k g y m d h mi s us tm i T G Lg Lm Hn HS Hx Hy HO Kg Km Hg Htm Hi HT HT2 HN.
  assert (Hk : (k < n)%nat) by (rewrite <- Lg; apply nth_error_Some; rewrite Kg; discriminate).
  assert (NR : forall (v : R) j, (j < n)%nat -> nth j (repeat v n) 0 = v).
  { intros v j Hj. rewrite (nth_error_nth (repeat v n) j 0 (x := v)); [reflexivity|]. apply nth_error_repeat. exact Hj. }
  destruct (C102_anomaly F grav (repeat x n) (repeat y0 n) times samp n k g x y0 y m d h mi s us tm i T)
    as (faa & full & faa' & full' & E & a & b & a' & b' & e & _ & H2 & HE & L1 & _ & _ & _ & N3 & _ & NE & _ & W); try assumption;
    try (apply repeat_length); try (apply nth_error_repeat; exact Hk); [split; lra| |].
  - split.
    + intros j Hj. cbv beta. rewrite !NR by exact Hj. rewrite Rabs_R0. lra.
    + intros j Hj. unfold rate, curv. rewrite !NR by lia. repeat split; match goal with |- Rabs ?t <= _ => replace t with 0 by field end; rewrite Rabs_R0; lra.
  - exists faa', full', a'. split; [exact H2|]. split; [exact L1|]. split; [exact N3|].
    rewrite C27_stationary_is_zero in HE by (lra || exact Hn).
    assert (QE : repeat 0 n = E) by congruence. rewrite <- QE, nth_error_repeat in NE by exact Hk.
    assert (Qe : e = 0) by congruence. subst e. cbv zeta in W. specialize (W ltac:(lra)). destruct W as (_ & _ & W & _).
    rewrite Rplus_0_r in W. eapply Rle_trans; [exact W|]. lra.
Qed.
Print Assumptions C102_anchored.

(** Three samples on a moored ship, at noon on the last day of 1899. *)
Example C102_case : exists faa full a,
  corrected_fl rounded [980000; 980001; 980002] (repeat 10 3) (repeat 45 3) [origin_time; origin_time; origin_time] 1 = Ok (faa, full) /\
  length faa = 3%nat /\ nth_error faa 1 = Some a /\
  Rabs (a - (980001 - somigliana (S_Nav.rad 45) + (lunar_tide 0 10 45 0 12 + solar_tide 0 10 45 0 12))) <= 0.000062.
Proof.
  destruct C101_case as (GD & HT & Htm & Hi & HN).
  assert (HU : utc_hours (-2209032000000000) = 12).
  { unfold utc_hours. change (-2209032000000000 mod (86400 * 1000000) / 1000000)%Z with 43200%Z. lra. }
  rewrite <- HU.
  apply (C102_anchored rounded 10 45 [980000; 980001; 980002] [origin_time; origin_time; origin_time] 1 3 1 980001
    1899%Z 12%Z 31%Z 12%Z 0%Z 0%Z 0%Z origin_time (-2209032000000000) 0); try reflexivity; try assumption; try lra; try lia.
  - rewrite Rabs_pos_eq; lra.
  - rewrite Rabs_pos_eq; lra.
  - repeat constructor; discriminate.
  - rewrite Rabs_pos_eq; lra.
Qed.
