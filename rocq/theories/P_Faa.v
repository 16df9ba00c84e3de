(** Properties C78-C80: from navigation and gravimeter readings to the free-air anomaly, as in the example scripts. *)
From Coq Require Import ZArith Reals Lia Lra Arith List Bool.
From Verif Require Import M_Py L_Base M_Np M_Cal S_Base S_Cal L_Cal M_Cursor M_Corr S_Corr M_Tide S_Tide L_Tide P_Corr P_Tide S_Faa M_Faa L_Faa.
Import ListNotations.
Open Scope R_scope.

(** C78: exactly the fixes just before a jump to the east are dropped. *)
Theorem C78_exact : forall nav, without (jump_east (fun k => nth k (map f_lon nav) None)) 0 nav (clean_nav nav).
Proof. exact clean_nav_exact. Qed.
Print Assumptions C78_exact.

(** C78: a drop-out to the west (a single fix more than a degree west of its successor) is removed. *)
Theorem C78_west_spike_removed : forall nav k s q, nth_error nav k = Some s -> nth_error nav (S k) = Some q ->
  (exists a b, f_lon s = Some a /\ f_lon q = Some b /\ a + 1 < b) ->
  (forall i j f g, nth_error nav i = Some f -> nth_error nav j = Some g -> f_time f = f_time g -> i = j) ->
  ~ In (f_time s) (map f_time (clean_nav nav)).
Proof.
  intros nav k s q Hs Hq (a & b & Ea & Eb & H) D I. apply in_map_iff in I. destruct I as (f & Et & If).
  apply (without_nth _ _ _ _ _ (clean_nav_exact nav)) in If. destruct If as (i & Ei & N). pose proof (D _ _ _ _ Ei Hs Et) as ->.
  apply N. exists a, b. cbn [Nat.add]. rewrite !nth_map_lon, Hs, Hq. auto.
Qed.
Print Assumptions C78_west_spike_removed.

(** C78: a drop-out to the east stays in the table, and the good fix before it is dropped in its place. *)
Theorem C78_east_spike_kept : forall nav k p s q, nth_error nav k = Some p -> nth_error nav (S k) = Some s -> nth_error nav (S (S k)) = Some q ->
  (exists a b c, f_lon p = Some a /\ f_lon s = Some b /\ f_lon q = Some c /\ a + 1 < b /\ c <= b + 1) ->
  (forall i j f g, nth_error nav i = Some f -> nth_error nav j = Some g -> f_time f = f_time g -> i = j) ->
  In s (clean_nav nav) /\ ~ In (f_time p) (map f_time (clean_nav nav)).
Proof.
  intros nav k p s q Hp Hs Hq (a & b & c & Ea & Eb & Ec & H1 & H2) D. split.
  - apply (without_nth _ _ _ _ _ (clean_nav_exact nav)). exists (S k). split; [exact Hs|]. intros (x & y & Ex & Ey & L). cbn [Nat.add] in *.
    rewrite nth_map_lon, Hs in Ex. rewrite nth_map_lon, Hq in Ey. rewrite Eb in Ex. rewrite Ec in Ey. injection Ex as <-. injection Ey as <-. lra.
  - apply (C78_west_spike_removed nav k p s Hp Hs); [exists a, b; auto|exact D].
Qed.
Print Assumptions C78_east_spike_kept.

Definition spike_east : list fix_row := [Fix 0 (Some (-125)) (Some 45); Fix 1 (Some 0) (Some 0); Fix 2 (Some (-125)) (Some 45)].
(** After cleaning no two neighbouring fixes should be more than a degree apart: false. *)
Theorem C78_no_jump_left_refuted : exists nav, ascending (map f_time nav) /\
  let lon := fun k => nth k (map f_lon (clean_nav nav)) None in exists k, jump_east lon k \/ jump_west lon k.
Proof.
  exists spike_east. split.
  - intros i j H. cbn in H. destruct i as [|[|i]]; destruct j as [|[|[|j]]]; cbn; try lia; lra.
  - assert (E : clean_nav spike_east = [Fix 1 (Some 0) (Some 0); Fix 2 (Some (-125)) (Some 45)]).
    { apply (without_fun _ _ _ _ _ (clean_nav_exact spike_east)). apply without_drop; [exists (-125), 0; cbn; repeat split; lra|].
      apply without_keep; [intros (a & b & E1 & E2 & L); cbn in E1, E2; injection E1 as <-; injection E2 as <-; lra|].
      apply without_keep; [intros (a & b & E1 & E2 & L); cbn in E2; discriminate|]. constructor. }
    exists 0%nat. right. exists 0, (-125). cbn zeta. rewrite E. cbn. repeat split. lra.
Qed.
Print Assumptions C78_no_jump_left_refuted.
Example C78_case : clean_nav [Fix 0 (Some 5) (Some 1); Fix 1 (Some 3) (Some 2); Fix 2 (Some 5) None; Fix 3 None (Some 7)] =
  [Fix 0 (Some 5) (Some 1); Fix 2 (Some 5) None; Fix 3 None (Some 7)].
Proof.
  apply (without_fun _ _ _ _ _ (clean_nav_exact _)).
  apply without_keep; [intros (a & b & E1 & E2 & L); cbn in E1, E2; injection E1 as <-; injection E2 as <-; lra|].
  apply without_drop; [exists 3, 5; cbn; repeat split; lra|].
  apply without_keep; [intros (a & b & E1 & E2 & L); cbn in E2; discriminate|].
  apply without_keep; [intros (a & b & E1 & E2 & L); cbn in E2; discriminate|]. constructor.
Qed.

(** C79: for every time there is one pair of neighbouring fixes ... *)
Theorem C79_fixes_used : forall xs t, ascending xs -> (2 <= length xs)%nat -> exists k, bracket xs t k /\ forall k', bracket xs t k' -> k' = k.
Proof. intros xs t A H. eexists. split; [apply bracket_exists; assumption|]. intros k' H'. eapply bracket_unique; [exact A|exact H'|apply bracket_exists; assumption]. Qed.
Print Assumptions C79_fixes_used.
(** ... and the position is on the straight line through them; it is missing exactly if one of the two is. *)
Theorem C79_interpolated : forall xs ys t k, ascending xs -> bracket xs t k ->
  (interp1d xs ys t = None <-> nth k ys None = None \/ nth (S k) ys None = None) /\
  forall a b, nth k ys None = Some a -> nth (S k) ys None = Some b -> exists v, interp1d xs ys t = Some v /\ on_line (nth k xs 0) a (nth (S k) xs 0) b t v /\
    (nth 0 xs 0 <= t <= nth (length xs - 1) xs 0 -> Rmin a b <= v <= Rmax a b).
Proof.
  intros xs ys t k A B. split.
  - rewrite (interp1d_bracket _ _ _ _ A B). destruct (nth k ys None); [|tauto]. destruct (nth (S k) ys None); [|tauto]. split; [discriminate|]. intros [H|H]; discriminate.
  - intros a b Ea Eb. destruct (interp1d_line _ _ _ _ _ _ A B Ea Eb) as (v & Ev & Hv). exists v. split; [exact Ev|]. split; [exact Hv|].
    intros Ht. exact (interp1d_between _ _ _ _ _ _ _ A B Ea Eb Ht Ev).
Qed.
Print Assumptions C79_interpolated.
(** A ship moving uniformly gets its exact position, also before the first and after the last fix. *)
Theorem C79_uniform_motion : forall xs ys p q t, ascending xs -> (2 <= length xs)%nat -> length ys = length xs ->
  (forall k, (k < length xs)%nat -> nth k ys None = Some (p + q * nth k xs 0)) -> interp1d xs ys t = Some (p + q * t).
Proof. exact interp1d_affine. Qed.
Print Assumptions C79_uniform_motion.
(** At the time of a fix the position is that of the fix, if the fix before it (for the first one, after it) is not missing ... *)
Theorem C79_at_fix : forall xs ys k a, ascending xs -> (2 <= length xs)%nat -> (k < length xs)%nat -> nth k ys None = Some a ->
  (match k with O => nth 1 ys None | S j => nth j ys None end <> None) -> interp1d xs ys (nth k xs 0) = Some a.
Proof. exact interp1d_at_fix. Qed.
Print Assumptions C79_at_fix.
(** ... but not always. *)
Theorem C79_at_every_fix_refuted : exists xs ys k a, ascending xs /\ length ys = length xs /\ nth k ys None = Some a /\ interp1d xs ys (nth k xs 0) = None.
Proof.
  exists [0; 1; 2], [Some 5; None; Some 7], 2%nat, 7. assert (A : ascending [0; 1; 2]).
  { intros i j H. cbn in H. destruct i as [|[|i]]; destruct j as [|[|[|j]]]; cbn; try lia; lra. }
  split; [exact A|]. split; [reflexivity|]. split; [reflexivity|].
  rewrite (interp1d_bracket _ _ _ 1%nat A); [reflexivity|]. split; [cbn; lia|]. cbn. split; [right; lra|left; reflexivity].
Qed.
Print Assumptions C79_at_every_fix_refuted.
Example C79_case : bracket [0; 10; 20] 12 1 /\ interp1d [0; 10; 20] [Some 1; Some 2; Some 7] 12 = Some 3 /\ interp1d [0; 10; 20] [Some 1; Some 2; Some 7] (-10) = Some 0.
Proof.
  assert (A : ascending [0; 10; 20]).
  { intros i j H. cbn in H. destruct i as [|[|i]]; destruct j as [|[|[|j]]]; cbn; try lia; lra. }
  assert (B : bracket [0; 10; 20] 12 1) by (split; [cbn; lia|]; cbn; split; [right; lra|left; reflexivity]).
  split; [exact B|]. split.
  - rewrite (interp1d_bracket _ _ _ _ A B). cbn. f_equal. field.
  - rewrite (interp1d_bracket _ _ _ 0%nat A); [cbn; f_equal; field|]. split; [cbn; lia|]. cbn. split; [left; reflexivity|right; lra].
Qed.

(** C80.  [t] was made from UTC fields and denotes instant [i] (microseconds). *)
Definition utc_time (t : datetime) (i : Z) : Prop :=
  exists y m d h mi s us, datetime_new y m d h mi s us (Some 0%Z) = Ok t /\ instant (y, m, d) h mi s us i.
Lemma utc_time_us t i : utc_time t i -> utcoffset t = Some 0%Z /\ utc_us t 0 = i.
Proof.
  intros (y & m & d & h & mi & s & us & Hn & Hi). apply datetime_new_inv in Hn. destruct Hn as [-> [H1 [H2 [H3 [H4 [H5 H6]]]]]]. split; [reflexivity|].
  unfold utc_us. rewrite Z.sub_0_r. rewrite (instant_unique _ _ _ _ _ _ Hi). apply (instant_unique (y, m, d) h mi s us). apply instant_local. exact H2.
Qed.
Lemma faa_at grav lon lat times samp n E k tm i T : length grav = n -> length lon = n -> length lat = n -> length times = n -> (k < n)%nat ->
  Forall (fun t => utcoffset t <> None) times -> eotvos_full lon lat (repeat 0 n) samp 6378137 6356752.3142 = Ok E -> length E = n ->
  nth_error times k = Some tm -> utc_time tm i -> julian_centuries i T ->
  exists faa full, corrected grav lon lat times samp = Ok (faa, full) /\ length faa = n /\ length full = n /\
    nth k faa 0 = nth k grav 0 - wgs_grav (nth k lat 0) + nth k E 0 + (lunar_tide T (nth k lon 0) (nth k lat 0) 0 (utc_hours i) + solar_tide T (nth k lon 0) (nth k lat 0) 0 (utc_hours i)).
Proof.
  intros Lg Lo La Lt Hk Aw HE LE Htm (y & m & d & h & mi & s & us & Hn & Hi) HT.
  destruct (C22_prediction lon lat times (Alt 0) k (nth k lon 0) (nth k lat 0) 0 y m d h mi s us tm i T) as (g0 & gm & gs & _ & HL & L0 & _ & _ & Hg & _); try assumption; try lia.
  { left. reflexivity. } { apply nth_error_nth'. lia. } { apply nth_error_nth'. lia. }
  destruct (corrected_ok grav lon lat times samp n E g0 Lg Lo La HE LE HL ltac:(lia)) as (faa & full & Ec & Lf & Lu & Hv).
  exists faa, full. split; [exact Ec|]. split; [exact Lf|]. split; [exact Lu|]. destruct (Hv k Hk) as [V1 V2]. rewrite V2, V1.
  rewrite (nth_error_nth _ _ 0 Hg), C31_zero_height. ring.
Qed.
Lemma const_positions xs (v : R) n : ascending xs -> (2 <= length xs)%nat -> forall ys, length ys = length xs -> (forall o, In o ys -> o = Some v) ->
  forall ts, length ts = n -> map (interp1d xs ys) ts = map Some (repeat v n).
Proof.
  intros A H ys L Hy ts Lt. rewrite <- Lt. clear Lt. induction ts as [|t ts IH]; [reflexivity|]. cbn. rewrite IH. f_equal.
  rewrite (interp1d_affine xs ys v 0 t A H L); [f_equal; ring|]. intros k Hk. rewrite (Hy (nth k ys None)); [f_equal; ring|]. apply nth_In. lia.
Qed.

(** A ship lying still: reading plus bias, minus normal gravity, plus the tide. *)
Theorem C80_anchored : forall nav x y rgrav times bias samp n k tm i T,
  ascending (map f_time nav) -> (2 <= length nav)%nat -> Forall (fun f => f_lon f = Some x /\ f_lat f = Some y) nav ->
  length rgrav = n -> length times = n -> (3 <= n)%nat -> Forall (fun t => utcoffset t <> None) times ->
  nth_error times k = Some tm -> utc_time tm i -> julian_centuries i T ->
  exists faa full a, faa_script nav rgrav times bias samp = Some (Ok (faa, full)) /\ length faa = n /\ nth_error faa k = Some a /\
    Rabs (a - (nth k rgrav 0 + bias - somigliana (rad y) + (lunar_tide T x y 0 (utc_hours i) + solar_tide T x y 0 (utc_hours i)))) <= 1e-5.
Proof.
  intros nav x y rgrav times bias samp n k tm i T A H2 F Lr Lt H3 Aw Htm Hu HT.
  assert (Hk : (k < n)%nat) by (rewrite <- Lt; apply nth_error_Some; congruence). rewrite Forall_forall in F.
  unfold faa_script. rewrite timestamps. unfold sync.
  rewrite (const_positions (map f_time nav) x n A) by (rewrite ?map_length; auto; intros o Ho; apply in_map_iff in Ho; destruct Ho as (f & <- & If); apply (F f If)).
  rewrite (const_positions (map f_time nav) y n A) by (rewrite ?map_length; auto; intros o Ho; apply in_map_iff in Ho; destruct Ho as (f & <- & If); apply (F f If)).
  rewrite !finite_map.
  destruct (faa_at (map (fun g => g + bias) rgrav) (repeat x n) (repeat y n) times samp n (repeat 0 n) k tm i T) as (faa & full & Ec & Lf & _ & V); rewrite ?map_length, ?repeat_length; auto.
  { apply C27_stationary_is_zero; [lra|lia]. }
  exists faa, full, (nth k faa 0). split; [rewrite Ec; reflexivity|]. split; [exact Lf|]. split; [apply nth_error_nth'; lia|].
  rewrite V. rewrite (nth_indep (map (fun g => g + bias) rgrav) 0 (0 + bias)) by (rewrite map_length; lia). rewrite (map_nth (fun g => g + bias)).
  assert (R : forall v : R, nth k (repeat v n) 0 = v). { intros v. rewrite (nth_indep _ 0 v) by (rewrite repeat_length; exact Hk). apply nth_repeat. }
  rewrite !R. pose proof (C32_somigliana y) as S. match goal with |- Rabs ?e <= _ => replace e with (- (wgs_grav y - somigliana (rad y))) by ring end. rewrite Rabs_Ropp. exact S.
Qed.
Print Assumptions C80_anchored.

(** Steaming along the equator at [q] radians of longitude a second. *)
Theorem C80_equator : forall nav l0 q t0 rgrav times bias samp n k tm i T,
  ascending (map f_time nav) -> (2 <= length nav)%nat -> samp <> 0 ->
  Forall (fun f => f_lon f = Some (l0 + q * 180 / PI * (f_time f - t0)) /\ f_lat f = Some 0) nav ->
  length rgrav = n -> length times = n -> (3 <= n)%nat ->
  (forall j t, nth_error times j = Some t -> exists u, utc_time t u /\ IZR u / 1000000 = t0 + INR j / samp) ->
  nth_error times k = Some tm -> utc_time tm i -> julian_centuries i T ->
  let x := l0 + q * 180 / PI * (INR k / samp) in
  exists faa full, faa_script nav rgrav times bias samp = Some (Ok (faa, full)) /\ length faa = n /\
    nth_error faa k = Some (nth k rgrav 0 + bias - 978032.53359 + ((q + earth_rate) ^ 2 - earth_rate ^ 2) * 6378137 * 100000
                            + (lunar_tide T x 0 0 (utc_hours i) + solar_tide T x 0 0 (utc_hours i))).
Proof.
  intros nav l0 q t0 rgrav times bias samp n k tm i T A H2 Hs F Lr Lt H3 Ht Htm Hu HT x.
  assert (Hk : (k < n)%nat) by (rewrite <- Lt; apply nth_error_Some; congruence). rewrite Forall_forall in F.
  assert (Aw : Forall (fun t => utcoffset t <> None) times).
  { apply Forall_forall. intros t It. apply In_nth_error in It. destruct It as [j Ej]. destruct (Ht j t Ej) as (u & U & _). destruct (utc_time_us t u U) as [-> _]. discriminate. }
  assert (Ets : map (fun t => match utcoffset t with Some off => IZR (utc_us t off) / 1000000 | None => IZR (local_us t) / 1000000 end) times = map (fun j => t0 + INR j / samp) (seq 0 n)).
  { apply (nth_ext _ _ 0 0); rewrite !map_length, ?seq_length; [exact Lt|]. intros j Hj. destruct (nth_error times j) as [t|] eqn:E; [|apply nth_error_None in E; lia].
    destruct (Ht j t E) as (u & U & V). destruct (utc_time_us t u U) as [U1 U2].
    rewrite (nth_error_nth (map _ times) j (x := IZR u / 1000000) 0) by (rewrite nth_error_map, E; cbn; rewrite U1, U2; reflexivity). rewrite V.
    symmetry. apply nth_error_nth. rewrite nth_error_map. rewrite (nth_error_nth' (seq 0 n) 0%nat) by (rewrite seq_length; lia). rewrite seq_nth by lia. reflexivity. }
  unfold faa_script. rewrite timestamps, Ets. unfold sync.
  assert (El : map (interp1d (map f_time nav) (map f_lon nav)) (map (fun j => t0 + INR j / samp) (seq 0 n)) = map Some (map (fun j => l0 + q * (INR j / samp) * 180 / PI) (seq 0 n))).
  { rewrite !map_map. apply map_ext. intros j. rewrite (interp1d_affine _ _ (l0 - q * 180 / PI * t0) (q * 180 / PI) _ A); rewrite ?map_length; auto.
    - f_equal. unfold Rdiv. ring.
    - intros m Hm. destruct (nth_error nav m) as [f|] eqn:Ef; [|apply nth_error_None in Ef; lia].
      rewrite (nth_error_nth (map f_lon nav) m None (x := f_lon f)) by (rewrite nth_error_map, Ef; reflexivity).
      rewrite (nth_error_nth (map f_time nav) m 0 (x := f_time f)) by (rewrite nth_error_map, Ef; reflexivity).
      rewrite (proj1 (F f (nth_error_In _ _ Ef))). f_equal. ring. }
  rewrite El.
  rewrite (const_positions (map f_time nav) 0 n A) by (rewrite ?map_length, ?seq_length; auto; intros o Ho; apply in_map_iff in Ho; destruct Ho as (f & <- & If); apply (F f If)).
  rewrite !finite_map.
  pose proof (C30_equator 6378137 6356752.3142 samp q l0 0 n ltac:(lra) Hs H3) as HE.
  destruct (faa_at (map (fun g => g + bias) rgrav) (map (fun j => l0 + q * (INR j / samp) * 180 / PI) (seq 0 n)) (repeat 0 n) times samp n (repeat (((q + earth_rate) ^ 2 - earth_rate ^ 2) * (6378137 + 0) * 100000) n) k tm i T) as (faa & full & Ec & Lf & _ & V);
    rewrite ?map_length, ?repeat_length, ?seq_length; auto.
  exists faa, full. split; [rewrite Ec; reflexivity|]. split; [exact Lf|]. rewrite (nth_error_nth' faa 0) by lia. f_equal. rewrite V.
  rewrite (nth_indep (map (fun g => g + bias) rgrav) 0 (0 + bias)) by (rewrite map_length; lia). rewrite (map_nth (fun g => g + bias)).
  assert (R : forall v : R, nth k (repeat v n) 0 = v). { intros v. rewrite (nth_indep _ 0 v) by (rewrite repeat_length; exact Hk). apply nth_repeat. }
  rewrite !R, (proj1 C32_equator_and_poles).
  rewrite (nth_error_nth (map (fun j => l0 + q * (INR j / samp) * 180 / PI) (seq 0 n)) k 0 (x := x)).
  2:{ rewrite nth_error_map. rewrite (nth_error_nth' (seq 0 n) 0%nat) by (rewrite seq_length; lia). rewrite seq_nth by lia. cbn [option_map Nat.add]. unfold x. f_equal. unfold Rdiv. ring. }
  ring.
Qed.
Print Assumptions C80_equator.

(** The bias shifts anomaly and full field by the same amount, and changes nothing else. *)
Theorem C80_bias : forall nav rgrav times bias c samp,
  faa_script nav rgrav times (bias + c) samp =
  option_map (fun r => match r with Ok (faa, full) => Ok (map (fun v => v + c) faa, map (fun v => v + c) full) | Raise e => Raise e end)
             (faa_script nav rgrav times bias samp).
Proof.
  intros. unfold faa_script. destruct (mapM timestamp times) as [ts|]; [|reflexivity]. destruct (sync nav ts) as [lo la]. destruct (finite lo); [|reflexivity]. destruct (finite la); [|reflexivity].
  cbn [option_map]. f_equal. replace (map (fun g => g + (bias + c)) rgrav) with (map (fun g => g + c) (map (fun g => g + bias) rgrav)) by (rewrite map_map; apply map_ext; intros; ring).
  rewrite corrected_shift. destruct (corrected _ _ _ _ _) as [[f u]|e]; reflexivity.
Qed.
Print Assumptions C80_bias.

(** Longitudes counted from 0 to 360 or from -180 to 180: the same. *)
Theorem C80_longitude_turn : forall nav rgrav times bias samp,
  faa_script (map (fun f => Fix (f_time f) (option_map (fun x => x + 360) (f_lon f)) (f_lat f)) nav) rgrav times bias samp = faa_script nav rgrav times bias samp.
Proof.
  intros. unfold faa_script. destruct (mapM timestamp times) as [ts|]; [|reflexivity]. unfold sync. rewrite !map_map. cbn [f_time f_lon f_lat].
  replace (map (fun f => option_map (fun x => x + 360) (f_lon f)) nav) with (map (option_map (fun x => x + 360)) (map f_lon nav)) by (rewrite map_map; reflexivity).
  rewrite (map_ext _ (fun v => option_map (fun x => x + 360) (interp1d (map f_time nav) (map f_lon nav) v)) (interp_shift _ _ _)).
  rewrite <- (map_map (interp1d (map f_time nav) (map f_lon nav)) (option_map (fun x => x + 360))), finite_shift.
  destruct (finite (map (interp1d _ (map f_lon nav)) ts)) as [lon|]; [|reflexivity]. cbn [option_map].
  destruct (finite _) as [lat|]; [|reflexivity]. f_equal. unfold corrected. rewrite C28_longitude_origin, C23_longitude_period. reflexivity.
Qed.
Print Assumptions C80_longitude_turn.

(** In general anomaly and full field differ by normal gravity at the interpolated latitude, and the anomaly differs from
    the reading minus normal gravity plus the Eotvos correction by less than 0.2252 mGal. *)
Theorem C80_reduction : forall grav lon lat times samp n faa full E, length grav = n -> length lon = n -> length lat = n -> length times = n ->
  Forall (fun t => exists y m d h mi s us off, datetime_new y m d h mi s us (Some off) = Ok t /\ (-86400000000 < off < 86400000000)%Z) times ->
  corrected grav lon lat times samp = Ok (faa, full) -> eotvos_full lon lat (repeat 0 n) samp 6378137 6356752.3142 = Ok E ->
  length faa = n /\ length full = n /\ forall k, (k < n)%nat ->
    Rabs (nth k full 0 - nth k faa 0 - somigliana (rad (nth k lat 0))) <= 1e-5 /\
    Rabs (nth k faa 0 - (nth k grav 0 - somigliana (rad (nth k lat 0)) + nth k E 0)) <= 0.2252.
Proof.
  intros grav lon lat times samp n faa full E Lg Lo La Lt Ft HC HE.
  assert (LE : length E = n).
  { destruct (Nat.lt_ge_cases n 3) as [S|S].
    - destruct (C27_failures lon lat (repeat 0 n) samp 6378137 6356752.3142) as [_ X]. rewrite repeat_length in X. rewrite X in HE by lia. discriminate.
    - destruct (C27_shape lon lat (repeat 0 n) samp 6378137 6356752.3142 n Lo La (repeat_length _ _) S) as (E' & H & LE & _). congruence. }
  destruct (longman_tide_prediction lon lat times (Alt 0) false) as [r|e] eqn:HT; [|unfold corrected in HC; rewrite La, HE in HC; cbn [bind] in HC; rewrite HT in HC; discriminate].
  pose proof (C26_bound lon lat times false r Ft HT) as B.
  destruct (longman_tide_prediction lon lat times (Alt 0) true) as [r'|e] eqn:HT'.
  2:{ exfalso. unfold longman_tide_prediction in HT, HT'. destruct (negb _); [discriminate|]. destruct (negb _); [discriminate|]. destruct (mapM tide_time times); cbn in *; discriminate. }
  destruct r' as [g'|g0 gm gs].
  { exfalso. unfold longman_tide_prediction in HT'. destruct (negb _); [discriminate|]. destruct (negb _); [discriminate|]. destruct (mapM tide_time times); cbn in *; discriminate. }
  destruct (C23_components_sum _ _ _ _ _ _ _ HT') as (L0 & _ & _ & HT2 & _). assert (r = Total g0) by congruence. subst r. rewrite Forall_forall in B.
  destruct (corrected_ok grav lon lat times samp n E g0 Lg Lo La HE LE HT2 ltac:(lia)) as (faa' & full' & Ec & Lf & Lu & Hv).
  assert (X : (faa, full) = (faa', full')) by congruence. injection X as -> ->. split; [exact Lf|]. split; [exact Lu|]. intros k Hk. destruct (Hv k Hk) as [V1 V2].
  rewrite C31_zero_height in V2. pose proof (C32_somigliana (nth k lat 0)) as S. assert (Kg : (k < length g0)%nat) by lia. pose proof (B (nth k g0 0) (nth_In g0 0 Kg)) as G. rewrite V2, V1.
  change (S_Nav.rad (nth k lat 0)) with (rad (nth k lat 0)) in S.
  apply L_Tide.Rabs_le_inv in S. apply L_Tide.Rabs_le_inv in G.
  assert (W : 1e-5 = 0.00001) by lra. split; apply Rabs_le; split; lra.
Qed.
Print Assumptions C80_reduction.

Theorem C80_failures : forall grav lon lat times samp,
  (length lon = length lat -> (length lat < 3)%nat -> corrected grav lon lat times samp = Raise IndexError) /\
  (length lon = length lat -> length times = length lat -> (3 <= length lat)%nat -> Exists (fun t => utcoffset t = None) times -> corrected grav lon lat times samp = Raise TypeError).
Proof.
  intros. split.
  - intros L S. unfold corrected. destruct (C27_failures lon lat (repeat 0 (length lat)) samp 6378137 6356752.3142) as [_ X]. rewrite X; rewrite ?repeat_length; auto.
  - intros L Lt S Ex. unfold corrected.
    destruct (C27_shape lon lat (repeat 0 (length lat)) samp 6378137 6356752.3142 _ L eq_refl (repeat_length _ _) S) as (E & -> & _). cbn [bind].
    unfold longman_tide_prediction. rewrite L, Lt, Nat.eqb_refl. cbn [negb].
    assert (X : mapM tide_time times = Raise TypeError); [|rewrite X; reflexivity]. clear -Ex. induction times as [|t ts IH]; [inversion Ex|].
    cbn. unfold tide_time at 1. destruct (utcoffset t) as [o|] eqn:Eo.
    + destruct (tide_time_some t (ex_intro _ o Eo)) as [p Hp]. unfold tide_time in Hp. rewrite Hp. cbn [bind]. inversion Ex; subst; [congruence|]. rewrite IH by assumption. reflexivity.
    + rewrite (C24_naive_raises t Eo). reflexivity.
Qed.
Print Assumptions C80_failures.
Example C80_case : exists faa full, faa_script [Fix 0 (Some 10) (Some 0); Fix 60 (Some 10) (Some 0)] [978032; 978033; 978034] [origin_time; origin_time; origin_time] 0.5 1 = Some (Ok (faa, full)) /\
  length faa = 3%nat /\ forall k, (k < 3)%nat -> nth k full 0 = nth k faa 0 + 978032.53359.
Proof.
  assert (A : ascending (map f_time [Fix 0 (Some 10) (Some 0); Fix 60 (Some 10) (Some 0)])).
  { intros i j H. cbn in H. destruct i as [|i]; destruct j as [|[|j]]; cbn; try lia; lra. }
  unfold faa_script. rewrite timestamps. unfold sync.
  rewrite (const_positions _ 10 3 A) by (cbn; auto; intros o [<-|[<-|[]]]; reflexivity).
  rewrite (const_positions _ 0 3 A) by (cbn; auto; intros o [<-|[<-|[]]]; reflexivity). rewrite !finite_map.
  pose proof (C27_stationary_is_zero 10 0 0 1 6378137 6356752.3142 3 ltac:(lra) ltac:(lia)) as HE.
  destruct (longman_ok (repeat 10 3) (repeat 0 3) [origin_time; origin_time; origin_time] (Alt 0) true eq_refl eq_refl) as [r Hr].
  { repeat (apply Forall_cons; [exists 0%Z; reflexivity|]). apply Forall_nil. } { exact I. }
  destruct r as [g|g gm gs]; [exfalso; unfold longman_tide_prediction in Hr; cbn [length repeat Nat.eqb negb] in Hr; destruct (mapM _ _) in Hr; discriminate|].
  destruct (C23_components_sum _ _ _ _ _ _ _ Hr) as (L0 & _ & _ & HT & _).
  destruct (corrected_ok (map (fun g => g + 0.5) [978032; 978033; 978034]) (repeat 10 3) (repeat 0 3) [origin_time; origin_time; origin_time] 1 3 _ g eq_refl eq_refl eq_refl HE eq_refl HT L0) as (faa & full & Ec & Lf & Lu & V).
  exists faa, full. split; [rewrite Ec; reflexivity|]. split; [exact Lf|]. intros k Hk. destruct (V k Hk) as [_ V2]. rewrite V2.
  replace (nth k (repeat 0 3) 0) with 0 by (symmetry; rewrite nth_repeat; reflexivity). rewrite C31_zero_height, (proj1 C32_equator_and_poles). ring.
Qed.
