(** Property C110: two gravimeters with the same times compared, from the files to the filtered anomalies. *)
From Coq Require Import ZArith QArith Qround Reals Qreals Ascii String Bool Sorted Permutation Lra Lia List.
From Verif Require Import M_Py M_Np M_Str S_Str L_Str M_Cal S_Cal L_Cal L_Base S_Base M_Ini M_Corr M_Tide M_Nmea S_Nmea M_ReadNav S_ReadNav M_Table S_Table L_Table M_Bgm M_Dgs S_Corr S_Tide S_Faa
  M_Faa M_Filt S_Filt M_Nan S_Nan L_Nan L_Faa P_Faa P_Filt P_Nan P_Nmea P_ReadNav M_Script S_Script L_Script P_Script M_Meters L_Dgs.
Import ListNotations.
Open Scope Z_scope.
Local Notation len := List.length.

(** ** Equal times in the same order *)
Lemma sorted_perm_eq (l1 l2 : list Z) : StronglySorted Z.le l1 -> StronglySorted Z.le l2 -> Permutation l1 l2 -> l1 = l2.
Proof.
  intros H1. revert l2. induction H1 as [|a l1 S1 IH F1]; intros l2 H2 P.
  - apply Permutation_nil in P. congruence.
  - destruct l2 as [|b l2]; [apply Permutation_sym, Permutation_nil in P; discriminate|].
    inversion H2 as [|b' l2' S2 F2]; subst. rewrite Forall_forall in F1, F2.
    assert (E : a = b).
    { destruct (Permutation_in _ P (or_introl eq_refl)) as [E|E]; [congruence|].
      destruct (Permutation_in _ (Permutation_sym P) (or_introl eq_refl)) as [E'|E']; [congruence|].
      specialize (F2 _ E). specialize (F1 _ E'). lia. }
    subst b. f_equal. apply IH; [exact S2|]. exact (Permutation_cons_inv P).
Qed.
Lemma in_order us idx : time_order us idx -> StronglySorted Z.le (map (fun i => nth i us 0) idx) /\ Permutation (map (fun i => nth i us 0) idx) us.
Proof.
  intros [P S]. split.
  - clear P. induction S as [|i idx S IH F]; cbn [map]; constructor; [exact IH|]. rewrite Forall_forall in *. intros x Hx. apply in_map_iff in Hx. destruct Hx as [j [<- Hj]]. exact (F j Hj).
  - rewrite (Permutation_map (fun i => nth i us 0) P). clear. rewrite <- (map_id us) at 2. induction us as [|u us IH]; [constructor|]. cbn [len seq map nth]. constructor.
    rewrite <- seq_shift, map_map. exact IH.
Qed.
Lemma same_order us vs idx jdx : Permutation us vs -> time_order us idx -> time_order vs jdx -> map (fun i => nth i us 0) idx = map (fun i => nth i vs 0) jdx.
Proof.
  intros P O O'. destruct (in_order _ _ O) as [S1 P1]. destruct (in_order _ _ O') as [S2 P2]. apply sorted_perm_eq; [assumption|assumption|].
  rewrite P1, P, P2. reflexivity.
Qed.
(** The table of a meter: as in L_Script.v, the times being those of the instants. *)
Lemma script_meter_us argsort T us gs : sorts argsort -> meter_table T us gs ->
  exists idx T' times, script_meter argsort (Ok (Some T)) = Ok (T', times, map Some (map (fun i => Q2R (nth i gs 0%Q)) idx)) /\
    time_order us idx /\ rearranged idx T T' /\ Forall2 utc_of (map (fun i => nth i us 0) idx) times /\ mapM of_us (map (fun i => nth i us 0) idx) = Ok times.
Proof.
  intros S (HT & (ts & Hd & Ht) & Hg & HC). destruct (script_meter_at argsort T ts us gs S HT Hd Hg Ht HC) as (times & H1 & H2 & H3 & H4 & H5).
  exists (argsort ts), (take_rows (argsort ts) T), times. split; [exact H1|]. split; [exact H2|]. split; [exact H3|]. split; [exact H4|].
  destruct H2 as [P _]. apply permutation_below in P. rewrite <- H5. clear - Ht P. pose proof (F2_len _ _ _ _ _ Ht) as L. induction (argsort ts) as [|i idx IH]; [reflexivity|].
  inversion P as [|? ? Pi P']; subst. cbn [map mapM]. rewrite (IH P').
  rewrite (nth_indep _ NaN (Time 0%Q)) by (rewrite map_length; lia). rewrite map_nth. cbn [cell_time].
  rewrite (whole_us (nth i ts 0%Q) (nth i us 0)); [reflexivity|]. apply (Forall2_nth_total _ _ (fun t i => t == i # 1000000)%Q); [exact Ht|lia].
Qed.

(** ** The reduction with other readings *)
Definition shifted (a b : option R) (d : R) : Prop := match a, b with Some x, Some y => (x - y = d)%R | None, None => True | _, _ => False end.
Lemma corrected_shift g g' lon lat times samp n : len g = n -> len g' = n -> len lon = n -> len lat = n -> len times = n -> (3 <= n)%nat -> Forall (fun t => utcoffset t <> None) times ->
  (forall k, (k < n)%nat -> exists x y, nth_error g k = Some (Some x) /\ nth_error g' k = Some (Some y)) ->
  exists f u f' u', corrected_nan g lon lat times samp = Ok (f, u) /\ corrected_nan g' lon lat times samp = Ok (f', u') /\
    len f = n /\ len u = n /\ len f' = n /\ len u' = n /\
    forall k x y, nth_error g k = Some (Some x) -> nth_error g' k = Some (Some y) ->
      shifted (nth k f None) (nth k f' None) (x - y) /\ shifted (nth k u None) (nth k u' None) (x - y).
Proof.
  intros Lg Lg' Lo La Lt H Aw Hg. unfold corrected_nan. rewrite La.
  destruct (eotvos_full_nan_ok lon lat (repeat (K 0) n) samp 6378137 6356752.3142 n Lo La (repeat_length _ _) H) as (E & -> & LE & _).
  destruct (tide_nan_ok lon lat times n Lo La Lt Aw) as (t & -> & LT & _). cbn [bind].
  set (c := map2 (nf2 (fun l h => wgs_grav l + free_air_second_order l h false)%R) lat (repeat (K 0) n)).
  assert (Lc : len c = n) by (unfold c; rewrite length_map2n; rewrite ?repeat_length; lia). clearbody c.
  do 4 eexists. split; [reflexivity|]. split; [reflexivity|].
  assert (LL : forall (f : NR -> NR -> NR) a b, len a = n -> len b = n -> len (map2 f a b) = n) by (intros f a b A B; rewrite length_map2n; lia).
  split; [rewrite !LL; auto|]. split; [rewrite !LL; auto|]. split; [rewrite !LL; auto|]. split; [rewrite !LL; auto|].
  intros k x y Hx Hy. assert (Hk : (k < n)%nat) by (rewrite <- Lg; apply nth_error_Some; congruence).
  rewrite !(nth_map2n (nf2 Rplus)) by (rewrite ?LL; auto; lia). rewrite !(nth_map2n (nf2 Rminus)) by (rewrite ?LL; auto; lia).
  rewrite (nth_error_nth g k None Hx), (nth_error_nth g' k None Hy).
  destruct (nth k c None) as [cv|], (nth k E None) as [ev|], (nth k t None) as [tv|]; cbn; (split; try exact I; lra).
Qed.

(** C110: the anomalies of two meters with the same times differ, reading by reading, as the readings with their biases do, and are missing together. *)
Theorem C110_difference : forall argsort fsys td ship tk nav_paths files dgs_paths bgm_paths D us gs B vs hs bias_d bias_b samp,
  sorts argsort -> talker_for ship None tk -> Forall2 (provides fsys ship tk None) nav_paths files ->
  read_dgs_laptop fsys td dgs_paths ship None = Ok (Some D) -> meter_table D us gs ->
  read_bgm_raw fsys td bgm_paths ship None None = Ok (Some B) -> meter_table B vs hs -> Permutation us vs -> (3 <= len us)%nat ->
  exists idx D' faa_d full_d jdx B' faa_b full_b,
    dgs_bgm_script argsort fsys td ship nav_paths dgs_paths bgm_paths bias_d bias_b samp = Ok ((D', faa_d, full_d), (B', faa_b, full_b)) /\
    time_order us idx /\ rearranged idx D D' /\ time_order vs jdx /\ rearranged jdx B B' /\
    len faa_d = len us /\ len full_d = len us /\ len faa_b = len us /\ len full_b = len us /\
    (forall k, missing faa_d k <-> missing faa_b k) /\ (forall k, missing full_d k <-> missing full_b k) /\
    forall k i j, nth_error idx k = Some i -> nth_error jdx k = Some j ->
      nth i us 0 = nth j vs 0 /\
      (forall a b, nth_error faa_d k = Some (Some a) -> nth_error faa_b k = Some (Some b) -> (a - b = (Q2R (nth i gs 0%Q) + bias_d) - (Q2R (nth j hs 0%Q) + bias_b))%R) /\
      (forall a b, nth_error full_d k = Some (Some a) -> nth_error full_b k = Some (Some b) -> (a - b = (Q2R (nth i gs 0%Q) + bias_d) - (Q2R (nth j hs 0%Q) + bias_b))%R).
Proof.
  intros argsort fsys td ship tk nav_paths files dgs_paths bgm_paths D us gs B vs hs bias_d bias_b samp So Ht Hp Hr M Hr' M' P H3.
  assert (Hs : known_ship ship) by (exists tk; exact Ht).
  destruct (C60_table fsys ship nav_paths 1 None None 0 tk files R1_neq_R0 (fun _ => Hs) Ht Hp) as (rows & pre & E & _).
  destruct (script_meter_us argsort D us gs So M) as (idx & D' & times & Em & O & Rr & Ft & Et).
  destruct (script_meter_us argsort B vs hs So M') as (jdx & B' & times' & Em' & O' & Rr' & Ft' & Et').
  pose proof (same_order us vs idx jdx P O O') as SO. rewrite <- SO, Et in Et'. injection Et' as <-. clear Ft'.
  assert (Li : len idx = len us) by (destruct O as [O _]; apply Permutation_length in O; rewrite seq_length in O; exact O).
  assert (Lj : len jdx = len us) by (destruct O' as [O' _]; apply Permutation_length in O'; rewrite seq_length, <- (Permutation_length P) in O'; exact O').
  assert (Lt : len times = len us). { pose proof (F2_len _ _ _ _ _ Ft) as L. rewrite map_length in L. lia. }
  assert (Aw : Forall (fun t => utcoffset t <> None) times).
  { clear -Ft. remember (map (fun i => nth i us 0) idx) as l eqn:El. clear El. induction Ft as [|i t l ts H _ IH]; constructor; [|exact IH].
    apply utc_of_time in H. apply utc_time_us in H. destruct H as [H _]. congruence. }
  assert (Q : exists tsec, mapM timestamp times = Ok tsec /\ len tsec = len us).
  { clear - Ft Lt. rewrite <- Lt. clear Lt. revert times Ft. induction idx as [|i idx IH]; intros times Ft; inversion Ft as [|c d cs ds Hc Ft' E1 E2]; subst.
    - exists []. split; reflexivity.
    - destruct (IH ds Ft') as (tsec & I1 & I2). apply utc_of_time in Hc. apply utc_time_us in Hc. destruct Hc as [Hc Hc'].
      exists (IZR (nth i us 0%Z) / 1000000 :: tsec)%R. split; [cbn [mapM]; unfold timestamp at 1; rewrite Hc, Hc'; cbn [bind]; rewrite I1; reflexivity|].
      cbn [len]; rewrite I2; reflexivity. }
  destruct Q as (tsec & Ets & Lts).
  set (nav := clean_nav (map nav_fix rows)).
  assert (En : script_nav fsys ship None true nav_paths = Ok nav).
  { unfold script_nav. match goal with |- bind ?r _ = _ => replace r with (Ok (Table rows)) by (symmetry; exact E) end. reflexivity. }
  set (rg := map (fun i => Q2R (nth i gs 0%Q)) idx) in Em. set (rh := map (fun i => Q2R (nth i hs 0%Q)) jdx) in Em'.
  set (g := map (fun x => nf2 Rplus x (K bias_d)) (map Some rg)). set (g' := map (fun x => nf2 Rplus x (K bias_b)) (map Some rh)).
  set (lon := map (interp1d (map f_time nav) (map f_lon nav)) tsec). set (lat := map (interp1d (map f_time nav) (map f_lat nav)) tsec).
  assert (Lg : len g = len us) by (unfold g, rg; rewrite !map_length; exact Li). assert (Lg' : len g' = len us) by (unfold g', rh; rewrite !map_length; exact Lj).
  assert (Lo : len lon = len us) by (unfold lon; rewrite map_length; exact Lts). assert (La : len lat = len us) by (unfold lat; rewrite map_length; exact Lts).
  assert (Vg : forall k i, nth_error idx k = Some i -> nth_error g k = Some (Some (Q2R (nth i gs 0%Q) + bias_d)%R)) by (intros k i Hk; unfold g, rg; rewrite !nth_error_map, Hk; reflexivity).
  assert (Vg' : forall k j, nth_error jdx k = Some j -> nth_error g' k = Some (Some (Q2R (nth j hs 0%Q) + bias_b)%R)) by (intros k j Hk; unfold g', rh; rewrite !nth_error_map, Hk; reflexivity).
  assert (Ix : forall k, (k < len us)%nat -> exists i j, nth_error idx k = Some i /\ nth_error jdx k = Some j).
  { intros k Hk. destruct (nth_error idx k) as [i|] eqn:Ei; [|apply nth_error_None in Ei; lia]. destruct (nth_error jdx k) as [j|] eqn:Ej; [|apply nth_error_None in Ej; lia]. exists i, j. auto. }
  destruct (corrected_shift g g' lon lat times samp (len us) Lg Lg' Lo La Lt H3 Aw) as (f & u & f' & u' & Ec & Ec' & Lf & Lu & Lf' & Lu' & V).
  { intros k Hk. destruct (Ix k Hk) as (i & j & Hi & Hj). do 2 eexists. split; [apply Vg; exact Hi|apply Vg'; exact Hj]. }
  assert (Mm : forall (a b : list (option R)), len a = len us -> len b = len us -> (forall k, (k < len us)%nat -> exists d, shifted (nth k a None) (nth k b None) d) -> forall k, missing a k <-> missing b k).
  { intros a b L1 L2 Hd k. unfold missing. destruct (Nat.lt_ge_cases k (len us)) as [Hk|Hk].
    - rewrite (nth_error_nth' a None), (nth_error_nth' b None) by lia. destruct (Hd k Hk) as [d Hd']. destruct (nth k a None), (nth k b None); cbn in Hd'; intuition congruence.
    - rewrite !(proj2 (nth_error_None _ _)) by lia. split; discriminate. }
  exists idx, D', f, u, jdx, B', f', u'. split.
  { unfold dgs_bgm_script. rewrite En. cbn [bind]. rewrite Hr, Em. cbn [bind]. rewrite Hr', Em'. cbn [bind script_anomaly]. unfold faa_script_nan. rewrite Ets. cbn [bind sync]. fold g. fold g'. fold lon. fold lat.
    match goal with |- bind (bind ?r _) _ = _ => replace r with (Ok (f, u)) by (symmetry; exact Ec) end. cbn [bind].
    match goal with |- bind (bind ?r _) _ = _ => replace r with (Ok (f', u')) by (symmetry; exact Ec') end. reflexivity. }
  split; [exact O|]. split; [exact Rr|]. split; [exact O'|]. split; [exact Rr'|]. split; [exact Lf|]. split; [exact Lu|]. split; [exact Lf'|]. split; [exact Lu'|].
  split; [|split].
  - apply Mm; [exact Lf|exact Lf'|]. intros k Hk. destruct (Ix k Hk) as (i & j & Hi & Hj). eexists. exact (proj1 (V k _ _ (Vg k i Hi) (Vg' k j Hj))).
  - apply Mm; [exact Lu|exact Lu'|]. intros k Hk. destruct (Ix k Hk) as (i & j & Hi & Hj). eexists. exact (proj2 (V k _ _ (Vg k i Hi) (Vg' k j Hj))).
  - intros k i j Hi Hj. destruct (V k _ _ (Vg k i Hi) (Vg' k j Hj)) as [V1 V2]. split; [|split].
    + assert (X : nth_error (map (fun i => nth i us 0) idx) k = nth_error (map (fun i => nth i vs 0) jdx) k) by (rewrite SO; reflexivity).
      rewrite !nth_error_map, Hi, Hj in X. cbn in X. congruence.
    + intros a b Ha Hb. rewrite (nth_error_nth f k None Ha), (nth_error_nth f' k None Hb) in V1. exact V1.
    + intros a b Ha Hb. rewrite (nth_error_nth u k None Ha), (nth_error_nth u' k None Hb) in V2. exact V2.
Qed.
Print Assumptions C110_difference.

(** ** The filtered anomalies *)
Lemma reflected_sub x y v : len x = len v -> len y = len v -> (forall k, (k < len v)%nat -> nth k x 0 - nth k y 0 = nth k v 0)%R ->
  forall z, (- Z.of_nat (len v) < z < 2 * Z.of_nat (len v) - 1) -> (reflected x z - reflected y z = reflected v z)%R.
Proof.
  intros Lx Ly V z Hz. unfold reflected. rewrite Lx, Ly. set (n := Z.of_nat (len v)) in *.
  assert (A : forall k, (k < len v)%nat -> (nth k x 0 = nth k y 0 + nth k v 0)%R) by (intros k Hk; rewrite <- (V k Hk); ring).
  destruct (z <? 0) eqn:E1; [|destruct (z <? n) eqn:E2].
  - apply Z.ltb_lt in E1. rewrite (A 0%nat), (A (Z.to_nat (- z))) by lia. ring.
  - apply Z.ltb_ge in E1. apply Z.ltb_lt in E2. rewrite (A (Z.to_nat z)) by lia. ring.
  - apply Z.ltb_ge in E1. apply Z.ltb_ge in E2. rewrite (A (len v - 1)%nat), (A (Z.to_nat (2 * (n - 1) - z))) by lia. ring.
Qed.
Lemma Rsum_sub_ext n (f g h : nat -> R) : (forall k, (k < n)%nat -> f k - g k = h k)%R -> (Rsum n f - Rsum n g = Rsum n h)%R.
Proof.
  induction n as [|n IH]; intros H; cbn [Rsum]; [lra|]. rewrite <- (H n) by lia. rewrite <- IH by (intros k Hk; apply H; lia). ring.
Qed.
Lemma filter_sub h x y v m : len x = len v -> len y = len v -> (forall k, (k < len v)%nat -> nth k x 0 - nth k y 0 = nth k v 0)%R -> (1440 < len v)%nat -> (m < len v)%nat ->
  (forwards_backwards h (reflected x) (Z.of_nat m) - forwards_backwards h (reflected y) (Z.of_nat m) = forwards_backwards h (reflected v) (Z.of_nat m))%R.
Proof.
  intros Lx Ly V L Hm. unfold forwards_backwards. apply Rsum_sub_ext. intros i Hi. apply Rsum_sub_ext. intros j Hj.
  rewrite <- (reflected_sub x y v Lx Ly V) by lia. ring.
Qed.

(** The low-passed anomalies are missing together, and their difference is the low-passed difference of the readings with their biases. *)
Theorem C110_filtered : exists h, four_minute_low_pass h /\
  forall argsort fsys td ship tk nav_paths files dgs_paths bgm_paths D us gs B vs hs bias_d bias_b,
  sorts argsort -> talker_for ship None tk -> Forall2 (provides fsys ship tk None) nav_paths files ->
  read_dgs_laptop fsys td dgs_paths ship None = Ok (Some D) -> meter_table D us gs ->
  read_bgm_raw fsys td bgm_paths ship None None = Ok (Some B) -> meter_table B vs hs -> Permutation us vs -> (3 <= len us)%nat ->
  let script := meters_script argsort fsys td ship nav_paths dgs_paths bgm_paths bias_d bias_b in
  ((len us <= 1440)%nat -> script = Raise ValueError) /\
  ((1440 < len us)%nat -> exists idx jdx dfaa bfaa, script = Ok (dfaa, bfaa) /\ time_order us idx /\ time_order vs jdx /\ len dfaa = len us /\ len bfaa = len us /\
     (forall m, missing dfaa m <-> missing bfaa m) /\
     forall v, len v = len us ->
       (forall k i j, nth_error idx k = Some i -> nth_error jdx k = Some j -> nth k v 0 = (Q2R (nth i gs 0%Q) + bias_d) - (Q2R (nth j hs 0%Q) + bias_b))%R ->
       forall m a b, nth_error dfaa m = Some (Some a) -> nth_error bfaa m = Some (Some b) -> (a - b = forwards_backwards h (reflected v) (Z.of_nat m))%R).
Proof.
  destruct C95_values as (h & Hh & HV). exists h. split; [exact Hh|].
  intros argsort fsys td ship tk nav_paths files dgs_paths bgm_paths D us gs B vs hs bias_d bias_b So Ht Hp Hr M Hr' M' P H3.
  destruct (C110_difference argsort fsys td ship tk nav_paths files dgs_paths bgm_paths D us gs B vs hs bias_d bias_b 1 So Ht Hp Hr M Hr' M' P H3)
    as (idx & D' & f & u & jdx & B' & f' & u' & E & O & _ & O' & _ & Lf & _ & Lf' & _ & Mm & _ & V).
  cbv zeta. unfold meters_script. rewrite E. cbn [bind].
  destruct (C95_missing f) as [F1 F2]. destruct (C95_missing f') as [G1 G2]. rewrite Lf in F1, F2. rewrite Lf' in G1, G2. split; intros L.
  - rewrite (F1 L). reflexivity.
  - destruct (F2 L) as (y & Ey & Ly & My). destruct (G2 L) as (y' & Ey' & Ly' & My'). rewrite Ey. cbn [bind]. rewrite Ey'. cbn [bind].
    assert (My2 : forall m, missing y m <-> missing y' m).
    { intros m. destruct (Nat.lt_ge_cases m (len us)) as [Hm|Hm].
      - rewrite (My m Hm), (My' m Hm). split; intros (i & Hi & Hn); exists i; (split; [apply Mm; exact Hi|exact Hn]).
      - unfold missing. rewrite !(proj2 (nth_error_None _ _)) by lia. split; discriminate. }
    exists idx, jdx, y, y'. split; [reflexivity|]. split; [exact O|]. split; [exact O'|]. split; [exact Ly|]. split; [exact Ly'|]. split; [exact My2|].
    intros v Lv Hv m a b Ha Hb. assert (Hm : (m < len us)%nat) by (rewrite <- Ly; apply nth_error_Some; congruence).
    assert (Li : len idx = len us) by (destruct O as [O _]; apply Permutation_length in O; rewrite seq_length in O; exact O).
    assert (Lj : len jdx = len us) by (destruct O' as [O' _]; apply Permutation_length in O'; rewrite seq_length, <- (Permutation_length P) in O'; exact O').
    set (w := fill f'). set (x := map2 Rplus v w).
    assert (Lw : len w = len us) by (unfold w, fill; rewrite map_length; exact Lf'). assert (Lx : len x = len us) by (unfold x; rewrite length_map2n; lia).
    assert (Cw : completes w f') by (apply completes_fitl; apply fill_fitl).
    assert (Nx : forall k, (k < len us)%nat -> (nth k x 0 = nth k v 0 + nth k w 0)%R) by (intros k Hk; unfold x; apply (map2_nth Rplus v w k); lia).
    assert (Cx : completes x f).
    { split; [lia|]. intros k c Hc. assert (Hk : (k < len us)%nat) by (rewrite <- Lf; apply nth_error_Some; congruence).
      rewrite (nth_error_nth' x 0%R) by lia. f_equal. rewrite (Nx k Hk).
      destruct (nth_error idx k) as [i|] eqn:Ei; [|apply nth_error_None in Ei; lia]. destruct (nth_error jdx k) as [j|] eqn:Ej; [|apply nth_error_None in Ej; lia].
      destruct (V k i j Ei Ej) as (_ & V1 & _).
      destruct (nth_error f' k) as [[c'|]|] eqn:Ec'; [|pose proof (proj2 (Mm k) Ec') as X; unfold missing in X; congruence|apply nth_error_None in Ec'; lia].
      specialize (V1 c c' Hc eq_refl). rewrite (Hv k i j Ei Ej). destruct Cw as [_ Cw]. rewrite (nth_error_nth w k 0%R (Cw k c' Ec')). lra. }
    rewrite (HV f y x m a Ey Cx Ha), (HV f' y' w m b Ey' Cw Hb).
    apply filter_sub; try lia. intros k Hk. rewrite (Nx k) by lia. ring.
Qed.
Print Assumptions C110_filtered.

(** If the readings of equal times always differ by the same amount, so do the low-passed anomalies. *)
Theorem C110_offset : forall argsort fsys td ship tk nav_paths files dgs_paths bgm_paths D us gs B vs hs bias_d bias_b c,
  sorts argsort -> talker_for ship None tk -> Forall2 (provides fsys ship tk None) nav_paths files ->
  read_dgs_laptop fsys td dgs_paths ship None = Ok (Some D) -> meter_table D us gs ->
  read_bgm_raw fsys td bgm_paths ship None None = Ok (Some B) -> meter_table B vs hs -> Permutation us vs -> (1440 < len us)%nat ->
  (forall i j, (i < len us)%nat -> (j < len vs)%nat -> nth i us 0 = nth j vs 0 -> (Q2R (nth i gs 0%Q) - Q2R (nth j hs 0%Q) = c)%R) ->
  exists dfaa bfaa, meters_script argsort fsys td ship nav_paths dgs_paths bgm_paths bias_d bias_b = Ok (dfaa, bfaa) /\
    len dfaa = len us /\ len bfaa = len us /\ (forall m, missing dfaa m <-> missing bfaa m) /\
    forall m a b, nth_error dfaa m = Some (Some a) -> nth_error bfaa m = Some (Some b) -> (a - b = c + (bias_d - bias_b))%R.
Proof.
  intros argsort fsys td ship tk nav_paths files dgs_paths bgm_paths D us gs B vs hs bias_d bias_b c So Ht Hp Hr M Hr' M' P L Hc.
  destruct C110_filtered as (h & Hh & HF).
  assert (H3 : (3 <= len us)%nat) by (apply Nat.lt_le_incl; eapply Nat.le_lt_trans; [|exact L]; apply Nat.leb_le; reflexivity).
  specialize (HF argsort fsys td ship tk nav_paths files dgs_paths bgm_paths D us gs B vs hs bias_d bias_b So Ht Hp Hr M Hr' M' P H3). cbv zeta in HF.
  destruct (proj2 HF L) as (idx & jdx & dfaa & bfaa & E & O & O' & L1 & L2 & Mm & V). clear HF.
  exists dfaa, bfaa. split; [exact E|]. split; [exact L1|]. split; [exact L2|]. split; [exact Mm|]. intros m a b Ha Hb.
  pose proof (same_order us vs idx jdx P O O') as SO.
  assert (Hm : (m < len us)%nat) by (rewrite <- L1; apply nth_error_Some; congruence).
  rewrite (V (repeat (c + (bias_d - bias_b))%R (len us)) (repeat_length _ _)) with (m := m) (a := a) (b := b); [|clear V|exact Ha|exact Hb].
  - assert (Rf : forall z, - Z.of_nat (len us) < z < 2 * Z.of_nat (len us) - 1 -> reflected (repeat (c + (bias_d - bias_b))%R (len us)) z = (c + (bias_d - bias_b))%R).
    { intros z Hz. unfold reflected. rewrite repeat_length. assert (Nr : forall k, (k < len us)%nat -> nth k (repeat (c + (bias_d - bias_b))%R (len us)) 0%R = (c + (bias_d - bias_b))%R).
      { intros k Hk. apply nth_error_nth. apply nth_error_repeat. exact Hk. }
      destruct (z <? 0) eqn:E1; [|destruct (z <? Z.of_nat (len us)) eqn:E2].
      - apply Z.ltb_lt in E1. rewrite !Nr by lia. ring.
      - apply Z.ltb_ge in E1. apply Z.ltb_lt in E2. rewrite Nr by lia. reflexivity.
      - apply Z.ltb_ge in E1. apply Z.ltb_ge in E2. rewrite !Nr by lia. ring. }
    assert (L0 : Z.of_nat (len us) > 1440) by lia. unfold forwards_backwards. destruct Hh as [Hh _].
    rewrite (Rsum_ext 480 _ (fun i => (c + (bias_d - bias_b)) * h i)%R).
    + rewrite Rsum_scal, Hh. ring.
    + intros i Hi. rewrite (Rsum_ext 480 _ (fun j => ((c + (bias_d - bias_b)) * h i) * h j)%R); [rewrite Rsum_scal, Hh; ring|].
      intros j Hj. rewrite Rf by lia. ring.
  - intros k i j Hi Hj. assert (Hk : (k < len idx)%nat) by (apply nth_error_Some; congruence).
    assert (Li : len idx = len us) by (destruct O as [O _]; apply Permutation_length in O; rewrite seq_length in O; exact O).
    rewrite Li in Hk. rewrite (nth_error_nth _ k 0%R (nth_error_repeat (c + (bias_d - bias_b))%R Hk)).
    rewrite <- (Hc i j).
    + ring.
    + destruct O as [O _]. apply permutation_below in O. rewrite Forall_forall in O. apply O. exact (nth_error_In _ _ Hi).
    + destruct O' as [O' _]. apply permutation_below in O'. rewrite Forall_forall in O'. apply O'. exact (nth_error_In _ _ Hj).
    + assert (X : nth_error (map (fun i => nth i us 0) idx) k = nth_error (map (fun i => nth i vs 0) jdx) k) by (rewrite SO; reflexivity).
      rewrite !nth_error_map, Hi, Hj in X. cbn in X. congruence.
Qed.
Print Assumptions C110_offset.

(** ** Cases *)
(** 1441 seconds from 10:15:00 on, the ship lying still: readings of 9800.25 and of 25000 counts. *)
Definition two_digits (n : N) : str := [ascii_of_N (48 + n / 10); ascii_of_N (48 + n mod 10)].
Fixpoint from (k : N) (n : nat) : list N := match n with O => [] | S n => k :: from (N.succ k) n end.
(** [vcc] is 7 in the first record and 5 in the others, [ve] 4, [al] missing in one record, [ax] 13 *)
Definition dgs_record (k : N) : str := lit "1,9800.25,-2,3,4,5,6,7,8,9,4," ++ (if (k =? 0)%N then lit "7" else lit "5") ++ lit "," ++ (if (k =? 700)%N then [] else lit "12") ++
  lit ",13,14,15,16,17,18,2024,2,29,10," ++ two_digits (15 + k / 60) ++ lit "," ++ two_digits (k mod 60) ++ lit ",25" ++ [nl].
Definition dgs_text : str := concat (map dgs_record (from 0 1441)).
Definition bgm_record (k : N) : str := lit "x 2024/02/29 10:" ++ two_digits (15 + k / 60) ++ lit ":" ++ two_digits (k mod 60) ++ lit " y 01:25000" ++ [nl].
Definition day_files (p : str) : option str :=
  if str_eqb p (lit "dgs") then Some dgs_text
  else if str_eqb p (lit "bgm") then Some (concat (map bgm_record (rev (from 0 1441)))) else case_files p.
Definition digit (c : ascii) : Z := Z.of_nat (nat_of_ascii c) - 48.
(** the dates of [bgm_record]: the last five characters are minutes and seconds *)
Definition day_dates (l : list cell) : res (list cell) :=
  mapM (fun c => match c with Txt s => match rev s with s0 :: s1 :: _ :: m0 :: m1 :: _ => Ok (Time (inject_Z (1709200800 + 60 * (10 * digit m1 + digit m0) + 10 * digit s1 + digit s0))) | _ => Raise ValueError end
    | NaN => Ok NaN | _ => Raise TypeError end) l.
Definition day_us : list Z := map (fun k => (1709201700 + Z.of_nat k) * 1000000) (seq 0 1441).

Definition good_table (r : res (option frame)) (us : list Z) (g : Q) : bool :=
  match r with
  | Ok (Some T) => nodupb (map fst T) && negb (match T with [] => true | _ => false end) && forallb (fun c => (len (snd c) =? len us)%nat) T &&
      match column T (lit "date_time"), column T (lit "rgrav") with
      | Some dt, Some gr => forallb (fun p => match fst p with Time t => Qeq_bool t (snd p # 1000000) | _ => false end) (combine dt us) &&
          forallb (fun c => match c with Num q => Qeq_bool q g | _ => false end) gr
      | _, _ => false
      end && forallb (fun i => (-62135596800000000 <=? i) && (i <? 253402300800000000))%bool us
  | _ => false
  end.
Lemma good_table_ok r us g : good_table r us g = true -> exists T gs, r = Ok (Some T) /\ meter_table T us gs /\ forall i, (i < len us)%nat -> (nth i gs 0 == g)%Q.
Proof.
  unfold good_table. destruct r as [[T|]|e]; try discriminate. intros H.
  apply andb_true_iff in H. destruct H as [H H5]. apply andb_true_iff in H. destruct H as [H H4]. apply andb_true_iff in H. destruct H as [H H3]. apply andb_true_iff in H. destruct H as [H1 H2].
  destruct (column T (lit "date_time")) as [dt|] eqn:Ed; [|discriminate H4]. destruct (column T (lit "rgrav")) as [gr|] eqn:Eg; [|discriminate H4].
  apply andb_true_iff in H4. destruct H4 as [H4 H6]. apply column_some in Ed. apply column_some in Eg.
  assert (HT : table T (len us)).
  { split; [apply nodupb_ok; exact H1|]. split; [intros ->; discriminate H2|]. apply Forall_forall. intros c Hc. rewrite forallb_forall in H3. apply Nat.eqb_eq. apply H3. exact Hc. }
  assert (Ld : len dt = len us) by (destruct HT as (_ & _ & HT); rewrite Forall_forall in HT; exact (HT _ Ed)).
  assert (Lg : len gr = len us) by (destruct HT as (_ & _ & HT); rewrite Forall_forall in HT; exact (HT _ Eg)).
  exists T, (map (fun c => match c with Num q => q | _ => 0%Q end) gr). split; [reflexivity|]. split; [split; [exact HT|split; [|split]]|].
  - exists (map (fun c => match c with Time t => t | _ => 0%Q end) dt). split.
    + rewrite map_map. replace (map _ dt) with dt; [exact Ed|]. clear - H4 Ld. revert us H4 Ld. induction dt as [|c dt IH]; intros [|u us] H L; try discriminate L; [reflexivity|].
      cbn [combine forallb fst snd map] in *. apply andb_true_iff in H. destruct H as [H H']. rewrite <- (IH us H') by (injection L; auto). destruct c; try discriminate H; reflexivity.
    + clear - H4 Ld. revert us H4 Ld. induction dt as [|c dt IH]; intros [|u us] H L; try discriminate L; [constructor|].
      cbn [combine forallb fst snd map] in *. apply andb_true_iff in H. destruct H as [H H']. constructor; [|apply (IH us H'); injection L; auto]. destruct c; try discriminate H. apply Qeq_bool_iff. exact H.
  - rewrite map_map. replace (map _ gr) with gr; [exact Eg|]. clear - H6. induction gr as [|c gr IH]; [reflexivity|]. cbn [forallb map] in *. apply andb_true_iff in H6. destruct H6 as [H H'].
    rewrite <- (IH H'). destruct c; try discriminate H; reflexivity.
  - apply Forall_forall. intros i Hi. rewrite forallb_forall in H5. specialize (H5 i Hi). apply andb_true_iff in H5. unfold in_calendar. lia.
  - intros i Hi. rewrite <- Lg in Hi. rewrite forallb_forall in H6. set (f := fun c => match c with Num q => q | _ => 0%Q end). change (nth i (map f gr) (f NaN) == g)%Q. rewrite map_nth. unfold f.
    specialize (H6 _ (nth_In gr NaN Hi)). destruct (nth i gr NaN); try discriminate H6. apply Qeq_bool_iff. exact H6.
Qed.
Lemma day_provided : Forall2 (provides day_files (lit "Atlantis") gp None) [lit "n"] [case_data].
Proof. constructor; [|constructor]. exists case_nav. eexists. split; [reflexivity|]. split; [exact case_lines|exact case_file]. Qed.
Definition case_vcc (k : nat) : option Q := Some (if (k =? 0)%nat then 7%Q else 5%Q).
Definition case_al (k : nat) : option Q := if (k =? 700)%nat then None else Some 12%Q.
Definition column_of (r : res (option frame)) (c : str) : option (list cell) := match r with Ok (Some T) => column T c | _ => None end.
Fixpoint cells_are (l : list cell) (x : list (option Q)) : bool :=
  match l, x with
  | [], [] => true
  | Num q :: l, Some p :: x => (Qnum q =? Qnum p) && (Qden q =? Qden p)%positive && cells_are l x
  | NaN :: l, None :: x => cells_are l x
  | _, _ => false
  end.
Definition column_is (r : res (option frame)) (c : str) (x : list (option Q)) : bool := match column_of r c with Some l => cells_are l x | None => false end.
(** All checks at once: the file is read once. *)
Definition dgs_check (r : res (option frame)) : bool :=
  good_table r day_us 9800.25 && column_is r (lit "vcc") (map case_vcc (seq 0 1441)) && column_is r (lit "ve") (map (fun _ => Some 4%Q) (seq 0 1441)) &&
  column_is r (lit "al") (map case_al (seq 0 1441)) && column_is r (lit "ax") (map (fun _ => Some 13%Q) (seq 0 1441)).
Lemma day_checked : dgs_check (read_dgs_laptop day_files day_dates [lit "dgs"] (lit "Atlantis") None) = true.
Proof. vm_cast_no_check (eq_refl true). Qed.
Lemma dgs_check_good r : dgs_check r = true -> good_table r day_us 9800.25 = true.
Proof.
  unfold dgs_check. generalize (map case_vcc (seq 0 1441)) (map case_al (seq 0 1441)) (map (fun _ : nat => Some 4%Q) (seq 0 1441)) (map (fun _ : nat => Some 13%Q) (seq 0 1441)). generalize day_us.
  intros us x1 x2 x3 x4 H. do 4 (apply andb_true_iff in H; destruct H as [H _]). exact H.
Qed.
Lemma day_dgs : good_table (read_dgs_laptop day_files day_dates [lit "dgs"] (lit "Atlantis") None) day_us 9800.25 = true.
Proof. exact (dgs_check_good _ day_checked). Qed.
(** For this ship the table depends on nothing but the text of the file. *)
Lemma same_read fsys fsys' td td' p : fsys p = fsys' p -> read_dgs_laptop fsys td [p] (lit "Atlantis") None = read_dgs_laptop fsys' td' [p] (lit "Atlantis") None.
Proof. intros E. unfold read_dgs_laptop, collect, laptop_reader, open_text. cbn [mapM]. rewrite E. reflexivity. Qed.
Lemma day_bgm : good_table (read_bgm_raw day_files day_dates [lit "bgm"] (lit "Atlantis") None None) (rev day_us) 124851.7638 = true.
Proof. vm_cast_no_check (eq_refl true). Qed.
Lemma day_length : len day_us = 1441%nat.
Proof. unfold day_us. rewrite map_length, seq_length. reflexivity. Qed.
Lemma some_inj (A : Type) (a b : A) : Some a = Some b -> a = b.
Proof. congruence. Qed.
Lemma day_still : exists D' fd ud B' fb ub, dgs_bgm_script insertion_sort day_files day_dates (lit "Atlantis") [lit "n"] [lit "dgs"] [lit "bgm"] 970000 855000 1 = Ok ((D', fd, ud), (B', fb, ub)) /\
  len fd = 1441%nat /\ len fb = 1441%nat /\ forall k, (k < 1441)%nat -> ~ missing fd k.
Proof.
  destruct (good_table_ok _ _ _ day_dgs) as (D & gs & Er & M & Hg). destruct (good_table_ok _ _ _ day_bgm) as (B & hs & Er' & M' & Hh).
  assert (L : (3 <= len day_us)%nat) by (rewrite day_length; lia).
  destruct (C103_two_meters insertion_sort day_files day_dates (lit "Atlantis") gp [lit "n"] [case_data] [lit "dgs"] [lit "bgm"] D day_us gs B (rev day_us) hs 970000 855000 1 case_x case_y
    insertion_sort_sorts case_talker day_provided case_still Er M L Er' M' ltac:(rewrite rev_length; exact L)) as (idx & D' & fd & ud & jdx & B' & fb & ub & E & O & _ & L1 & O' & _ & L2 & V).
  exists D', fd, ud, B', fb, ub. split; [exact E|]. rewrite rev_length in L2. rewrite day_length in L1, L2. split; [exact L1|]. split; [exact L2|]. intros k Hk Mk.
  pose proof (same_order day_us (rev day_us) idx jdx (Permutation_rev _) O O') as SO.
  assert (Li : len idx = 1441%nat) by (destruct O as [O _]; apply Permutation_length in O; rewrite seq_length, day_length in O; exact O).
  assert (Lj : len jdx = 1441%nat) by (destruct O' as [O' _]; apply Permutation_length in O'; rewrite seq_length, rev_length, day_length in O'; exact O').
  destruct (nth_error idx k) as [i|] eqn:Ei; [|apply nth_error_None in Ei; lia]. destruct (nth_error jdx k) as [j|] eqn:Ej; [|apply nth_error_None in Ej; lia].
  assert (X : nth_error (map (fun i => nth i day_us 0) idx) k = nth_error (map (fun i => nth i (rev day_us) 0) jdx) k) by (rewrite SO; reflexivity).
  rewrite !nth_error_map, Ei, Ej in X. cbn [option_map] in X. apply some_inj in X.
  destruct (V k i k j Ei Ej X) as (a & b & Ha & _). clear - Mk Ha. unfold missing in Mk. congruence.
Qed.
(** Meters whose readings differ by 115051.5138 always: with biases of 970000 and 855000 all 1441 filtered anomalies differ by -51.5138. *)
Example C110_case : exists dfaa bfaa, meters_script insertion_sort day_files day_dates (lit "Atlantis") [lit "n"] [lit "dgs"] [lit "bgm"] 970000 855000 = Ok (dfaa, bfaa) /\
  len dfaa = 1441%nat /\ len bfaa = 1441%nat /\
  forall m, (m < 1441)%nat -> exists a b, nth_error dfaa m = Some (Some a) /\ nth_error bfaa m = Some (Some b) /\ (a - b = - 51.5138)%R.
Proof.
  destruct (good_table_ok _ _ _ day_dgs) as (D & gs & Er & M & Hg). destruct (good_table_ok _ _ _ day_bgm) as (B & hs & Er' & M' & Hh).
  destruct (C110_offset insertion_sort day_files day_dates (lit "Atlantis") gp [lit "n"] [case_data] [lit "dgs"] [lit "bgm"] D day_us gs B (rev day_us) hs 970000 855000 (9800.25 - 124851.7638)
    insertion_sort_sorts case_talker day_provided Er M Er' M' (Permutation_rev _) ltac:(rewrite day_length; lia)) as (dfaa & bfaa & E & L1 & L2 & Mm & V).
  { intros i j Hi Hj _. rewrite (Qeq_eqR _ _ (Hg i Hi)), (Qeq_eqR _ _ (Hh j Hj)). reflexivity. }
  exists dfaa, bfaa. rewrite day_length in L1, L2. split; [exact E|]. split; [exact L1|]. split; [exact L2|]. intros m Hm.
  destruct day_still as (D' & fd & ud & B' & fb & ub & E1 & F1 & F2 & F3).
  assert (NM : ~ missing dfaa m).
  { intros X. unfold meters_script in E. rewrite E1 in E. cbn [bind] in E. destruct (proj2 (C95_missing fd) ltac:(rewrite F1; lia)) as (y & Ey & Ly & My). rewrite Ey in E. cbn [bind] in E.
    clear E1. destruct (script_filter_nan fb) as [y'|]; [|clear - E; discriminate E]. cbn [bind] in E. assert (Ed : y = dfaa) by (clear - E; congruence). subst dfaa. apply My in X; [|rewrite F1; exact Hm].
    destruct X as (i & Mi & _). apply (F3 i); [|exact Mi]. rewrite <- F1. apply nth_error_Some. unfold missing in Mi. congruence. }
  assert (NM' : ~ missing bfaa m) by (intros X; apply NM; apply Mm; exact X).
  destruct (nth_error dfaa m) as [[a|]|] eqn:Ea; [|elim NM; exact Ea|apply nth_error_None in Ea; lia].
  destruct (nth_error bfaa m) as [[b|]|] eqn:Eb; [|elim NM'; exact Eb|apply nth_error_None in Eb; lia].
  exists a, b. split; [reflexivity|]. split; [reflexivity|]. rewrite (V m a b Ea Eb). lra.
Qed.
(** Three readings are too few for the filter. *)
Definition few_files (p : str) : option str :=
  if str_eqb p (lit "dgs") then Some (dgs_record 0 ++ dgs_record 1 ++ dgs_record 2) else if str_eqb p (lit "bgm") then Some (bgm_record 1 ++ bgm_record 0 ++ bgm_record 2) else case_files p.
Example C110_case_short : meters_script insertion_sort few_files day_dates (lit "Atlantis") [lit "n"] [lit "dgs"] [lit "bgm"] 970000 855000 = Raise ValueError.
Proof.
  assert (G1 : good_table (read_dgs_laptop few_files day_dates [lit "dgs"] (lit "Atlantis") None) [1709201700000000; 1709201701000000; 1709201702000000] 9800.25 = true) by (vm_compute; reflexivity).
  assert (G2 : good_table (read_bgm_raw few_files day_dates [lit "bgm"] (lit "Atlantis") None None) [1709201701000000; 1709201700000000; 1709201702000000] 124851.7638 = true) by (vm_compute; reflexivity).
  destruct (good_table_ok _ _ _ G1) as (D & gs & Er & M & _). destruct (good_table_ok _ _ _ G2) as (B & hs & Er' & M' & _). destruct C110_filtered as (h & _ & HF).
  assert (P : Forall2 (provides few_files (lit "Atlantis") gp None) [lit "n"] [case_data]).
  { constructor; [|constructor]. exists case_nav. eexists. split; [reflexivity|]. split; [exact case_lines|exact case_file]. }
  refine (proj1 (HF insertion_sort few_files day_dates (lit "Atlantis") gp [lit "n"] [case_data] [lit "dgs"] [lit "bgm"] D _ gs B _ hs 970000%R 855000%R insertion_sort_sorts case_talker P Er M Er' M' (perm_swap _ _ _) _) _); cbn; lia.
Qed.
