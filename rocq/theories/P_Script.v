(** Property C103: from files to the free-air anomaly. *)
From Coq Require Import ZArith QArith Qround Reals Qreals Ascii String Bool Sorted Permutation Lra Lia List.
From Verif Require Import M_Py M_Np M_Str S_Str L_Str M_Cal S_Cal L_Cal L_Base M_Ini M_Corr M_Tide M_Nmea S_Nmea M_ReadNav S_ReadNav M_Table S_Table L_Table M_Bgm M_Dgs S_Corr S_Tide S_Faa
  M_Faa M_Nan L_Faa P_Faa P_Nan P_Nmea P_ReadNav M_Script S_Script L_Script S_Bgm L_Rows L_Dgs P_Dgs L_Dateline.
Import ListNotations.
Open Scope Z_scope.
Local Notation len := List.length.

(** ** Navigation *)
Lemma without_none (A : Type) (bad : nat -> Prop) k (l l' : list A) : (forall i, ~ bad i) -> without bad k l l' -> l' = l.
Proof. intros N H. induction H as [k|k a l l' H _ _|k a l l' _ _ IH]; [reflexivity|elim (N _ H)|rewrite IH; reflexivity]. Qed.
Lemma clean_still nav x : Forall (fun f => f_lon f = Some x) nav -> clean_nav nav = nav.
Proof.
  intros F. refine (without_none _ _ _ _ _ _ (C78_exact nav)).
  intros i (a & b & Ea & Eb & L). assert (K : forall k v, nth k (map f_lon nav) None = Some v -> v = x).
  { intros k v E. destruct (Nat.lt_ge_cases k (len nav)) as [H|H]; [|rewrite nth_overflow in E by (rewrite map_length; exact H); discriminate].
    rewrite (nth_indep _ None (f_lon (Fix 0 None None))) in E by (rewrite map_length; exact H). rewrite map_nth in E. rewrite Forall_forall in F.
    rewrite (F _ (nth_In nav _ H)) in E. congruence. }
  rewrite (K _ _ Ea), (K _ _ Eb) in L. lra.
Qed.
Lemma ascending_sorted (l : list Z) : StronglySorted Z.lt l -> ascending (map (fun t => IZR t / 1000000)%R l).
Proof.
  intros S. unfold ascending. rewrite map_length. induction S as [|t l S IH F]; intros i j [H1 H2]; cbn [len] in H2; [lia|].
  destruct j as [|j]; [lia|]. cbn [map nth]. assert (Hj : (j < len l)%nat) by lia. destruct i as [|i].
  - rewrite (nth_indep _ 0%R (IZR 0 / 1000000)%R) by (rewrite map_length; exact Hj). rewrite (map_nth (fun t => IZR t / 1000000)%R).
    rewrite Forall_forall in F. pose proof (IZR_lt _ _ (F _ (nth_In l 0 Hj))). lra.
  - apply IH. lia.
Qed.
Lemma keeps_all f t : keeps 0 f t <-> In t (times f).
Proof.
  split.
  - intros [l [[H _] I]]. rewrite <- (H eq_refl). exact I.
  - intros I. exists (times f). split; [|exact I]. split; [reflexivity|]. split; intros; lia.
Qed.
Lemma two_members (l : list Z) a b : In a l -> In b l -> a <> b -> (2 <= len l)%nat.
Proof. intros H1 H2 N. destruct l as [|x [|z l]]; cbn in *; [tauto| |lia]. destruct H1 as [->|[]]. destruct H2 as [->|[]]. congruence. Qed.
Lemma still_nav fsys ship talker clean paths tk files x y : known_ship ship -> talker_for ship talker tk -> Forall2 (provides fsys ship tk None) paths files ->
  lying_still files x y ->
  exists nav, script_nav fsys ship talker clean paths = Ok nav /\ ascending (map f_time nav) /\ (2 <= len nav)%nat /\
    Forall (fun f => f_lon f = Some x /\ f_lat f = Some y) nav.
Proof.
  intros Hs Ht Hp [HF (t1 & t2 & Ne & I1 & I2)].
  destruct (C60_table fsys ship paths 1 talker None 0 tk files R1_neq_R0 (fun _ => Hs) Ht Hp) as (rows & pre & E & St & Tm & Lp & Fs & Sm & _).
  assert (P : forall k r, nth_error rows k = Some r -> nth_error pre k = Some (Some x) /\ fix_lat r = Some y).
  { intros k r Hr. destruct (Fs k r Hr) as (lon & Hl & [before f after i Ef _ _ _ Hlo Hla]).
    assert (If : In f files) by (rewrite Ef; apply in_or_app; right; left; reflexivity). rewrite Forall_forall in HF. destruct (HF f If) as [F1 F2].
    rewrite Forall_forall in F1, F2. rewrite (F1 _ (nth_error_In _ _ Hlo)) in Hl. split; [exact Hl|]. exact (F2 _ (nth_error_In _ _ Hla)). }
  assert (Px : forall k v, nth_error pre k = Some v -> v = Some x).
  { intros k v Hv. destruct (nth_error rows k) as [r|] eqn:Er.
    - destruct (P k r Er) as [Hp' _]. congruence.
    - apply nth_error_None in Er. assert (k < len pre)%nat by (apply nth_error_Some; congruence). lia. }
  assert (Ep : map fix_lon rows = pre).
  { apply Sm. intros i a b Ha Hb. apply Px in Ha. apply Px in Hb. injection Ha as ->. injection Hb as ->. rewrite Rminus_diag_eq by reflexivity. rewrite Rabs_R0. lra. }
  assert (Fr : Forall (fun f => f_lon f = Some x /\ f_lat f = Some y) (map nav_fix rows)).
  { apply Forall_forall. intros f If. apply in_map_iff in If. destruct If as [r [<- Ir]]. apply In_nth_error in Ir. destruct Ir as [k Hk]. destruct (P k r Hk) as [H1 H2].
    cbn [nav_fix f_lon f_lat]. split; [|exact H2]. rewrite <- Ep, nth_error_map, Hk in H1. cbn [option_map] in H1. congruence. }
  exists (map nav_fix rows). split; [|split; [|split; [|exact Fr]]].
  - unfold script_nav. match goal with |- bind ?r _ = _ => replace r with (Ok (Table rows)) by (symmetry; exact E) end. cbn [bind]. destruct clean; [|reflexivity]. rewrite (clean_still _ x); [reflexivity|].
    eapply Forall_impl; [|exact Fr]. intros f [H _]. exact H.
  - rewrite map_map. cbn [nav_fix f_time]. rewrite <- (map_map time (fun t => IZR t / 1000000)%R). apply ascending_sorted. exact St.
  - rewrite map_length. rewrite <- (map_length time). apply (two_members _ t1 t2); [| |exact Ne]; apply Tm.
    + eapply Exists_impl; [|exact I1]. intros f. apply keeps_all.
    + eapply Exists_impl; [|exact I2]. intros f. apply keeps_all.
Qed.

(** ** A ship lying still *)
Lemma utc_of_time i t : utc_of i t <-> utc_time t i.
Proof. unfold utc_of, utc_time. tauto. Qed.
Lemma Forall2_nth_error_l (A B : Type) (P : A -> B -> Prop) l l' k a : Forall2 P l l' -> nth_error l k = Some a -> exists b, nth_error l' k = Some b /\ P a b.
Proof.
  intros H. revert k. induction H as [|x z l l' Hxz _ IH]; intros [|k] E; cbn in *; try discriminate; [|exact (IH k E)].
  injection E as <-. exists z. split; [reflexivity|exact Hxz].
Qed.
Lemma centuries i : exists c, julian_centuries i c.
Proof.
  assert (exists o, tide_epoch o) as [o Ho].
  { eexists. exists (ord (1899, 12, 31) - epoch_ord). split; [apply day_number_ord; apply valid_date_iff; split; [lia|]; change (days_in_month 1899 12) with 31; lia|reflexivity]. }
  eexists. exists o. split; [exact Ho|reflexivity].
Qed.
Lemma still_meter argsort nav x y T us gs bias samp : sorts argsort -> meter_table T us gs -> (3 <= len us)%nat ->
  ascending (map f_time nav) -> (2 <= len nav)%nat -> Forall (fun f => f_lon f = Some x /\ f_lat f = Some y) nav ->
  exists idx T' times rgrav faa full, script_meter argsort (Ok (Some T)) = Ok (T', times, rgrav) /\
    script_anomaly nav bias samp (T', times, rgrav) = Ok (T', faa, full) /\ time_order us idx /\ rearranged idx T T' /\ len faa = len us /\
    forall k j c, nth_error idx k = Some j -> julian_centuries (nth j us 0) c -> exists a, nth_error faa k = Some (Some a) /\
      (Rabs (a - still_anomaly x y bias (nth j gs 0%Q) (nth j us 0%Z) c) <= 1e-5)%R.
Proof.
  intros S M H3 A H2 F. destruct (script_meter_ok argsort T us gs S M) as (idx & T' & times & E & O & Rr & Ft).
  assert (Li : len idx = len us) by (destruct O as [O _]; apply Permutation_length in O; rewrite seq_length in O; exact O).
  assert (Lt : len times = len us). { pose proof (F2_len _ _ _ _ _ Ft) as L. rewrite map_length in L. lia. }
  set (rg := map (fun i => Q2R (nth i gs 0%Q)) idx). assert (Lr : len rg = len us) by (unfold rg; rewrite map_length; exact Li).
  assert (Aw : Forall (fun t => utcoffset t <> None) times).
  { clear -Ft. remember (map (fun i => nth i us 0) idx) as l eqn:El. clear El. induction Ft as [|i t l ts H _ IH]; constructor; [|exact IH].
    apply utc_of_time in H. apply utc_time_us in H. destruct H as [H _]. congruence. }
  assert (Q : exists faa full, faa_script nav rg times bias samp = Some (Ok (faa, full)) /\ len faa = len us /\
    forall k j c, nth_error idx k = Some j -> julian_centuries (nth j us 0) c -> exists a, nth_error faa k = Some a /\
      (Rabs (a - still_anomaly x y bias (nth j gs 0%Q) (nth j us 0%Z) c) <= 1e-5)%R).
  { assert (W : forall k j, nth_error idx k = Some j -> exists tm, nth_error times k = Some tm /\ utc_time tm (nth j us 0)).
    { intros k j Hk. destruct (Forall2_nth_error_l _ _ _ _ _ k (nth j us 0) Ft) as [tm [H1 H4]]; [rewrite nth_error_map, Hk; reflexivity|].
      exists tm. split; [exact H1|apply utc_of_time; exact H4]. }
    destruct (nth_error idx 0) as [j0|] eqn:Ei; [|apply nth_error_None in Ei; lia].
    destruct (W 0%nat j0 Ei) as [tm0 [Ht0 Hu0]].
    destruct (centuries (nth j0 us 0)) as [c0 Hc0].
    destruct (C80_anchored nav x y rg times bias samp (len us) 0 tm0 _ c0 A H2 F Lr Lt H3 Aw Ht0 Hu0 Hc0) as (faa & full & a0 & Ef & Lf & _ & _).
    exists faa, full. split; [exact Ef|]. split; [exact Lf|]. intros k j c Hk Hc. destruct (W k j Hk) as [tm [Htm Hu]].
    destruct (C80_anchored nav x y rg times bias samp (len us) k tm _ c A H2 F Lr Lt H3 Aw Htm Hu Hc) as (faa2 & full2 & a & Ef2 & _ & Ha & Hb).
    assert (faa2 = faa) by congruence. subst faa2. exists a. split; [exact Ha|].
    replace (nth k rg 0%R) with (Q2R (nth j gs 0%Q)) in Hb; [exact Hb|]. symmetry. apply nth_error_nth. unfold rg. rewrite nth_error_map, Hk. reflexivity. }
  destruct Q as (faa & full & Ef & Lf & Hf).
  exists idx, T', times, (map Some rg), (map Some faa), (map Some full). split; [exact E|]. split; [|split; [exact O|split; [exact Rr|split; [rewrite map_length; exact Lf|]]]].
  - unfold script_anomaly. rewrite (C94_complete nav rg times bias samp (Ok (faa, full))); [reflexivity|lia|exact Ef].
  - intros k j c Hk Hc. destruct (Hf k j c Hk Hc) as [a [Ha Hb]]. exists a. split; [rewrite nth_error_map, Ha; reflexivity|exact Hb].
Qed.

(** C103: from the files of a ship that does not move to the anomaly of every row, whatever the order of files and rows. *)
Theorem C103_still : forall argsort fsys td ship talker tk clean nav_paths files dgs_paths T us gs bias samp x y,
  sorts argsort -> known_ship ship -> talker_for ship talker tk -> Forall2 (provides fsys ship tk None) nav_paths files -> lying_still files x y ->
  read_dgs_laptop fsys td dgs_paths ship None = Ok (Some T) -> meter_table T us gs -> (3 <= len us)%nat ->
  exists idx T' faa full, dgs_script argsort fsys td ship talker clean nav_paths dgs_paths bias samp = Ok (T', faa, full) /\
    time_order us idx /\ rearranged idx T T' /\ len faa = len us /\
    forall k j c, nth_error idx k = Some j -> julian_centuries (nth j us 0) c -> exists a, nth_error faa k = Some (Some a) /\
      (Rabs (a - still_anomaly x y bias (nth j gs 0%Q) (nth j us 0%Z) c) <= 1e-5)%R.
Proof.
  intros argsort fsys td ship talker tk clean nav_paths files dgs_paths T us gs bias samp x y S Hs Ht Hp Hl Hr M H3.
  destruct (still_nav fsys ship talker clean nav_paths tk files x y Hs Ht Hp Hl) as (nav & En & A & H2 & F).
  destruct (still_meter argsort nav x y T us gs bias samp S M H3 A H2 F) as (idx & T' & times & rgrav & faa & full & E1 & E2 & O & Rr & L & V).
  exists idx, T', faa, full. split; [|split; [exact O|split; [exact Rr|split; [exact L|exact V]]]].
  unfold dgs_script. rewrite En. cbn [bind]. rewrite Hr, E1. cbn [bind]. exact E2.
Qed.
Print Assumptions C103_still.

(** The two meters of dgs_bgm_comp.py: at the same time their anomalies differ by the difference of the readings (with biases). *)
Theorem C103_two_meters : forall argsort fsys td ship tk nav_paths files dgs_paths bgm_paths D us gs B vs hs bias_d bias_b samp x y,
  sorts argsort -> talker_for ship None tk -> Forall2 (provides fsys ship tk None) nav_paths files -> lying_still files x y ->
  read_dgs_laptop fsys td dgs_paths ship None = Ok (Some D) -> meter_table D us gs -> (3 <= len us)%nat ->
  read_bgm_raw fsys td bgm_paths ship None None = Ok (Some B) -> meter_table B vs hs -> (3 <= len vs)%nat ->
  exists idx D' faa_d full_d jdx B' faa_b full_b,
    dgs_bgm_script argsort fsys td ship nav_paths dgs_paths bgm_paths bias_d bias_b samp = Ok ((D', faa_d, full_d), (B', faa_b, full_b)) /\
    time_order us idx /\ rearranged idx D D' /\ len faa_d = len us /\ time_order vs jdx /\ rearranged jdx B B' /\ len faa_b = len vs /\
    forall k i k' i', nth_error idx k = Some i -> nth_error jdx k' = Some i' -> nth i us 0 = nth i' vs 0 ->
      exists a b, nth_error faa_d k = Some (Some a) /\ nth_error faa_b k' = Some (Some b) /\
        (Rabs (a - b - ((Q2R (nth i gs 0%Q) + bias_d) - (Q2R (nth i' hs 0%Q) + bias_b))) <= 2e-5)%R.
Proof.
  intros argsort fsys td ship tk nav_paths files dgs_paths bgm_paths D us gs B vs hs bias_d bias_b samp x y S Ht Hp Hl Hr M H3 Hr' M' H3'.
  assert (Hs : known_ship ship) by (exists tk; exact Ht).
  destruct (still_nav fsys ship None true nav_paths tk files x y Hs Ht Hp Hl) as (nav & En & A & H2 & F).
  destruct (still_meter argsort nav x y D us gs bias_d samp S M H3 A H2 F) as (idx & D' & times & rgrav & faa & full & E1 & E2 & O & Rr & L & V).
  destruct (still_meter argsort nav x y B vs hs bias_b samp S M' H3' A H2 F) as (jdx & B' & times' & rgrav' & faa' & full' & E1' & E2' & O' & Rr' & L' & V').
  exists idx, D', faa, full, jdx, B', faa', full'. split; [|split; [exact O|split; [exact Rr|split; [exact L|split; [exact O'|split; [exact Rr'|split; [exact L'|]]]]]]].
  - unfold dgs_bgm_script. rewrite En. cbn [bind]. rewrite Hr, E1. cbn [bind]. rewrite Hr', E1'. cbn [bind]. rewrite E2, E2'. reflexivity.
  - intros k i k' i' Hk Hk' Eq. destruct (centuries (nth i us 0)) as [c Hc].
    destruct (V k i c Hk Hc) as [a [Ha Ba]]. rewrite Eq in Hc. destruct (V' k' i' c Hk' Hc) as [b [Hb Bb]].
    exists a, b. split; [exact Ha|]. split; [exact Hb|]. unfold still_anomaly in Ba, Bb. rewrite Eq in Ba.
    match type of Ba with (Rabs (a - ?e) <= _)%R => match type of Bb with (Rabs (b - ?f) <= _)%R =>
      replace (a - b - ((Q2R (nth i gs 0%Q) + bias_d) - (Q2R (nth i' hs 0%Q) + bias_b)))%R with ((a - e) - (b - f))%R by ring end end.
    unfold Rminus at 1. eapply Rle_trans; [apply Rabs_triang|]. rewrite Rabs_Ropp. lra.
Qed.
Print Assumptions C103_two_meters.

(** The order in which the files of the meter are listed does not matter, nor does the sorting method, if no two rows have the same time. *)
Theorem C103_file_order : forall argsort argsort' fsys td ship talker clean nav_paths dgs_paths dgs_paths' T ts bias samp,
  sorts argsort -> sorts argsort' -> keeps_length td -> Permutation dgs_paths dgs_paths' -> read_dgs_laptop fsys td dgs_paths ship None = Ok (Some T) ->
  has_column T (lit "date_time") (map Time ts) -> distinct_times ts ->
  dgs_script argsort' fsys td ship talker clean nav_paths dgs_paths' bias samp = dgs_script argsort fsys td ship talker clean nav_paths dgs_paths bias samp.
Proof.
  intros argsort argsort' fsys td ship talker clean nav_paths dgs_paths dgs_paths' T ts bias samp S S' K P E Hc D.
  destruct (laptop_permuted fsys td ship dgs_paths dgs_paths' T K P E) as (T' & n & E' & Nm & HT & HT' & Pr).
  unfold dgs_script. destruct (script_nav fsys ship talker clean nav_paths) as [nav|e]; [|reflexivity]. cbn [bind]. rewrite E, E'. cbn [script_meter bind].
  rewrite (sort_values_same argsort argsort' T T' n ts S S' HT HT' Nm Pr Hc D). reflexivity.
Qed.
Print Assumptions C103_file_order.

Lemma mapM_one_error (A B : Type) (f : A -> res B) e l : (forall a, In a l -> (exists b, f a = Ok b) \/ f a = Raise e) -> Exists (fun a => f a = Raise e) l -> mapM f l = Raise e.
Proof.
  induction l as [|a l IH]; intros H X; [inversion X|]. cbn [mapM]. destruct (H a (or_introl eq_refl)) as [[b Eb]|Eb]; rewrite Eb; cbn [bind]; [|reflexivity].
  rewrite IH; [reflexivity|intros x Hx; apply H; right; exact Hx|]. inversion X as [? ? H1|]; subst; [congruence|assumption].
Qed.
Lemma cell_time_cases c : (exists t, c = Time t) \/ c = NaN -> (exists d, cell_time c = Ok d) \/ cell_time c = Raise ValueError.
Proof.
  intros [[t ->]| ->]; [|right; reflexivity]. cbn [cell_time]. pose proof (of_us_spec (Qfloor (t * inject_Z us_per_sec))) as S. destruct (of_us _) as [d|e]; [left; exists d; reflexivity|].
  right. destruct S as [-> _]. reflexivity.
Qed.
Lemma undated_meter argsort T n col : table T n -> has_column T (lit "date_time") col -> Forall (fun c => (exists t, c = Time t) \/ c = NaN) col -> In NaN col ->
  script_meter argsort (Ok (Some T)) = Raise ValueError.
Proof.
  intros HT Hc F I. cbn [script_meter bind]. unfold sort_values. rewrite (get_column_ok _ _ _ (proj1 HT) Hc). cbn [bind].
  unfold get_column at 1. rewrite take_rows_column, (column_has _ _ _ (proj1 HT) Hc). cbn [option_map bind]. rewrite (mapM_one_error _ _ cell_time ValueError); [reflexivity| |].
  - intros c Hi. apply cell_time_cases. apply in_map_iff in Hi. destruct Hi as [i [<- _]]. destruct (nth_in_or_default i col NaN) as [H|H]; [|right; exact H].
    rewrite Forall_forall in F. apply F. exact H.
  - apply Exists_exists. exists NaN. split; [|reflexivity]. apply In_nth_error in I. destruct I as [i Hi]. apply in_map_iff. exists i. split; [apply nth_error_nth; exact Hi|].
    unfold sort_order. apply in_or_app. right. apply filter_In. split; [apply in_seq; split; [lia|]; cbn [Nat.add]; apply nth_error_Some; congruence|].
    rewrite (nth_error_nth _ _ None (x := None)) by (rewrite nth_error_map, Hi; reflexivity). reflexivity.
Qed.
Lemma text_meter argsort T us ts gcol : sorts argsort -> table T (len us) -> has_column T (lit "date_time") (map Time ts) -> Forall2 (fun t i => t == i # 1000000)%Q ts us -> Forall in_calendar us ->
  has_column T (lit "rgrav") gcol -> Exists (fun c => exists s, c = Txt s) gcol -> script_meter argsort (Ok (Some T)) = Raise TypeError.
Proof.
  intros S HT Hd Ht HC Hg X. cbn [script_meter bind]. unfold sort_values. rewrite (get_column_ok _ _ _ (proj1 HT) Hd). cbn [bind]. rewrite (sort_order_times _ _ S).
  unfold get_column. rewrite !take_rows_column, (column_has _ _ _ (proj1 HT) Hd), (column_has _ _ _ (proj1 HT) Hg). cbn [option_map bind].
  destruct (S ts) as [S1 _]. pose proof (permutation_below _ _ S1) as B. rewrite Forall_forall in B. pose proof (F2_len _ _ _ _ _ Ht) as Lu.
  destruct (mapM_cells _ _ cell_time (map (fun i => nth i (map Time ts) NaN) (argsort ts))) as [times [Em _]].
  { intros c Hc. apply in_map_iff in Hc. destruct Hc as [i [<- Hi]]. specialize (B i Hi). rewrite nth_time by exact B.
    destruct (cell_time_ok (nth i ts 0%Q) (nth i us 0)) as [d [Ed _]].
    - apply (Forall2_nth_total _ _ (fun t i => t == i # 1000000)%Q); [exact Ht|exact B].
    - rewrite Forall_forall in HC. apply HC. apply nth_In. rewrite Lu. exact B.
    - exists d. exact Ed. }
  rewrite Em. cbn [bind]. rewrite (mapM_one_error _ _ reading TypeError); [reflexivity| |].
  - intros c _. destruct c; cbn [reading]; eauto.
  - apply Exists_exists in X. destruct X as [c [Ic [s ->]]]. apply Exists_exists. exists (Txt s). split; [|reflexivity]. apply In_nth_error in Ic. destruct Ic as [i Hi].
    apply in_map_iff. exists i. split; [apply nth_error_nth; exact Hi|]. apply (Permutation_in _ (Permutation_sym S1)). apply in_seq. split; [lia|]. cbn [Nat.add].
    assert (Lg : len gcol = len us) by (destruct HT as [_ [_ L]]; rewrite Forall_forall in L; exact (L _ Hg)). rewrite <- Lu, <- Lg. apply nth_error_Some. congruence.
Qed.

(** When the scripts stop. *)
Theorem C103_failures : forall argsort fsys td ship talker clean nav_paths dgs_paths bias samp, sorts argsort ->
  let script := dgs_script argsort fsys td ship talker clean nav_paths dgs_paths bias samp in
  let nav := read_nav fsys ship nav_paths 1 talker None 0 in let meter := read_dgs_laptop fsys td dgs_paths ship None in
  (forall e, nav = Raise e -> script = Raise e) /\
  (nav = Ok Refused -> script = Raise AttributeError) /\
  forall rows, nav = Ok (Table rows) ->
    (forall e, meter = Raise e -> script = Raise e) /\
    (meter = Ok None -> script = Raise AttributeError) /\
    forall T n col, meter = Ok (Some T) -> table T n -> has_column T (lit "date_time") col ->
      (Forall (fun c => (exists t, c = Time t) \/ c = NaN) col -> In NaN col -> script = Raise ValueError) /\
      forall ts us, col = map Time ts -> Forall2 (fun t i => t == i # 1000000)%Q ts us -> Forall in_calendar us ->
        (forall gcol, has_column T (lit "rgrav") gcol -> Exists (fun c => exists s, c = Txt s) gcol -> script = Raise TypeError) /\
        (forall gs, has_column T (lit "rgrav") (map Num gs) -> (n < 3)%nat -> script = Raise IndexError).
Proof.
  intros argsort fsys td ship talker clean nav_paths dgs_paths bias samp S script nav meter. split; [|split].
  - intros e E. unfold script, dgs_script, script_nav. fold nav. rewrite E. reflexivity.
  - intros E. unfold script, dgs_script, script_nav. fold nav. rewrite E. reflexivity.
  - intros rows E.
    assert (Q : exists nv, script = (do d <- script_meter argsort meter; script_anomaly nv bias samp d)).
    { eexists. unfold script, dgs_script, script_nav. fold nav. rewrite E. cbn [bind]. reflexivity. }
    destruct Q as [nv ->]. split; [intros e ->; reflexivity|]. split; [intros ->; reflexivity|]. intros T n col -> HT Hc. split.
    + intros F I. rewrite (undated_meter argsort T n col HT Hc F I). reflexivity.
    + intros ts us -> Ht HC.
      assert (Ln : n = len us). { destruct HT as [_ [_ L]]. rewrite Forall_forall in L. specialize (L _ Hc). cbn [snd] in L. rewrite map_length in L. rewrite (F2_len _ _ _ _ _ Ht). congruence. }
      subst n. split.
      * intros gcol Hg X. rewrite (text_meter argsort T us ts gcol S HT Hc Ht HC Hg X). reflexivity.
      * intros gs Hg L3. destruct (script_meter_ok argsort T us gs S) as (idx & T' & times & Em & [O _] & _ & Ft).
        { split; [exact HT|]. split; [exists ts; split; assumption|]. split; assumption. }
        rewrite Em. cbn [bind script_anomaly]. unfold faa_script_nan.
        assert (Lt : (len times < 3)%nat). { apply F2_len in Ft. rewrite map_length in Ft. apply Permutation_length in O. rewrite seq_length in O. lia. }
        assert (X : exists tsec, mapM timestamp times = Ok tsec).
        { clear - Ft. set (l := map (fun i => nth i us 0) idx) in Ft. clearbody l. induction Ft as [|i t l ts H _ [tsec IH]]; [exists []; reflexivity|].
          apply utc_of_time in H. apply utc_time_us in H. destruct H as [H _]. cbn [mapM]. unfold timestamp at 1. rewrite H. cbn [bind]. rewrite IH. eexists. reflexivity. }
        destruct X as [tsec Et]. rewrite Et. cbn [bind sync]. destruct (mapM_ok _ _ _ _ _ Et) as [Ls _].
        rewrite (proj1 (C94_failures _ _ _ _ _)); [reflexivity|rewrite !map_length; reflexivity|rewrite map_length; lia].
Qed.
Print Assumptions C103_failures.

Lemma without_sorted (A : Type) (f : A -> R) bad k l l' : without bad k l l' -> StronglySorted Rlt (map f l) -> StronglySorted Rlt (map f l') /\ forall a, In a l' -> In a l.
Proof.
  induction 1 as [k|k a l l' _ _ IH|k a l l' _ _ IH]; intros S; [split; [exact S|intros a []]| |]; cbn [map] in S; apply StronglySorted_inv in S; destruct S as [S F]; destruct (IH S) as [I1 I2].
  - split; [exact I1|]. intros b Hb. right. apply I2. exact Hb.
  - split; [|intros b [->|Hb]; [left; reflexivity|right; apply I2; exact Hb]]. cbn [map]. constructor; [exact I1|]. apply Forall_forall. intros x Hx. apply in_map_iff in Hx.
    destruct Hx as [b [<- Hb]]. rewrite Forall_forall in F. apply F. apply in_map. apply I2. exact Hb.
Qed.
Lemma sorted_ascending l : StronglySorted Rlt l -> ascending l.
Proof.
  intros S. unfold ascending. induction S as [|a l S IH F]; intros i j [H1 H2]; cbn [len] in H2; [lia|]. destruct j as [|j]; [lia|]. destruct i as [|i]; cbn [nth].
  - rewrite Forall_forall in F. apply F. apply nth_In. lia.
  - apply IH. lia.
Qed.
Lemma some_nth (A : Type) (l : list (option A)) k a : nth k l None = Some a -> (k < len l)%nat.
Proof. intros E. destruct (Nat.lt_ge_cases k (len l)) as [H|H]; [exact H|]. rewrite nth_overflow in E by exact H. discriminate. Qed.

Lemma drop_rows_map (A B : Type) (f : A -> B) bad l : drop_rows bad (map f l) = map f (drop_rows bad l).
Proof.
  unfold drop_rows. rewrite map_length. generalize 0%nat. induction l as [|a l IH]; intros k; [reflexivity|]. cbn [len seq map combine filter fst].
  destruct (negb _); cbn [map snd]; rewrite IH; reflexivity.
Qed.
Lemma bracket_scaled (l : list Z) i b : bracket (map (fun t => IZR t / 1000000)%R l) (IZR i / 1000000) b -> bracket (map IZR l) (IZR i) b.
Proof.
  unfold bracket. rewrite !map_length. intros (H1 & H2 & H3). split; [exact H1|].
  assert (E : forall k, (k < len l)%nat -> nth k (map (fun t => IZR t / 1000000)%R l) 0%R = (nth k (map IZR l) 0 / 1000000)%R).
  { intros k Hk. rewrite (nth_error_nth (map (fun t => IZR t / 1000000)%R l) k 0%R (x := (IZR (nth k l 0%Z) / 1000000)%R)) by (rewrite nth_error_map, (nth_error_nth' l 0) by exact Hk; reflexivity).
    rewrite (nth_error_nth (map IZR l) k 0%R (x := IZR (nth k l 0))) by (rewrite nth_error_map, (nth_error_nth' l 0) by exact Hk; reflexivity). reflexivity. }
  rewrite !E in * by lia. split; [destruct H2 as [H2|H2]; [left; exact H2|right; lra]|destruct H3 as [H3|H3]; [left; exact H3|right; lra]].
Qed.

(** A moving ship: rows and times as before; the anomaly is the full field without normal gravity at the latitude on the line
    between the fixes before and after the reading, among those of the navigation table which are kept. *)
Theorem C103_positions : forall argsort fsys td ship talker tk clean nav_paths files dgs_paths T us gs bias samp,
  sorts argsort -> known_ship ship -> talker_for ship talker tk -> Forall2 (provides fsys ship tk None) nav_paths files ->
  read_dgs_laptop fsys td dgs_paths ship None = Ok (Some T) -> meter_table T us gs -> (3 <= len us)%nat ->
  exists rows nav idx T' faa full, read_nav fsys ship nav_paths 1 talker None 0 = Ok (Table rows) /\
    (clean = false -> nav = rows) /\ (clean = true -> without (jump_east (fun k => nth k (map fix_lon rows) None)) 0 rows nav) /\
    dgs_script argsort fsys td ship talker clean nav_paths dgs_paths bias samp = Ok (T', faa, full) /\
    time_order us idx /\ rearranged idx T T' /\ len faa = len us /\ len full = len us /\ (forall k, S_Nan.missing full k <-> S_Nan.missing faa k) /\
    ((2 <= len nav)%nat -> forall k j a, nth_error idx k = Some j -> nth_error faa k = Some (Some a) ->
      exists u b p q y, nth_error full k = Some (Some u) /\ bracket (map (fun r => IZR (time r)) nav) (IZR (nth j us 0)) b /\
        nth b (map fix_lat nav) None = Some p /\ nth (S b) (map fix_lat nav) None = Some q /\
        on_line (nth b (map (fun r => IZR (time r)) nav) 0%R) p (nth (S b) (map (fun r => IZR (time r)) nav) 0%R) q (IZR (nth j us 0)) y /\
        (Rabs (u - a - somigliana (rad y)) <= 1e-5)%R).
Proof.
  intros argsort fsys td ship talker tk clean nav_paths files dgs_paths T us gs bias samp So Hs Ht Hp Hr M H3.
  destruct (C60_table fsys ship nav_paths 1 talker None 0 tk files R1_neq_R0 (fun _ => Hs) Ht Hp) as (rows & pre & E & St & _).
  destruct (script_meter_ok argsort T us gs So M) as (idx & T' & times & Em & O & Rr & Ft).
  assert (Li : len idx = len us) by (destruct O as [O _]; apply Permutation_length in O; rewrite seq_length in O; exact O).
  assert (Lt : len times = len us). { pose proof (F2_len _ _ _ _ _ Ft) as L. rewrite map_length in L. lia. }
  assert (Aw : Forall (fun t => utcoffset t <> None) times).
  { clear -Ft. remember (map (fun i => nth i us 0) idx) as l eqn:El. clear El. induction Ft as [|i t l ts H _ IH]; constructor; [|exact IH].
    apply utc_of_time in H. apply utc_time_us in H. destruct H as [H _]. congruence. }
  set (nav := if clean then drop_rows (nav_bad (map fix_lon rows)) rows else rows).
  assert (En : script_nav fsys ship talker clean nav_paths = Ok (map nav_fix nav)).
  { unfold script_nav. match goal with |- bind ?r _ = _ => replace r with (Ok (Table rows)) by (symmetry; exact E) end. cbn [bind]. unfold nav. destruct clean; [|reflexivity].
    unfold clean_nav. rewrite map_map, <- drop_rows_map. cbn [nav_fix f_lon]. reflexivity. }
  assert (W : clean = true -> without (jump_east (fun k => nth k (map fix_lon rows) None)) 0 rows nav).
  { intros C. unfold nav. rewrite C. unfold drop_rows. apply (without_weaken _ (fun i => In i (nav_bad (map fix_lon rows)))); [intros i; apply nav_bad_spec|]. apply drop_rows_go. }
  assert (Sn : StronglySorted Rlt (map (fun r => IZR (time r) / 1000000)%R nav)).
  { assert (S0 : StronglySorted Rlt (map (fun r => IZR (time r) / 1000000)%R rows)).
    { rewrite <- (map_map time (fun t => IZR t / 1000000)%R). apply (sorted_map _ _ _ Z.lt); [|exact St]. intros a b _ _ H. apply IZR_lt in H. lra. }
    destruct clean; [|exact S0]. exact (proj1 (without_sorted _ _ _ _ _ _ (W eq_refl) S0)). }
  set (rg := map (fun i => Q2R (nth i gs 0%Q)) idx) in Em.
  assert (Q : exists tsec, mapM timestamp times = Ok tsec /\ len tsec = len us /\ forall k j, nth_error idx k = Some j -> nth_error tsec k = Some (IZR (nth j us 0%Z) / 1000000)%R).
  { clear - Ft Lt. rewrite <- Lt. clear Lt. revert times Ft. induction idx as [|i idx IH]; intros times Ft; inversion Ft as [|c d cs ds Hc Ft' E1 E2]; subst.
    - exists []. split; [reflexivity|]. split; [reflexivity|]. intros [|k] j Hk; discriminate.
    - destruct (IH ds Ft') as (tsec & I1 & I2 & I3). apply utc_of_time in Hc. apply utc_time_us in Hc. destruct Hc as [Hc Hc'].
      exists (IZR (nth i us 0%Z) / 1000000 :: tsec)%R. split; [cbn [mapM]; unfold timestamp at 1; rewrite Hc, Hc'; cbn [bind]; rewrite I1; reflexivity|].
      split; [cbn [len]; rewrite I2; reflexivity|]. intros [|k] j Hk; cbn [nth_error] in *; [congruence|apply I3; exact Hk]. }
  destruct Q as (tsec & Ets & Lts & Vts).
  set (g := map (fun x => nf2 Rplus x (K bias)) (map Some rg)).
  set (lon := map (interp1d (map f_time (map nav_fix nav)) (map f_lon (map nav_fix nav))) tsec). set (lat := map (interp1d (map f_time (map nav_fix nav)) (map f_lat (map nav_fix nav))) tsec).
  assert (Lg : len g = len us) by (unfold g, rg; rewrite !map_length; exact Li). assert (Lo : len lon = len us) by (unfold lon; rewrite map_length; exact Lts).
  assert (La : len lat = len us) by (unfold lat; rewrite map_length; exact Lts).
  destruct (C94_missing g lon lat times samp (len us) Lg Lo La Lt H3 Aw) as (faa & full & Ec & Lf & Lu & V).
  exists rows, nav, idx, T', faa, full. split; [exact E|]. split; [intros C; unfold nav; rewrite C; reflexivity|]. split; [exact W|]. split.
  { unfold dgs_script. rewrite En. cbn [bind]. rewrite Hr, Em. cbn [bind script_anomaly]. unfold faa_script_nan. rewrite Ets. cbn [bind sync]. fold g. fold lon. fold lat.
    match goal with |- bind ?r _ = _ => replace r with (Ok (faa, full)) by (symmetry; exact Ec) end. reflexivity. }
  split; [exact O|]. split; [exact Rr|]. split; [exact Lf|]. split; [exact Lu|].
  assert (Mk : forall k, S_Nan.missing full k <-> S_Nan.missing faa k).
  { intros k. destruct (Nat.lt_ge_cases k (len us)) as [Hk|Hk]; [destruct (V k Hk) as [V1 V2]; rewrite V1, V2; reflexivity|].
    unfold S_Nan.missing. rewrite !(proj2 (nth_error_None _ _)) by lia. split; discriminate. }
  split; [exact Mk|]. intros H2 k j a Hj Ha.
  assert (Hk : (k < len us)%nat) by (rewrite <- Lf; apply nth_error_Some; congruence).
  destruct (nth_error full k) as [[u|]|] eqn:Eu; [|exfalso; pose proof (proj1 (Mk k) Eu) as X; unfold S_Nan.missing in X; congruence|apply nth_error_None in Eu; lia].
  assert (NB : ~ S_Nan.missing lat k). { intros X. assert (S_Nan.missing faa k) by (apply (proj1 (V k Hk)); right; right; left; exact X). unfold S_Nan.missing in *. congruence. }
  assert (A : ascending (map f_time (map nav_fix nav))) by (rewrite map_map; apply sorted_ascending; exact Sn).
  destruct (C79_fixes_used (map f_time (map nav_fix nav)) (IZR (nth j us 0%Z) / 1000000) A ltac:(rewrite !map_length; exact H2)) as (b & Bb & _).
  assert (Elat : nth_error lat k = Some (interp1d (map f_time (map nav_fix nav)) (map f_lat (map nav_fix nav)) (IZR (nth j us 0%Z) / 1000000))).
  { unfold lat. rewrite nth_error_map, (Vts k j Hj). reflexivity. }
  destruct (C79_interpolated (map f_time (map nav_fix nav)) (map f_lat (map nav_fix nav)) _ b A Bb) as [I1 I2].
  assert (Ef : map f_lat (map nav_fix nav) = map fix_lat nav) by (rewrite map_map; reflexivity).
  assert (Et : map f_time (map nav_fix nav) = map (fun t => IZR t / 1000000)%R (map time nav)) by (rewrite !map_map; reflexivity).
  assert (Ez : map (fun r => IZR (time r)) nav = map IZR (map time nav)) by (rewrite map_map; reflexivity).
  destruct (nth b (map fix_lat nav) None) as [p|] eqn:Ep.
  2:{ exfalso. apply NB. unfold S_Nan.missing. rewrite Elat. f_equal. apply I1. left. rewrite Ef. exact Ep. }
  destruct (nth (S b) (map fix_lat nav) None) as [q|] eqn:Eq.
  2:{ exfalso. apply NB. unfold S_Nan.missing. rewrite Elat. f_equal. apply I1. right. rewrite Ef. exact Eq. }
  destruct (I2 p q ltac:(rewrite Ef; exact Ep) ltac:(rewrite Ef; exact Eq)) as (y & Ey & Hl & _).
  exists u, b, p, q, y. split; [reflexivity|]. rewrite Ez. split; [apply bracket_scaled; rewrite <- Et; exact Bb|]. split; [exact Ep|]. split; [exact Eq|]. split.
  - unfold on_line in *. rewrite Et in Hl. destruct Bb as [Hb _]. rewrite !map_length in Hb.
    assert (X : forall m, (m < len nav)%nat -> nth m (map (fun t => IZR t / 1000000)%R (map time nav)) 0%R = (nth m (map IZR (map time nav)) 0 / 1000000)%R).
    { intros m Hm. rewrite (nth_error_nth _ m 0%R (x := (IZR (nth m (map time nav) 0%Z) / 1000000)%R)) by (rewrite nth_error_map, (nth_error_nth' (map time nav) 0) by (rewrite map_length; exact Hm); reflexivity).
      rewrite (nth_error_nth (map IZR (map time nav)) m 0%R (x := IZR (nth m (map time nav) 0))) by (rewrite nth_error_map, (nth_error_nth' (map time nav) 0) by (rewrite map_length; exact Hm); reflexivity). reflexivity. }
    rewrite !X in Hl by lia. nra.
  - apply (C94_difference g lon lat times samp (len us) faa full k a u y Lg Lo La Lt H3); try assumption; [|rewrite Elat, Ey; reflexivity].
    clear - Ft. remember (map (fun i => nth i us 0) idx) as l eqn:El. clear El. induction Ft as [|i t l ts H _ IH]; constructor; [|exact IH].
    destruct H as (y & m & d & h & mi & s & uu & H1 & _). exists y, m, d, h, mi, s, uu, 0. split; [exact H1|lia].
Qed.
Print Assumptions C103_positions.

(** The date and the time of day of every row: the last whole microsecond; outside the years 1 to 9999 there is none. *)
Theorem C103_dates : forall t i, (i # 1000000 <= t)%Q -> (t < (i + 1) # 1000000)%Q ->
  match cell_time (Time t) with
  | Ok d => in_calendar i /\ exists y m dd h mi s us, datetime_new y m dd h mi s us (Some 0) = Ok d /\ instant (y, m, dd) h mi s us i
  | Raise e => e = ValueError /\ ~ in_calendar i
  end.
Proof.
  intros t i H1 H2. cbn [cell_time]. assert (E : Qfloor (t * inject_Z us_per_sec) = i).
  { pose proof (Qfloor_le (t * inject_Z us_per_sec)) as F1. pose proof (Qlt_floor (t * inject_Z us_per_sec)) as F2. set (f := Qfloor _) in *. clearbody f.
    change us_per_sec with 1000000 in *. assert (G1 : (inject_Z i <= t * inject_Z 1000000)%Q).
    { apply (Qle_trans _ ((i # 1000000) * inject_Z 1000000)); [unfold Qle, inject_Z; cbn [Qmult Qnum Qden]; lia|]. apply Qmult_le_compat_r; [exact H1|unfold Qle; cbn; lia]. }
    assert (G2 : (t * inject_Z 1000000 < inject_Z (i + 1))%Q).
    { apply (Qlt_le_trans _ (((i + 1) # 1000000) * inject_Z 1000000)); [apply Qmult_lt_compat_r; [unfold Qlt; cbn; lia|exact H2]|unfold Qle, inject_Z; cbn [Qmult Qnum Qden]; lia]. }
    pose proof (Qle_lt_trans _ _ _ F1 G2) as K1. pose proof (Qle_lt_trans _ _ _ G1 F2) as K2. rewrite <- Zlt_Qlt in K1, K2. lia. }
  rewrite E. exact (of_us_spec i).
Qed.
Print Assumptions C103_dates.
Example C103_dates_case : (exists d, cell_time (Time (1709201732.5)) = Ok d /\ d = mk_datetime 2024 2 29 10 15 32 500000 (Some 0)) /\
  cell_time (Time (-62135596800)) = Ok (mk_datetime 1 1 1 0 0 0 0 (Some 0)) /\ cell_time (Time (253402300799.9999999)) = Ok (mk_datetime 9999 12 31 23 59 59 999999 (Some 0)) /\
  cell_time (Time (253402300800)) = Raise ValueError.
Proof. split; [eexists; split; [vm_compute; reflexivity|reflexivity]|]. repeat split; vm_compute; reflexivity. Qed.

(** ** Cases *)
Fixpoint insert_at (l : list Q) (i : nat) (s : list nat) : list nat :=
  match s with [] => [i] | j :: r => if Qle_bool (nth i l 0%Q) (nth j l 0%Q) then i :: s else j :: insert_at l i r end.
Definition insertion_sort (l : list Q) : list nat := fold_right (insert_at l) [] (seq 0 (len l)).
Lemma insert_perm l i s : Permutation (insert_at l i s) (i :: s).
Proof.
  induction s as [|j s IH]; cbn [insert_at]; [reflexivity|]. destruct (Qle_bool _ _); [reflexivity|]. rewrite IH. apply perm_swap.
Qed.
Lemma insert_sorted l i s : StronglySorted (fun i j => nth i l 0 <= nth j l 0)%Q s -> StronglySorted (fun i j => nth i l 0 <= nth j l 0)%Q (insert_at l i s).
Proof.
  induction 1 as [|j s S IH F]; cbn [insert_at]; [repeat constructor|]. destruct (Qle_bool _ _) eqn:E.
  - apply Qle_bool_iff in E. constructor; [constructor; assumption|]. constructor; [exact E|]. eapply Forall_impl; [|exact F]. intros k Hk. exact (Qle_trans _ _ _ E Hk).
  - assert (L : (nth j l 0 <= nth i l 0)%Q). { destruct (Qlt_le_dec (nth j l 0%Q) (nth i l 0%Q)) as [H|H]; [apply Qlt_le_weak; exact H|]. apply Qle_bool_iff in H. congruence. }
    constructor; [exact IH|]. rewrite Forall_forall in *. intros k Hk. apply (Permutation_in _ (insert_perm l i s)) in Hk. destruct Hk as [<-|Hk]; [exact L|apply F; exact Hk].
Qed.
Lemma insertion_sort_sorts : sorts insertion_sort.
Proof.
  intros l. unfold insertion_sort. induction (seq 0 (len l)) as [|i s [I1 I2]]; [split; constructor|]. cbn [fold_right]. split.
  - rewrite insert_perm. constructor. exact I1.
  - apply insert_sorted. exact I2.
Qed.

Definition meter_line (g s : string) : str := lit "1," ++ lit g ++ lit ",-2,3,4,5,6,7,8,9,10,11,12,13,14,15,16,17,18,2024,2,29,10,15," ++ lit s ++ lit ",25" ++ [nl].
Definition bgm_line (s : string) : str := lit "x 2024/02/29 10:15:" ++ lit s ++ lit " y 01:25000" ++ [nl].
Definition case_nav : str := at_line "101531.25" "4112.5" ++ lit "NAV $GPVTG" ++ [nl] ++ at_line "101530.25" "4112.5".
Definition case_files (p : str) : option str :=
  if str_eqb p (lit "n") then Some case_nav else if str_eqb p (lit "d1") then Some (meter_line "9800.25" "33" ++ meter_line "9800.75" "31")
  else if str_eqb p (lit "d2") then Some (meter_line "9800.5" "32.5") else if str_eqb p (lit "high") then Some (meter_line "high" "34")
  else if str_eqb p (lit "b") then Some (bgm_line "33.0" ++ bgm_line "31" ++ bgm_line "32.") else None.
(** the dates of [bgm_line] above: 19 characters are 10:15:31 *)
Definition case_dates (l : list cell) : res (list cell) :=
  mapM (fun c => match c with Txt s => Ok (Time (inject_Z (1709201712 + Z.of_nat (len s)))) | NaN => Ok NaN | _ => Raise TypeError end) l.
Lemma case_dates_keeps : keeps_length case_dates.
Proof. intros l l' H. apply mapM_ok in H. apply H. Qed.
Lemma case_lines : file_lines case_nav [at_line "101531.25" "4112.5"; lit "NAV $GPVTG" ++ [nl]; at_line "101530.25" "4112.5"].
Proof.
  unfold case_nav, at_line. rewrite <- !app_assoc.
  apply (fl_line (lit "NAV 2024/02/29 10:15:30 $GPGGA,101531.25,4112.5,N,07012.5,W,1")); [apply not_in_dec; reflexivity|].
  apply (fl_line (lit "NAV $GPVTG")); [apply not_in_dec; reflexivity|].
  apply (fl_line (lit "NAV 2024/02/29 10:15:30 $GPGGA,101530.25,4112.5,N,07012.5,W,1") []); [apply not_in_dec; reflexivity|constructor].
Qed.
Definition case_x : R := (-1 * (IZR 70 + (IZR 12 + IZR 5 / 10 ^ 1) / 60))%R.
Definition case_y : R := (1 * (IZR 41 + (IZR 12 + IZR 5 / 10 ^ 1) / 60))%R.
Definition case_data : file_data := mk_data [at_time 31; at_time 30] [Some case_x; Some case_x] [Some case_y; Some case_y].
Lemma case_sentence : sentence gp (at_line "101530.25" "4112.5") at_pre (at_fields "101530.25" "4112.5").
Proof. apply (mk_sentence gp at_pre (at_fields "101530.25" "4112.5")); (discriminate || reflexivity). Qed.
Lemma case_file : nav_file (lit "Atlantis") gp [at_line "101531.25" "4112.5"; lit "NAV $GPVTG" ++ [nl]; at_line "101530.25" "4112.5"] case_data.
Proof.
  assert (Hsel : selected (occurs gp) [at_line "101531.25" "4112.5"; lit "NAV $GPVTG" ++ [nl]; at_line "101530.25" "4112.5"] [at_line "101531.25" "4112.5"; at_line "101530.25" "4112.5"]).
  { apply sel_yes; [apply containsb_spec; reflexivity|]. apply sel_no; [apply no_occ; reflexivity|]. apply sel_yes; [apply containsb_spec; reflexivity|constructor]. }
  apply (nf_intro _ _ _ _ _ (combine (lons case_data) (lats case_data)) gp_usable Hsel).
  - discriminate.
  - constructor; [|constructor; [|constructor]].
    + exists at_pre, (at_fields "101531.25" "4112.5"). split; [exact at_sentence1|]. left. do 2 eexists. split; [|reflexivity].
      apply (pos_intro _ _ _ (lit "101531.25") (lit "N") (lit "W") [lit "1" ++ [nl]] 1 (-1) 41 12 1 5 70 12 1 5); try lia; try reflexivity; constructor.
    + exists at_pre, (at_fields "101530.25" "4112.5"). split; [exact case_sentence|]. left. do 2 eexists. split; [|reflexivity].
      apply (pos_intro _ _ _ (lit "101530.25") (lit "N") (lit "W") [lit "1" ++ [nl]] 1 (-1) 41 12 1 5 70 12 1 5); try lia; try reflexivity; constructor.
  - reflexivity.
  - reflexivity.
  - apply (S_ReadNav.sf_Atlantis _ _ _ _ Hsel). constructor; [|constructor; [|constructor]].
    + exists at_pre, (at_fields "101531.25" "4112.5"), (2024, 2, 29), 10, 15, 31, 2%nat, 25, 25. split; [exact at_sentence1|].
      split; [apply no_occ; reflexivity|]. split; [exact at_pre_date|].
      split; [split; [eexists; reflexivity|cbn; lia]|]. split; [split; [reflexivity|split; [lia|right; discriminate]]|]. apply at_stamp. lia.
    + exists at_pre, (at_fields "101530.25" "4112.5"), (2024, 2, 29), 10, 15, 30, 2%nat, 25, 25. split; [exact case_sentence|].
      split; [apply no_occ; reflexivity|]. split; [exact at_pre_date|].
      split; [split; [eexists; reflexivity|cbn; lia]|]. split; [split; [reflexivity|split; [lia|right; discriminate]]|]. apply at_stamp. lia.
Qed.
Lemma case_provided : Forall2 (provides case_files (lit "Atlantis") gp None) [lit "n"] [case_data].
Proof. constructor; [|constructor]. exists case_nav. eexists. split; [reflexivity|]. split; [exact case_lines|exact case_file]. Qed.
Lemma case_talker : talker_for (lit "Atlantis") None gp.
Proof. apply dt_gp. left. reflexivity. Qed.
Lemma case_ship : known_ship (lit "Atlantis").
Proof. exists gp. exact case_talker. Qed.
Lemma case_still : lying_still [case_data] case_x case_y.
Proof.
  split; [constructor; [|constructor]; split; repeat constructor|]. exists (at_time 31), (at_time 30).
  split; [discriminate|]. split; constructor; [left|right; left]; reflexivity.
Qed.
Definition case_us : list Z := [1709201733000000; 1709201731000000; 1709201732500000].
Lemma case_meter : exists T, read_dgs_laptop case_files case_dates [lit "d1"; lit "d2"] (lit "Atlantis") None = Ok (Some T) /\
  meter_table T case_us [9800.25; 9800.75; 9800.5]%Q.
Proof.
  eexists. split; [vm_compute; reflexivity|]. split; [|split; [|split]].
  - split; [apply nodupb_ok; reflexivity|]. split; [discriminate|]. repeat constructor.
  - exists [1709201733; 1709201731; 1709201732.5]%Q. split; [do 16 right; left; reflexivity|]. repeat constructor; reflexivity.
  - left. reflexivity.
  - repeat (apply Forall_cons; [unfold in_calendar; lia|]). constructor.
Qed.
Lemma case_bgm : exists T g, read_bgm_raw case_files case_dates [lit "b"] (lit "Atlantis") None None = Ok (Some T) /\
  meter_table T [1709201733000000; 1709201731000000; 1709201732000000] [g; g; g].
Proof.
  do 2 eexists. split; [vm_compute; reflexivity|]. split; [|split; [|split]].
  - split; [apply nodupb_ok; reflexivity|]. split; [discriminate|]. repeat constructor.
  - exists [1709201733; 1709201731; 1709201732]%Q. split; [right; left; reflexivity|]. repeat constructor; reflexivity.
  - right. right. left. reflexivity.
  - repeat (apply Forall_cons; [unfold in_calendar; lia|]). constructor.
Qed.
Lemma case_order idx : time_order case_us idx -> idx = [1; 2; 0]%nat.
Proof.
  intros [P S]. pose proof (permutation_below _ _ P) as B.
  apply (sorted_unique _ (fun i j => (i < 3)%nat /\ (j < 3)%nat /\ nth i case_us 0 < nth j case_us 0)).
  - intros x (_ & _ & H). lia.
  - intros x y (_ & _ & H) (_ & _ & H'). lia.
  - assert (N : NoDup idx) by (apply (Permutation_NoDup (Permutation_sym P)); apply seq_NoDup). clear P.
    induction S as [|i idx S IH F]; constructor; [apply IH; [inversion B; assumption|inversion N; assumption]|].
    inversion B as [|? ? Bi B']; subst. inversion N as [|? ? Ni N']; subst. rewrite Forall_forall in *. intros j Hj. specialize (F j Hj). specialize (B' j Hj). change (len case_us) with 3%nat in *.
    split; [exact Bi|]. split; [exact B'|]. assert (i <> j) by (intros ->; contradiction). destruct i as [|[|[|i]]], j as [|[|[|j]]]; cbn in *; lia.
  - repeat (constructor; cbn; try lia).
  - intros i. split; intros H.
    + apply (Permutation_in _ P) in H. apply in_seq in H. change (len case_us) with 3%nat in H. cbn. lia.
    + apply (Permutation_in _ (Permutation_sym P)). apply in_seq. change (len case_us) with 3%nat. cbn in H. lia.
Qed.
(** Three readings in two files, the ship lying still at 41 12.5 N, 70 12.5 W: rows in the order of time. *)
Example C103_still_case : forall c, julian_centuries 1709201731000000 c -> exists T' a full b d,
  dgs_script insertion_sort case_files case_dates (lit "Atlantis") None true [lit "n"] [lit "d1"; lit "d2"] 970000 1 = Ok (T', [Some a; Some b; Some d], full) /\
  has_column T' (lit "second") (map Num [31; 32.5; 33]%Q) /\ has_column T' (lit "rgrav") (map Num [9800.75; 9800.5; 9800.25]%Q) /\
  (Rabs (a - still_anomaly case_x case_y 970000 9800.75 1709201731000000 c) <= 1e-5)%R.
Proof.
  intros c Hc. destruct case_meter as [T [Er M]].
  destruct (C103_still insertion_sort case_files case_dates (lit "Atlantis") None gp true [lit "n"] [case_data] [lit "d1"; lit "d2"] T case_us _ 970000 1 case_x case_y
    insertion_sort_sorts case_ship case_talker case_provided case_still Er M ltac:(cbn; lia)) as (idx & T' & faa & full & E & O & Rr & L & V).
  apply case_order in O. subst idx. change (len case_us) with 3%nat in L. destruct faa as [|a0 [|b0 [|d0 [|]]]]; try discriminate L.
  destruct (V 0%nat 1%nat c eq_refl Hc) as (a & Ea & Ha). destruct (centuries (nth 2 case_us 0)) as [c2 Hc2]. destruct (V 1%nat 2%nat c2 eq_refl Hc2) as (b & Eb & _).
  destruct (centuries (nth 0 case_us 0)) as [c3 Hc3]. destruct (V 2%nat 0%nat c3 eq_refl Hc3) as (d & Ed & _). cbn [nth_error] in Ea, Eb, Ed.
  exists T', a, full, b, d. split; [rewrite E; congruence|].
  assert (ET : T' = take_rows [1; 2; 0]%nat T).
  { clear - Rr. induction Rr as [|[c v] [c' v'] T T' [H1 H2] _ IH]; [reflexivity|]. cbn [take_rows map fst snd] in *. subst c'. f_equal; [|exact IH]. f_equal.
    inversion H2 as [|? ? ? ? A1 H3]; subst. inversion H3 as [|? ? ? ? A2 H4]; subst. inversion H4 as [|? ? ? ? A3 H5]; subst. inversion H5; subst.
    rewrite (nth_error_nth _ _ NaN A1), (nth_error_nth _ _ NaN A2), (nth_error_nth _ _ NaN A3). reflexivity. }
  assert (ETv : take_rows [1; 2; 0]%nat T = take_rows [1; 2; 0]%nat (match read_dgs_laptop case_files case_dates [lit "d1"; lit "d2"] (lit "Atlantis") None with Ok (Some T) => T | _ => [] end)) by (rewrite Er; reflexivity).
  rewrite ET, ETv. split; [|split; [|exact Ha]].
  - vm_compute. do 15 right. left. reflexivity.
  - vm_compute. left. reflexivity.
Qed.
Example C103_two_meters_case : exists D' a fd full_d B' b fb full_b g,
  dgs_bgm_script insertion_sort case_files case_dates (lit "Atlantis") [lit "n"] [lit "d1"; lit "d2"] [lit "b"] 970000 0 1 = Ok ((D', Some a :: fd, full_d), (B', Some b :: fb, full_b)) /\
  has_column B' (lit "rgrav") (map Num [g; g; g]) /\ (Rabs (a - b - ((Q2R 9800.75 + 970000) - (Q2R g + 0))) <= 2e-5)%R.
Proof.
  destruct case_meter as [T [Er M]]. destruct case_bgm as [B [g [Eb Mb]]].
  destruct (C103_two_meters insertion_sort case_files case_dates (lit "Atlantis") gp [lit "n"] [case_data] [lit "d1"; lit "d2"] [lit "b"] T case_us _ B _ _ 970000 0 1 case_x case_y
    insertion_sort_sorts case_talker case_provided case_still Er M ltac:(cbn; lia) Eb Mb ltac:(cbn; lia)) as (idx & D' & fd & full_d & jdx & B' & fb & full_b & E & O & Rd & Ld & O' & Rb & Lb & V).
  assert (Oj : jdx = [1; 2; 0]%nat).
  { apply (case_order jdx). destruct O' as [P S]. split; [exact P|]. pose proof (permutation_below _ _ P) as Bl. clear - S Bl.
    induction S as [|i jdx S IH F]; constructor; [apply IH; inversion Bl; assumption|]. inversion Bl as [|? ? Bi Bl']; subst. rewrite Forall_forall in *. intros j Hj. specialize (F j Hj). specialize (Bl' j Hj).
    cbn [len] in *. destruct i as [|[|[|i]]], j as [|[|[|j]]]; cbn in *; lia. }
  apply case_order in O. subst idx jdx. destruct (V 0%nat 1%nat 0%nat 1%nat eq_refl eq_refl eq_refl) as (a & b & Ea & Eb' & H).
  destruct fd as [|a0 fd]; [discriminate Ea|]. destruct fb as [|b0 fb]; [discriminate Eb'|]. cbn [nth_error] in Ea, Eb'.
  exists D', a, fd, full_d, B', b, fb, full_b, g. split; [rewrite E; congruence|]. split; [|exact H].
  destruct Mb as (_ & _ & Hg & _). clear - Hg Rb. induction Rb as [|[c v] [c' v'] B B' [H1 H2] _ IH]; [destruct Hg|]. cbn [fst snd] in *. subst c'. destruct Hg as [Hg|Hg]; [|right; apply IH; exact Hg].
  left. assert (v = map Num [g; g; g]) by congruence. assert (c = lit "rgrav") by congruence. subst v c. clear Hg IH.
  inversion H2 as [|? ? ? ? A1 H3]; subst. inversion H3 as [|? ? ? ? A2 H4]; subst. inversion H4 as [|? ? ? ? A3 H5]; subst. inversion H5; subst. cbn in A1, A2, A3. injection A1 as <-. injection A2 as <-. injection A3 as <-. reflexivity.
Qed.
Example C103_file_order_case :
  dgs_script insertion_sort case_files case_dates (lit "Atlantis") None true [lit "n"] [lit "d2"; lit "d1"] 970000 1 =
  dgs_script insertion_sort case_files case_dates (lit "Atlantis") None true [lit "n"] [lit "d1"; lit "d2"] 970000 1.
Proof.
  destruct case_meter as [T [Er M]]. destruct M as (_ & (ts & Hc & Ht) & _).
  apply (C103_file_order insertion_sort insertion_sort case_files case_dates (lit "Atlantis") None true [lit "n"] [lit "d1"; lit "d2"] [lit "d2"; lit "d1"] T ts 970000 1
    insertion_sort_sorts insertion_sort_sorts case_dates_keeps (perm_swap _ _ _) Er Hc).
  pose proof (F2_len _ _ _ _ _ Ht) as L. change (len case_us) with 3%nat in L. intros i j [H1 H2] E. rewrite <- L in H2.
  pose proof (Forall2_nth_total _ _ _ _ _ 0%Q 0 i Ht ltac:(lia)) as A. pose proof (Forall2_nth_total _ _ _ _ _ 0%Q 0 j Ht ltac:(lia)) as B. cbn beta in A, B. rewrite A, B in E.
  destruct i as [|[|[|i]]], j as [|[|[|j]]]; try lia; vm_compute in E; discriminate.
Qed.
Example C103_failures_case :
  dgs_script insertion_sort case_files case_dates (lit "Titanic") (Some gp) true [lit "n"] [lit "d1"] 970000 1 = Raise AttributeError /\
  dgs_script insertion_sort case_files case_dates (lit "Atlantis") None true [lit "n"] [lit "d1"] 970000 1 = Raise IndexError /\
  dgs_script insertion_sort case_files case_dates (lit "Atlantis") None true [lit "n"] [lit "d1"; lit "high"] 970000 1 = Raise TypeError /\
  dgs_script insertion_sort case_files case_dates (lit "Atlantis") None true [lit "n"] [lit "d1"; lit "d3"] 970000 1 = Raise FileNotFoundError.
Proof.
  assert (N : exists rows, read_nav case_files (lit "Atlantis") [lit "n"] 1 None None 0 = Ok (Table rows)).
  { destruct (C60_table case_files (lit "Atlantis") [lit "n"] 1 None None 0 gp [case_data] R1_neq_R0 (fun _ => case_ship) case_talker case_provided) as (rows & pre & E & _). exists rows. exact E. }
  destruct N as [rows E]. split; [|split; [|split]].
  - apply (C103_failures insertion_sort case_files case_dates (lit "Titanic") (Some gp) true [lit "n"] [lit "d1"] 970000 1 insertion_sort_sorts). apply C62_unknown_ship_case.
  - destruct (C103_failures insertion_sort case_files case_dates (lit "Atlantis") None true [lit "n"] [lit "d1"] 970000 1 insertion_sort_sorts) as (_ & _ & F).
    destruct (F rows E) as (_ & _ & F'). edestruct F' as [_ G]; [vm_compute; reflexivity|split; [apply nodupb_ok; reflexivity|split; [discriminate|repeat constructor]]|do 16 right; left; reflexivity|].
    edestruct (G [1709201733; 1709201731]%Q [1709201733000000; 1709201731000000]) as [_ I]; [reflexivity|repeat constructor; reflexivity|repeat (apply Forall_cons; [unfold in_calendar; lia|]); constructor|].
    apply (I [9800.25; 9800.75]%Q); [left; reflexivity|cbn; lia].
  - destruct (C103_failures insertion_sort case_files case_dates (lit "Atlantis") None true [lit "n"] [lit "d1"; lit "high"] 970000 1 insertion_sort_sorts) as (_ & _ & F).
    destruct (F rows E) as (_ & _ & F'). edestruct F' as [_ G]; [vm_compute; reflexivity|split; [apply nodupb_ok; reflexivity|split; [discriminate|repeat constructor]]|do 16 right; left; reflexivity|].
    edestruct (G [1709201733; 1709201731; 1709201734]%Q [1709201733000000; 1709201731000000; 1709201734000000]) as [I _]; [reflexivity|repeat constructor; reflexivity|repeat (apply Forall_cons; [unfold in_calendar; lia|]); constructor|].
    eapply I; [left; reflexivity|]. right. right. left. eexists. reflexivity.
  - destruct (C103_failures insertion_sort case_files case_dates (lit "Atlantis") None true [lit "n"] [lit "d1"; lit "d3"] 970000 1 insertion_sort_sorts) as (_ & _ & F).
    apply (F rows E). vm_compute. reflexivity.
Qed.
(** Positions: fixes at 10:15:30.25 and 31.25; the second one is used with the first for the reading at 31 and, beyond them, at 33. *)
Example C103_positions_case : exists rows nav idx T' faa full, read_nav case_files (lit "Atlantis") [lit "n"] 1 None None 0 = Ok (Table rows) /\ len rows = 2%nat /\ (nav = rows) /\
  dgs_script insertion_sort case_files case_dates (lit "Atlantis") None false [lit "n"] [lit "d1"; lit "d2"] 970000 1 = Ok (T', faa, full) /\ time_order case_us idx /\ len faa = 3%nat.
Proof.
  destruct case_meter as [T [Er M]].
  destruct (C103_positions insertion_sort case_files case_dates (lit "Atlantis") None gp false [lit "n"] [case_data] [lit "d1"; lit "d2"] T case_us _ 970000 1
    insertion_sort_sorts case_ship case_talker case_provided Er M ltac:(cbn; lia)) as (rows & nav & idx & T' & faa & full & E & En & _ & Es & O & _ & L & _).
  exists rows, nav, idx, T', faa, full. split; [exact E|]. split; [|split; [exact (En eq_refl)|split; [exact Es|split; [exact O|exact L]]]].
  destruct (C60_table case_files (lit "Atlantis") [lit "n"] 1 None None 0 gp [case_data] R1_neq_R0 (fun _ => case_ship) case_talker case_provided) as (rows' & pre & E' & St & Tm & _).
  assert (X : Table rows' = Table rows) by exact (f_equal (fun r => match r with Ok t => t | Raise _ => Refused end) (eq_trans (eq_sym E') E)).
  assert (rows' = rows) by congruence. subst rows'. rewrite <- (map_length time).
  replace (map time rows) with [at_time 30; at_time 31]; [reflexivity|]. apply (sorted_unique _ Z.lt); [intros; lia|intros; lia|repeat constructor; reflexivity|exact St|].
  intros t. rewrite Tm. split.
  - intros Ht. apply Exists_cons_hd. apply keeps_all. destruct Ht as [<-|[<-|[]]]; [right; left|left]; reflexivity.
  - intros HE. inversion HE as [f l Hk|f l HE']; subst; [|inversion HE']. apply keeps_all in Hk. destruct Hk as [<-|[<-|[]]]; [right; left|left]; reflexivity.
Qed.
