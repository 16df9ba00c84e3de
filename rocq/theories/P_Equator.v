(** Property C103: from files to the free-air anomaly of a ship sailing along the equator. *)
From Coq Require Import ZArith QArith Qround Reals Qreals Ascii String Bool Sorted Permutation Lra Lia List.
From Verif Require Import M_Py M_Np M_Str S_Str L_Str M_Cal S_Cal L_Cal L_Base M_Ini M_Corr M_Tide M_Nmea S_Nmea M_ReadNav S_ReadNav M_Table S_Table L_Table M_Bgm M_Dgs S_Corr S_Tide S_Faa
  M_Faa M_Nan L_Faa P_Faa P_Nan P_Nmea P_ReadNav M_Script S_Script L_Script L_Rows L_Dgs P_Dgs L_Dateline P_Script.
Import ListNotations.
Open Scope Z_scope.
Local Notation len := List.length.

Lemma parallel_nav fsys ship talker clean paths tk files y l0 q i0 : known_ship ship -> talker_for ship talker tk -> Forall2 (provides fsys ship tk None) paths files ->
  along_parallel files y l0 q i0 ->
  exists nav, script_nav fsys ship talker clean paths = Ok nav /\ ascending (map f_time nav) /\ (2 <= len nav)%nat /\
    Forall (fun f => f_lon f = Some (l0 + q * 180 / PI * (f_time f - IZR i0 / 1000000))%R /\ f_lat f = Some y) nav.
Proof.
  intros Hs Ht Hp (HF & (t1 & t2 & Ne & I1 & I2) & G).
  destruct (C60_table fsys ship paths 1 talker None 0 tk files R1_neq_R0 (fun _ => Hs) Ht Hp) as (rows & pre & E & St & Tm & Lp & Fs & Sm & _).
  assert (Kn : forall t, In t (map time rows) <-> Exists (fun f => In t (times f)) files).
  { intros t. rewrite Tm. split; intros X; (eapply Exists_impl; [|exact X]); intros f; apply keeps_all. }
  assert (P : forall k r, nth_error rows k = Some r -> nth_error pre k = Some (Some (steady_lon l0 q i0 (time r))) /\ fix_lat r = Some y).
  { intros k r Hr. destruct (Fs k r Hr) as (lon & Hl & [before f after i Ef _ _ [Fi _] Hlo Hla]).
    assert (If : In f files) by (rewrite Ef; apply in_or_app; right; left; reflexivity). rewrite Forall_forall in HF. destruct (HF f If i (time r) Fi) as [F1 F2].
    rewrite Hl. split; congruence. }
  assert (Rw : forall k, (k < len rows)%nat -> exists r, nth_error rows k = Some r) by (intros k Hk; destruct (nth_error rows k) as [r|] eqn:Er; [exists r; reflexivity|apply nth_error_None in Er; lia]).
  assert (J : forall k r s, nth_error rows k = Some r -> nth_error rows (S k) = Some s -> (Rabs (steady_lon l0 q i0 (time s) - steady_lon l0 q i0 (time r)) <= 1)%R).
  { intros k r s Hr Hs'. assert (L : time r < time s).
    { clear - St Hr Hs'. revert k Hr Hs'. induction rows as [|a rows IH]; intros [|k] Hr Hs'; cbn [nth_error] in *; try discriminate.
      - cbn [map] in St. apply StronglySorted_inv in St. destruct St as [_ F]. rewrite Forall_forall in F. assert (a = r) by congruence. subst a. apply F. apply in_map. exact (nth_error_In rows 0 Hs').
      - cbn [map] in St. apply StronglySorted_inv in St. exact (IH (proj1 St) k Hr Hs'). }
    destruct (G (time r) (time s)) as (t'' & K'' & L'' & B''); [apply Kn; apply in_map; exact (nth_error_In _ _ Hr)|apply Kn; apply in_map; exact (nth_error_In _ _ Hs')|exact L|].
    assert (L2 : time s <= t'').
    { apply Kn in K''. clear - St Hr Hs' K'' L''. revert k Hr Hs' K''. induction rows as [|a rows IH]; intros [|k] Hr Hs' K''; cbn [nth_error] in *; try discriminate; cbn [map] in *.
      - assert (a = r) by congruence. subst a. destruct K'' as [<-|K'']; [lia|]. destruct rows as [|b rows]; [discriminate|]. cbn [nth_error map] in *. assert (b = s) by congruence. subst b.
        apply StronglySorted_inv in St. destruct St as [St _]. apply StronglySorted_inv in St. destruct St as [_ F]. rewrite Forall_forall in F. destruct K'' as [<-|K'']; [lia|]. specialize (F _ K''). lia.
      - apply StronglySorted_inv in St. destruct St as [St F]. destruct K'' as [<-|K'']; [|exact (IH St k Hr Hs' K'')]. exfalso. rewrite Forall_forall in F.
        specialize (F (time r) (in_map _ _ _ (nth_error_In _ _ Hr))). lia. }
    unfold steady_lon. replace (l0 + q * 180 / PI * (IZR (time s - i0) / 1000000) - (l0 + q * 180 / PI * (IZR (time r - i0) / 1000000)))%R with (q * 180 / PI * (IZR (time s - time r) / 1000000))%R
      by (rewrite !minus_IZR; field; apply PI_neq0).
    eapply Rle_trans; [|exact B'']. rewrite !Rabs_mult. apply Rmult_le_compat_l; [apply Rabs_pos|].
    assert (0 < IZR (time s - time r) <= IZR (t'' - time r))%R by (split; [apply (IZR_lt 0); lia|apply IZR_le; lia]). rewrite !Rabs_pos_eq by lra. lra. }
  assert (Ep : map fix_lon rows = pre).
  { apply Sm. intros k a b Ha Hb. assert (k < len rows)%nat by (rewrite <- Lp; apply nth_error_Some; congruence). assert (S k < len rows)%nat by (rewrite <- Lp; apply nth_error_Some; congruence).
    destruct (Rw k) as [r Hr]; [assumption|]. destruct (Rw (S k)) as [s Hs']; [assumption|]. destruct (P k r Hr) as [Pr _]. destruct (P (S k) s Hs') as [Ps _].
    assert (a = steady_lon l0 q i0 (time r)) by congruence. assert (b = steady_lon l0 q i0 (time s)) by congruence. subst a b. exact (J k r s Hr Hs'). }
  assert (Lo : forall k r, nth_error rows k = Some r -> fix_lon r = Some (steady_lon l0 q i0 (time r))).
  { intros k r Hr. destruct (P k r Hr) as [H1 _]. rewrite <- Ep, nth_error_map, Hr in H1. cbn [option_map] in H1. congruence. }
  exists (map nav_fix rows). split; [|split; [|split]].
  - unfold script_nav. match goal with |- bind ?r _ = _ => replace r with (Ok (Table rows)) by (symmetry; exact E) end. cbn [bind]. destruct clean; [|reflexivity].
    f_equal. refine (without_none _ _ _ _ _ _ (C78_exact (map nav_fix rows))). intros k (a & b & Ea & Eb & L). rewrite map_map in Ea, Eb. cbn [nav_fix f_lon] in Ea, Eb.
    pose proof (some_nth _ _ _ _ Ea) as Hk1. pose proof (some_nth _ _ _ _ Eb) as Hk2. rewrite map_length in Hk1, Hk2. destruct (Rw k Hk1) as [r Hr]. destruct (Rw (S k) Hk2) as [s Hs'].
    rewrite (nth_error_nth _ k None (map_nth_error _ _ _ Hr)) in Ea. rewrite (nth_error_nth _ (S k) None (map_nth_error _ _ _ Hs')) in Eb.
    rewrite (Lo k r Hr) in Ea. rewrite (Lo (S k) s Hs') in Eb. pose proof (J k r s Hr Hs') as Jk. assert (a = steady_lon l0 q i0 (time r)) by congruence. assert (b = steady_lon l0 q i0 (time s)) by congruence. subst a b.
    pose proof (Rle_trans _ _ _ (Rle_abs _) Jk). lra.
  - rewrite map_map. cbn [nav_fix f_time]. rewrite <- (map_map time (fun t => IZR t / 1000000)%R). apply ascending_sorted. exact St.
  - rewrite map_length. rewrite <- (map_length time). apply (two_members _ t1 t2); [| |exact Ne]; apply Kn; assumption.
  - apply Forall_forall. intros f If. apply in_map_iff in If. destruct If as [r [<- Ir]]. apply In_nth_error in Ir. destruct Ir as [k Hk]. cbn [nav_fix f_lon f_lat f_time].
    rewrite (Lo k r Hk). split; [|exact (proj2 (P k r Hk))]. f_equal. unfold steady_lon. rewrite minus_IZR. field. apply PI_neq0.
Qed.

(** Instants at even intervals, put in order. *)
Lemma even_order us idx i0 step : 0 < step -> time_order us idx -> Permutation us (map (fun k => i0 + step * Z.of_nat k) (seq 0 (len us))) ->
  map (fun i => nth i us 0) idx = map (fun k => i0 + step * Z.of_nat k) (seq 0 (len us)).
Proof.
  intros Hst O Pu. destruct O as [O1 O2].
    assert (Pm : Permutation (map (fun i => nth i us 0) idx) us).
    { rewrite (Permutation_map _ O1). replace (map (fun i => nth i us 0) (seq 0 (len us))) with us; [reflexivity|].
      apply (nth_ext _ _ 0 0); [rewrite map_length, seq_length; reflexivity|]. intros k Hk. symmetry. apply nth_error_nth.
      apply (map_nth_error (fun i => nth i us 0)). rewrite (nth_error_nth' _ 0%nat) by (rewrite seq_length; exact Hk). rewrite seq_nth by exact Hk. reflexivity. }
    assert (Sr : StronglySorted Z.lt (map (fun k => i0 + step * Z.of_nat k) (seq 0 (len us)))).
    { generalize 0%nat. generalize (len us). clear - Hst. intros n. induction n as [|n IH]; intros s; cbn [seq map]; constructor; [apply IH|]. apply Forall_forall. intros z Hz. apply in_map_iff in Hz.
      destruct Hz as [k [<- Hk]]. apply in_seq in Hk. nia. }
    assert (Nd : NoDup (map (fun i => nth i us 0) idx)).
    { apply (Permutation_NoDup (Permutation_sym (Permutation_trans Pm Pu))). clear - Sr. induction Sr as [|z l S IH Fz]; constructor; [|exact IH]. intros I. rewrite Forall_forall in Fz. specialize (Fz z I). lia. }
    apply (sorted_unique _ Z.lt); [intros; lia|intros; lia| |exact Sr|].
    - clear - O2 Nd. induction O2 as [|i idx S IH Fi]; cbn [map] in *; constructor; [apply IH; inversion Nd; assumption|]. inversion Nd as [|? ? Ni _]; subst. apply Forall_forall. intros z Hz.
      apply in_map_iff in Hz. destruct Hz as [j [<- Hj]]. rewrite Forall_forall in Fi. specialize (Fi j Hj). assert (nth i us 0 <> nth j us 0); [|lia].
      intros X. apply Ni. rewrite X. apply in_map_iff. exists j. split; [reflexivity|exact Hj].
    - intros z. split; apply Permutation_in; [exact (Permutation_trans Pm Pu)|exact (Permutation_sym (Permutation_trans Pm Pu))].
Qed.

(** Sailing along the equator: readings at even intervals, rows and files in any order. *)
Theorem C103_equator : forall argsort fsys td ship talker tk clean nav_paths files dgs_paths T us gs bias l0 q i0 step,
  sorts argsort -> known_ship ship -> talker_for ship talker tk -> Forall2 (provides fsys ship tk None) nav_paths files -> along_parallel files 0 l0 q i0 ->
  read_dgs_laptop fsys td dgs_paths ship None = Ok (Some T) -> meter_table T us gs -> (3 <= len us)%nat ->
  0 < step -> Permutation us (map (fun k => i0 + step * Z.of_nat k) (seq 0 (len us))) ->
  exists idx T' faa full, dgs_script argsort fsys td ship talker clean nav_paths dgs_paths bias (1000000 / IZR step) = Ok (T', faa, full) /\
    rearranged idx T T' /\ Permutation idx (seq 0 (len us)) /\ len faa = len us /\
    forall k j c, nth_error idx k = Some j -> julian_centuries (i0 + step * Z.of_nat k) c ->
      let i := i0 + step * Z.of_nat k in let x := steady_lon l0 q i0 i in
      nth j us 0 = i /\
      nth_error faa k = Some (Some (Q2R (nth j gs 0%Q) + bias - 978032.53359 + ((q + earth_rate) ^ 2 - earth_rate ^ 2) * 6378137 * 100000
        + (lunar_tide c x 0 0 (utc_hours i) + solar_tide c x 0 0 (utc_hours i)))%R).
Proof.
  intros argsort fsys td ship talker tk clean nav_paths files dgs_paths T us gs bias l0 q i0 step So Hs Ht Hp Ha Hr M H3 Hst Pu.
  destruct (parallel_nav fsys ship talker clean nav_paths tk files 0 l0 q i0 Hs Ht Hp Ha) as (nav & En & A & H2 & F).
  destruct (script_meter_ok argsort T us gs So M) as (idx & T' & times & E & O & Rr & Ft).
  assert (Li : len idx = len us) by (destruct O as [O _]; apply Permutation_length in O; rewrite seq_length in O; exact O).
  assert (Lt : len times = len us). { pose proof (F2_len _ _ _ _ _ Ft) as L. rewrite map_length in L. lia. }
  set (rg := map (fun i => Q2R (nth i gs 0%Q)) idx) in E. assert (Lr : len rg = len us) by (unfold rg; rewrite map_length; exact Li).
  pose proof (even_order us idx i0 step Hst O Pu) as Eu.
  assert (Vk : forall k j, nth_error idx k = Some j -> nth j us 0 = i0 + step * Z.of_nat k).
  { intros k j Hk. assert (Hl : (k < len us)%nat) by (rewrite <- Li; apply nth_error_Some; congruence). pose proof (map_nth_error (fun i => nth i us 0) k idx Hk) as X. rewrite Eu in X.
    rewrite (nth_error_nth' _ 0) in X by (rewrite map_length, seq_length; exact Hl). rewrite (nth_indep _ 0 (i0 + step * Z.of_nat 0)) in X by (rewrite map_length, seq_length; exact Hl).
    rewrite (map_nth (fun k => i0 + step * Z.of_nat k)) in X. rewrite seq_nth in X by exact Hl. cbn [Nat.add] in X. congruence. }
  assert (Rs : (0 < IZR step)%R) by (apply (IZR_lt 0); exact Hst).
  assert (W : forall k j, nth_error idx k = Some j -> exists tm, nth_error times k = Some tm /\ utc_time tm (i0 + step * Z.of_nat k)).
  { intros k j Hk. destruct (Forall2_nth_error_l _ _ _ _ _ k (nth j us 0) Ft) as [tm [H1 H4]]; [rewrite nth_error_map, Hk; reflexivity|].
    exists tm. split; [exact H1|]. rewrite <- (Vk k j Hk). apply utc_of_time. exact H4. }
  assert (Hz : forall k, (IZR (i0 + step * Z.of_nat k) / 1000000 = IZR i0 / 1000000 + INR k / (1000000 / IZR step))%R).
  { intros k. rewrite plus_IZR, mult_IZR, <- INR_IZR_INZ. field. lra. }
  assert (Tz : forall j t, nth_error times j = Some t -> exists u, utc_time t u /\ (IZR u / 1000000 = IZR i0 / 1000000 + INR j / (1000000 / IZR step))%R).
  { intros k t Hk. assert (Hl : (k < len idx)%nat) by (rewrite Li, <- Lt; apply nth_error_Some; congruence). destruct (nth_error idx k) as [j|] eqn:Ej; [|apply nth_error_None in Ej; lia].
    destruct (W k j Ej) as (tm & Hm & Hu). assert (tm = t) by congruence. subst tm. eexists. split; [exact Hu|apply Hz]. }
  assert (Hsm : (1000000 / IZR step <> 0)%R) by (apply Rgt_not_eq; apply Rdiv_lt_0_compat; lra).
  destruct (nth_error idx 0) as [j0|] eqn:Ei; [|apply nth_error_None in Ei; lia].
  destruct (W 0%nat j0 Ei) as [tm0 [Ht0 Hu0]]. destruct (centuries (i0 + step * Z.of_nat 0)) as [c0 Hc0].
  destruct (C80_equator nav l0 q (IZR i0 / 1000000) rg times bias (1000000 / IZR step) (len us) 0 tm0 _ c0 A H2 Hsm F Lr Lt H3 Tz Ht0 Hu0 Hc0) as (faa & full & Ef & Lf & _).
  exists idx, T', (map Some faa), (map Some full). split; [|split; [exact Rr|split; [exact (proj1 O)|split; [rewrite map_length; exact Lf|]]]].
  - unfold dgs_script. rewrite En. cbn [bind]. rewrite Hr, E. cbn [bind]. unfold script_anomaly.
    rewrite (C94_complete nav rg times bias (1000000 / IZR step) (Ok (faa, full))); [reflexivity|lia|exact Ef].
  - intros k j c Hk Hc i x. split; [exact (Vk k j Hk)|]. destruct (W k j Hk) as [tm [Htm Hu]].
    destruct (C80_equator nav l0 q (IZR i0 / 1000000) rg times bias (1000000 / IZR step) (len us) k tm _ c A H2 Hsm F Lr Lt H3 Tz Htm Hu Hc) as (faa2 & full2 & Ef2 & _ & Hv).
    assert (faa2 = faa) by congruence. subst faa2. rewrite nth_error_map, Hv. cbn [option_map]. do 2 f_equal.
    replace (nth k rg 0%R) with (Q2R (nth j gs 0%Q)) by (symmetry; apply nth_error_nth; unfold rg; rewrite nth_error_map, Hk; reflexivity).
    replace (l0 + q * 180 / PI * (INR k / (1000000 / IZR step)))%R with x; [reflexivity|].
    unfold x, steady_lon, i. replace (i0 + step * Z.of_nat k - i0) with (step * Z.of_nat k) by ring. rewrite mult_IZR, <- INR_IZR_INZ. field. repeat split; try apply PI_neq0; lra.
Qed.
Print Assumptions C103_equator.

(** Two fixes on the equator a second and half a minute of longitude apart, the later one first; readings at 33, 31 and 32 seconds, in two files. *)
Definition eq_line (clock lon : string) : str := lit "NAV 2024/02/29 10:15:30 $GPGGA," ++ lit clock ++ lit ",0000.0,N," ++ lit lon ++ lit ",W,1" ++ [nl].
Definition eq_fields (clock lon : string) : list str := [lit clock; lit "0000.0"; lit "N"; lit lon; lit "W"; lit "1" ++ [nl]].
Definition eq_text : str := eq_line "101531.25" "07012.0" ++ eq_line "101530.25" "07012.5".
Definition eq_files (p : str) : option str :=
  if str_eqb p (lit "n") then Some eq_text else if str_eqb p (lit "d1") then Some (meter_line "9800.25" "33" ++ meter_line "9800.75" "31")
  else if str_eqb p (lit "d2") then Some (meter_line "9800.5" "32") else None.
Definition eq_lat : R := (1 * (IZR 0 + (IZR 0 + IZR 0 / 10 ^ 1) / 60))%R.
Definition eq_data : file_data := mk_data [at_time 31; at_time 30]
  [Some (-1 * (IZR 70 + (IZR 12 + IZR 0 / 10 ^ 1) / 60)); Some (-1 * (IZR 70 + (IZR 12 + IZR 5 / 10 ^ 1) / 60))]%R [Some eq_lat; Some eq_lat].
Lemma eq_lines : file_lines eq_text [eq_line "101531.25" "07012.0"; eq_line "101530.25" "07012.5"].
Proof.
  unfold eq_text, eq_line. rewrite <- !app_assoc.
  apply (fl_line (lit "NAV 2024/02/29 10:15:30 $GPGGA,101531.25,0000.0,N,07012.0,W,1")); [apply not_in_dec; reflexivity|].
  apply (fl_line (lit "NAV 2024/02/29 10:15:30 $GPGGA,101530.25,0000.0,N,07012.5,W,1") []); [apply not_in_dec; reflexivity|constructor].
Qed.
Lemma eq_sentence1 : sentence gp (eq_line "101531.25" "07012.0") at_pre (eq_fields "101531.25" "07012.0").
Proof. apply (mk_sentence gp at_pre (eq_fields "101531.25" "07012.0")); (discriminate || reflexivity). Qed.
Lemma eq_sentence2 : sentence gp (eq_line "101530.25" "07012.5") at_pre (eq_fields "101530.25" "07012.5").
Proof. apply (mk_sentence gp at_pre (eq_fields "101530.25" "07012.5")); (discriminate || reflexivity). Qed.
Lemma eq_file : nav_file (lit "Atlantis") gp [eq_line "101531.25" "07012.0"; eq_line "101530.25" "07012.5"] eq_data.
Proof.
  assert (Hsel : selected (occurs gp) [eq_line "101531.25" "07012.0"; eq_line "101530.25" "07012.5"] [eq_line "101531.25" "07012.0"; eq_line "101530.25" "07012.5"]).
  { apply sel_yes; [apply containsb_spec; reflexivity|]. apply sel_yes; [apply containsb_spec; reflexivity|constructor]. }
  apply (nf_intro _ _ _ _ _ (combine (lons eq_data) (lats eq_data)) gp_usable Hsel).
  - discriminate.
  - constructor; [|constructor; [|constructor]].
    + exists at_pre, (eq_fields "101531.25" "07012.0"). split; [exact eq_sentence1|]. left. do 2 eexists. split; [|reflexivity].
      apply (pos_intro _ _ _ (lit "101531.25") (lit "N") (lit "W") [lit "1" ++ [nl]] 1 (-1) 0 0 1 0 70 12 1 0); try lia; try reflexivity; constructor.
    + exists at_pre, (eq_fields "101530.25" "07012.5"). split; [exact eq_sentence2|]. left. do 2 eexists. split; [|reflexivity].
      apply (pos_intro _ _ _ (lit "101530.25") (lit "N") (lit "W") [lit "1" ++ [nl]] 1 (-1) 0 0 1 0 70 12 1 5); try lia; try reflexivity; constructor.
  - reflexivity.
  - reflexivity.
  - apply (S_ReadNav.sf_Atlantis _ _ _ _ Hsel). constructor; [|constructor; [|constructor]].
    + exists at_pre, (eq_fields "101531.25" "07012.0"), (2024, 2, 29), 10, 15, 31, 2%nat, 25, 25. split; [exact eq_sentence1|].
      split; [apply no_occ; reflexivity|]. split; [exact at_pre_date|].
      split; [split; [eexists; reflexivity|cbn; lia]|]. split; [split; [reflexivity|split; [lia|right; discriminate]]|]. apply at_stamp. lia.
    + exists at_pre, (eq_fields "101530.25" "07012.5"), (2024, 2, 29), 10, 15, 30, 2%nat, 25, 25. split; [exact eq_sentence2|].
      split; [apply no_occ; reflexivity|]. split; [exact at_pre_date|].
      split; [split; [eexists; reflexivity|cbn; lia]|]. split; [split; [reflexivity|split; [lia|right; discriminate]]|]. apply at_stamp. lia.
Qed.
Lemma eq_provided : Forall2 (provides eq_files (lit "Atlantis") gp None) [lit "n"] [eq_data].
Proof. constructor; [|constructor]. exists eq_text. eexists. split; [reflexivity|]. split; [exact eq_lines|exact eq_file]. Qed.
Definition eq_us : list Z := [1709201733000000; 1709201731000000; 1709201732000000].
Lemma eq_meter : exists T, read_dgs_laptop eq_files case_dates [lit "d1"; lit "d2"] (lit "Atlantis") None = Ok (Some T) /\
  meter_table T eq_us [9800.25; 9800.75; 9800.5]%Q.
Proof.
  eexists. split; [vm_compute; reflexivity|]. split; [|split; [|split]].
  - split; [apply nodupb_ok; reflexivity|]. split; [discriminate|]. repeat constructor.
  - exists [1709201733; 1709201731; 1709201732]%Q. split; [do 16 right; left; reflexivity|]. repeat constructor; reflexivity.
  - left. reflexivity.
  - repeat (apply Forall_cons; [unfold in_calendar; lia|]). constructor.
Qed.
Definition eq_q : R := (PI / 180 / 120)%R.
Definition eq_l0 : R := (-(70 + 12.5 / 60) + 0.75 / 120)%R.
Lemma at_times : at_time 30 = 1709201730250000 /\ at_time 31 = 1709201731250000.
Proof. split; vm_compute; reflexivity. Qed.
Lemma eq_along : along_parallel [eq_data] 0 eq_l0 eq_q 1709201731000000.
Proof.
  pose proof PI_neq0 as Np. destruct at_times as [E0 E1].
  assert (El : eq_lat = 0%R) by (unfold eq_lat; field).
  assert (Eq : (eq_q * 180 / PI = 1 / 120)%R) by (unfold eq_q; field; exact Np).
  split; [constructor; [|constructor]; intros k t Hk|split].
  - unfold steady_lon, eq_l0. rewrite Eq. destruct k as [|[|[|k]]]; cbn [times eq_data nth_error] in Hk; try discriminate; cbn [eq_data lons lats nth_error]; rewrite El;
    (split; [|reflexivity]); do 2 f_equal; [assert (t = 1709201731250000) by congruence|assert (t = 1709201730250000) by congruence]; subst t;
      [change (1709201731250000 - 1709201731000000)%Z with 250000|change (1709201730250000 - 1709201731000000)%Z with (-750000)]; lra.
  - exists (at_time 31), (at_time 30). split; [rewrite E0, E1; discriminate|]. split; constructor; [left|right; left]; reflexivity.
  - intros t t' K K' L. exists (at_time 31). split; [constructor; left; reflexivity|].
    assert (B : forall t, Exists (fun f => In t (times f)) [eq_data] -> t = at_time 31 \/ t = at_time 30).
    { intros u X. inversion X as [f l Hi|f l Hi]; subst; [|inversion Hi]. destruct Hi as [<-|[<-|[]]]; [left|right]; reflexivity. }
    assert (t = at_time 30) by (destruct (B t K), (B t' K'); subst; rewrite ?E0, ?E1 in *; lia). subst t. split; [rewrite E0, E1; lia|]. rewrite E0, E1, Eq.
    change (1709201731250000 - 1709201730250000)%Z with 1000000. rewrite Rabs_pos_eq; lra.
Qed.
Lemma three_of (A : Type) (l : list A) : len l = 3%nat -> exists a b c, l = [a; b; c].
Proof. destruct l as [|a [|b [|c [|? ?]]]]; try discriminate. intros _. exists a, b, c. reflexivity. Qed.
Example C103_equator_case : forall c, julian_centuries 1709201731000000 c -> exists T' a b d full,
  dgs_script insertion_sort eq_files case_dates (lit "Atlantis") None true [lit "n"] [lit "d1"; lit "d2"] 970000 1 = Ok (T', [Some a; b; d], full) /\
  (a = 9800.75 + 970000 - 978032.53359 + ((eq_q + earth_rate) ^ 2 - earth_rate ^ 2) * 6378137 * 100000
        + (lunar_tide c eq_l0 0 0 (utc_hours 1709201731000000) + solar_tide c eq_l0 0 0 (utc_hours 1709201731000000)))%R.
Proof.
  intros c Hc. destruct eq_meter as [T [Er M]].
  destruct (C103_equator insertion_sort eq_files case_dates (lit "Atlantis") None gp true [lit "n"] [eq_data] [lit "d1"; lit "d2"] T eq_us _ 970000 eq_l0 eq_q 1709201731000000 1000000
    insertion_sort_sorts case_ship case_talker eq_provided eq_along Er M ltac:(cbn; lia) eq_refl) as (idx & T' & faa & full & E & _ & P & L & V).
  { apply (Permutation_trans (perm_swap _ _ _)). apply perm_skip. apply perm_swap. }
  replace (1000000 / IZR 1000000)%R with 1%R in E by field. change (len eq_us) with 3%nat in *.
  destruct (three_of _ idx (Permutation_length P)) as (j & j1 & j2 & Ei). destruct (three_of _ faa L) as (fa & fb & fd & Ea). subst idx faa.
  destruct (V 0%nat j c eq_refl Hc) as [V1 V2]. assert (Hj : (j < 3)%nat).
  { assert (I : In j [j; j1; j2]) by (left; reflexivity). apply (Permutation_in _ P) in I. apply in_seq in I. lia. }
  assert (Ej : j = 1%nat) by (clear - V1 Hj; destruct j as [|[|[|j]]]; cbn [nth eq_us] in V1; lia). subst j.
  cbn [nth_error] in V2. assert (V3 := f_equal (fun o => match o with Some x => x | None => None end) V2). cbn beta iota in V3. rewrite V3 in E.
  do 5 eexists. split; [exact E|]. change (Z.of_nat 0) with 0. rewrite Z.mul_0_r, Z.add_0_r.
  replace (steady_lon eq_l0 eq_q 1709201731000000 1709201731000000) with eq_l0 by (unfold steady_lon; rewrite Z.sub_diag; field; apply PI_neq0).
  cbn [nth]. lra.
Qed.
