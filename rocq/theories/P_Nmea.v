(** Properties C54-C59: positions, clocks and dates of navigation lines. *)
From Coq Require Import ZArith Reals Ascii String Bool Lia Lra List.
From Verif Require Import M_Py L_Base M_Str S_Str L_Str M_Cal S_Cal L_Cal M_Nmea S_Nmea L_Nmea L_Nav2 L_Revelle.
Import ListNotations.
Open Scope Z_scope.

(** ** Concrete lines for the examples *)
Definition gp : str := lit "GPGGA".
Definition inn : str := lit "INGGA".
Lemma gp_usable : usable gp.
Proof. split; [discriminate|apply unborderedb_ok; reflexivity]. Qed.
Lemma in_usable : usable inn.
Proof. split; [discriminate|apply unborderedb_ok; reflexivity]. Qed.
Lemma no_occ a b : containsb a b = false -> ~ occurs a b.
Proof. apply containsb_false. Qed.
Lemma not_in_dec c (s : str) : in_set s c = false -> ~ In c s.
Proof.
  unfold in_set. intros H Hin. assert (existsb (Ascii.eqb c) s = true) by (apply existsb_exists; exists c; split; [exact Hin|apply ascii_eqb_refl]).
  congruence.
Qed.

(** a sentence from its parts *)
Lemma mk_sentence talker pre fields : fields <> [] -> forallb (fun f => negb (in_set f comma)) fields = true ->
  containsb talker (comma :: join [comma] fields) = false ->
  sentence talker (pre ++ talker ++ comma :: join [comma] fields) pre fields.
Proof.
  intros H1 H2 H3. apply (sen_comma _ _ _ _ []); [constructor|exact H1| |apply no_occ; exact H3|reflexivity].
  apply Forall_forall. intros f Hf. rewrite forallb_forall in H2. apply not_in_dec. specialize (H2 f Hf). apply negb_true_iff in H2. exact H2.
Qed.

(** ** C54: positions *)
Theorem C54_positions : forall talker allnav sub rows, usable talker -> selected (occurs talker) allnav sub ->
  Forall2 (fun ln r => exists pre fields, sentence talker ln pre fields /\ position fields (fst r) (snd r)) sub rows ->
  navcoords allnav talker = Ok (map (fun r => Some (fst r)) rows, map (fun r => Some (snd r)) rows).
Proof.
  intros talker allnav sub rows Hu Hs H.
  rewrite (navcoords_read talker allnav sub (map (fun r => (Some (fst r), Some (snd r))) rows) Hu Hs).
  - rewrite !map_map. reflexivity.
  - clear Hs. induction H as [|ln r sub rows [pre [fields [H1 H2]]] _ IH]; cbn [map]; constructor; [|exact IH].
    exists pre, fields. split; [exact H1|]. left. exists (fst r), (snd r). split; [exact H2|reflexivity].
Qed.
Print Assumptions C54_positions.

(** two fixes in the four hemispheres with another line between them *)
Definition ex_fields1 : list str := [lit "101530.25"; lit "4112.3456"; lit "N"; lit "07012.5"; lit "W"; lit "1"].
Definition ex_fields2 : list str := [lit "101531.25"; lit "0530"; lit "S"; lit "17959.999"; lit "E"].
Definition ex_line1 : str := lit "NAV 2023/06/12 $" ++ gp ++ comma :: join [comma] ex_fields1.
Definition ex_line2 : str := lit "NAV 2023/06/12 $" ++ gp ++ comma :: join [comma] ex_fields2.
Example C54_positions_case : navcoords [ex_line1; lit "$GPVTG,1,2"; ex_line2] gp =
  Ok ([Some (-1 * (IZR 70 + (IZR 12 + IZR 5 / 10 ^ 1) / 60)); Some (1 * (IZR 179 + (IZR 59 + IZR 999 / 10 ^ 3) / 60))],
      [Some (1 * (IZR 41 + (IZR 12 + IZR 3456 / 10 ^ 4) / 60)); Some (-1 * (IZR 5 + (IZR 30 + IZR 0 / 10 ^ 0) / 60))])%R.
Proof.
  apply (C54_positions gp _ [ex_line1; ex_line2]
    [((-1 * (IZR 70 + (IZR 12 + IZR 5 / 10 ^ 1) / 60)), (1 * (IZR 41 + (IZR 12 + IZR 3456 / 10 ^ 4) / 60)));
     ((1 * (IZR 179 + (IZR 59 + IZR 999 / 10 ^ 3) / 60)), (-1 * (IZR 5 + (IZR 30 + IZR 0 / 10 ^ 0) / 60)))]%R gp_usable).
  - apply sel_yes; [apply containsb_spec; reflexivity|]. apply sel_no; [apply no_occ; reflexivity|].
    apply sel_yes; [apply containsb_spec; reflexivity|constructor].
  - repeat constructor.
    + exists (lit "NAV 2023/06/12 $"), ex_fields1. split; [apply mk_sentence; (discriminate || reflexivity)|].
      apply (pos_intro ex_fields1 _ _ (lit "101530.25") (lit "N") (lit "W") [lit "1"] 1 (-1) 41 12 4 3456 70 12 1 5); try lia; try reflexivity; constructor.
    + exists (lit "NAV 2023/06/12 $"), ex_fields2. split; [apply mk_sentence; (discriminate || reflexivity)|].
      apply (pos_intro ex_fields2 _ _ (lit "101531.25") (lit "S") (lit "E") [] (-1) 1 5 30 0 0 179 59 3 999); try lia; try reflexivity; constructor.
Qed.

(** a talker line that ends before the position raises *)
Theorem C54_short_line_raises : forall talker allnav sub1 ln sub2 rows pre fields, usable talker ->
  selected (occurs talker) allnav (sub1 ++ ln :: sub2) -> Forall2 (fix_read talker) sub1 rows ->
  sentence talker ln pre fields -> (length fields < 2)%nat \/ (length fields < 4)%nat /\ nth 1 fields [] <> [] ->
  navcoords allnav talker = Raise IndexError.
Proof.
  intros talker allnav sub1 ln sub2 rows pre fields Hu Hs H Hsen Hf. unfold navcoords. rewrite (talker_lines_selected _ _ _ Hs).
  rewrite (mapM_raise _ _ _ sub1 ln IndexError sub2 rows); [reflexivity| |].
  - apply mapM_Forall2. eapply Forall2_weaken; [|exact H]. intros l r [p [fl [H1 H2]]].
    rewrite (sentence_fields _ _ _ _ Hu H1). cbn [bind].
    destruct H2 as [[lon [lat [Hp ->]]]|[Hp ->]]; [apply position_coord|apply no_position_coord]; exact Hp.
  - rewrite (sentence_fields _ _ _ _ Hu Hsen). cbn [bind]. unfold nav_coord, getr.
    destruct fields as [|f0 [|f1 [|f2 [|f3 fs]]]]; cbn [length nth] in Hf; cbn [nth_error bind]; try reflexivity;
      try (destruct Hf as [Hf|[Hf Hn]]; [lia|]); try lia;
      (replace (str_eqb f1 []) with false by (symmetry; apply str_eqb_neq; exact Hn)); reflexivity.
Qed.
Print Assumptions C54_short_line_raises.
Example C54_short_line_case : navcoords [ex_line1; lit "$GPGGA,101530.25,41"] gp = Raise IndexError.
Proof.
  apply (C54_short_line_raises gp _ [ex_line1] (lit "$GPGGA,101530.25,41") []
    [(Some (-1 * (IZR 70 + (IZR 12 + IZR 5 / 10 ^ 1) / 60)), Some (1 * (IZR 41 + (IZR 12 + IZR 3456 / 10 ^ 4) / 60)))]%R (lit "$") [lit "101530.25"; lit "41"] gp_usable).
  - repeat (apply sel_yes; [apply containsb_spec; reflexivity|]). constructor.
  - repeat constructor. exists (lit "NAV 2023/06/12 $"), ex_fields1. split; [apply mk_sentence; (discriminate || reflexivity)|].
    left. eexists. eexists. split; [|reflexivity].
    apply (pos_intro ex_fields1 _ _ (lit "101530.25") (lit "N") (lit "W") [lit "1"] 1 (-1) 41 12 4 3456 70 12 1 5); try lia; try reflexivity; constructor.
  - apply (mk_sentence gp (lit "$") [lit "101530.25"; lit "41"]); (discriminate || reflexivity).
  - right. split; [cbn; lia|discriminate].
Qed.

(** ** C55: missing positions *)
Theorem C55_missing_positions : forall talker allnav sub rows, usable talker -> selected (occurs talker) allnav sub ->
  Forall2 (fix_read talker) sub rows -> navcoords allnav talker = Ok (map fst rows, map snd rows).
Proof. exact navcoords_read. Qed.
Print Assumptions C55_missing_positions.
Example C55_missing_case : navcoords [lit "$GPGGA,101529.25,,,,,0"; ex_line2; lit "$GPGGA,101532.25,0530,S,,E"] gp =
  Ok ([None; Some (1 * (IZR 179 + (IZR 59 + IZR 999 / 10 ^ 3) / 60)); None],
      [None; Some (-1 * (IZR 5 + (IZR 30 + IZR 0 / 10 ^ 0) / 60)); None])%R.
Proof.
  apply (C55_missing_positions gp _ [lit "$GPGGA,101529.25,,,,,0"; ex_line2; lit "$GPGGA,101532.25,0530,S,,E"]
    [(None, None); (Some (1 * (IZR 179 + (IZR 59 + IZR 999 / 10 ^ 3) / 60)), Some (-1 * (IZR 5 + (IZR 30 + IZR 0 / 10 ^ 0) / 60))); (None, None)]%R gp_usable).
  - repeat (apply sel_yes; [apply containsb_spec; reflexivity|]). constructor.
  - repeat constructor.
    + exists (lit "$"), [lit "101529.25"; []; []; []; []; lit "0"].
      split; [apply (mk_sentence gp (lit "$") [lit "101529.25"; []; []; []; []; lit "0"]); (discriminate || reflexivity)|].
      right. split; [|reflexivity]. left. eexists. eexists. reflexivity.
    + exists (lit "NAV 2023/06/12 $"), ex_fields2. split; [apply mk_sentence; (discriminate || reflexivity)|]. left. eexists. eexists. split; [|reflexivity].
      apply (pos_intro ex_fields2 _ _ (lit "101531.25") (lit "S") (lit "E") [] (-1) 1 5 30 0 0 179 59 3 999); try lia; try reflexivity; constructor.
    + exists (lit "$"), [lit "101532.25"; lit "0530"; lit "S"; []; lit "E"].
      split; [apply (mk_sentence gp (lit "$") [lit "101532.25"; lit "0530"; lit "S"; []; lit "E"]); (discriminate || reflexivity)|].
      right. split; [|reflexivity]. right. do 4 eexists. reflexivity.
Qed.

(** ** C56: the clock *)
Theorem C56_two_decimals : forall talker allnav sub rows, usable talker -> selected (occurs talker) allnav sub ->
  Forall2 (fun ln r => let '(h, mi, s, us) := r in exists pre fields k f c, sentence talker ln pre fields /\
    shows_clock fields h mi s k f /\ hundredths k f c /\ us * 10 ^ Z.of_nat k = f * 1000000) sub rows ->
  clock_time allnav talker = Ok rows.
Proof.
  intros talker allnav sub rows Hu Hs H. unfold clock_time. rewrite (talker_lines_selected _ _ _ Hs). apply mapM_Forall2.
  eapply Forall2_weaken; [|exact H]. intros ln [[[h mi] s] us] [pre [fields [k [f [c [H1 [H2 [H3 H4]]]]]]]].
  rewrite (clock_hundredths _ _ _ _ _ _ _ _ _ _ Hu H1 H2 H3). destruct H3 as [E _].
  assert (0 < 10 ^ Z.of_nat k) by (apply Z.pow_pos_nonneg; lia). do 2 f_equal. nia.
Qed.
Print Assumptions C56_two_decimals.
Example C56_two_decimals_case : clock_time [lit "$GPGGA,235959.250,"; lit "$INGGA,0"; lit "x$GPGGA 000000,"] gp =
  Ok [(23, 59, 59, 250000); (0, 0, 0, 0)].
Proof.
  apply (C56_two_decimals gp _ [lit "$GPGGA,235959.250,"; lit "x$GPGGA 000000,"] _ gp_usable).
  - apply sel_yes; [apply containsb_spec; reflexivity|]. apply sel_no; [apply no_occ; reflexivity|].
    apply sel_yes; [apply containsb_spec; reflexivity|constructor].
  - repeat constructor.
    + exists (lit "$"), [lit "235959.250"; []], 3%nat, 250, 25. split; [apply (mk_sentence gp (lit "$") [lit "235959.250"; []]); (discriminate || reflexivity)|].
      split; [split; [eexists; reflexivity|cbn; lia]|]. split; [split; [reflexivity|split; [lia|right; discriminate]]|reflexivity].
    + exists (lit "x$"), [lit "000000"; []], 0%nat, 0, 0. split.
      * apply (sen_direct _ _ _ _ [" "%char] "0"%char (lit "00000") [[]]); [repeat constructor; apply is_space_spec; reflexivity|reflexivity| | | |reflexivity].
        -- apply is_space_false. reflexivity.
        -- repeat constructor; apply not_in_dec; reflexivity.
        -- apply no_occ. reflexivity.
      * split; [split; [eexists; reflexivity|cbn; lia]|]. split; [split; [reflexivity|split; [lia|left; reflexivity]]|reflexivity].
Qed.

(** What is read for any fraction g/10^n (lowest terms): g hundredths, right only for n = 2. *)
Theorem C56_right_iff_two_decimals : forall talker allnav ln pre fields h mi s k f g n, usable talker ->
  selected (occurs talker) allnav [ln] -> sentence talker ln pre fields -> shows_clock fields h mi s k f ->
  f <> 0 -> lowest k f g n -> readable s k f ->
  exists us, clock_time allnav talker = Ok [(h, mi, s, us)] /\ us = g * 10000 /\
    (us * 10 ^ Z.of_nat k = f * 1000000 <-> n = 2%nat).
Proof.
  intros talker allnav ln pre fields h mi s k f g n Hu Hs Hsen Hc Hf Hl [Hk Hr].
  pose proof Hc as [_ [_ [_ [Rs Rf]]]]. pose proof Hl as [Hn [E Hg]].
  assert (P : forall j, 0 < 10 ^ Z.of_nat j) by (intros j; apply Z.pow_pos_nonneg; lia).
  pose proof (P k) as Pk. pose proof (P (k - n)%nat) as Pkn.
  assert (Hg0 : 0 < g) by nia.
  assert (Hb : g * 10000 < 2 ^ 63).
  { assert (10 ^ Z.of_nat k <= 10 ^ 14) by (apply Z.pow_le_mono_r; lia). change (10 ^ 14) with 100000000000000 in *.
    change (2 ^ 63) with 9223372036854775808. nia. }
  exists (g * 10000). split; [|split; [reflexivity|]].
  - unfold clock_time. rewrite (talker_lines_selected _ _ _ Hs). cbn [mapM].
    rewrite (clock_line_val talker ln pre fields h mi s k f (g * 10000) Hu Hsen Hc); [reflexivity|].
    apply (split_seconds_val s k f g n); try assumption; try lia.
  - rewrite E. assert (Ek : 10 ^ Z.of_nat k = 10 ^ Z.of_nat n * 10 ^ Z.of_nat (k - n)).
    { rewrite <- Z.pow_add_r by lia. f_equal. lia. }
    rewrite Ek. split.
    + intros H. assert (Hp : 10 ^ Z.of_nat n = 10 ^ 2) by nia.
      apply Z.pow_inj_r in Hp; lia.
    + intros ->. change (10 ^ Z.of_nat 2) with 100. ring.
Qed.
Print Assumptions C56_right_iff_two_decimals.
Example C56_iff_case : exists us, clock_time [lit "$GPGGA,120000.012,"] gp = Ok [(12, 0, 0, us)] /\ us = 120000 /\ (us * 1000 = 12 * 1000000 <-> 3%nat = 2%nat).
Proof.
  apply (C56_right_iff_two_decimals gp _ (lit "$GPGGA,120000.012,") (lit "$") [lit "120000.012"; []] 12 0 0 3 12 12 3 gp_usable).
  - apply sel_yes; [apply containsb_spec; reflexivity|constructor].
  - apply (mk_sentence gp (lit "$") [lit "120000.012"; []]); (discriminate || reflexivity).
  - split; [eexists; reflexivity|cbn; lia].
  - discriminate.
  - split; [lia|]. split; [reflexivity|discriminate].
  - split; [lia|right; right; cbn; lia].
Qed.

(** 0.2 s is read as 0.02 s *)
Theorem C56_one_decimal_refuted : exists talker allnav ln pre fields h mi s k f us, usable talker /\
  selected (occurs talker) allnav [ln] /\ sentence talker ln pre fields /\ shows_clock fields h mi s k f /\
  clock_time allnav talker = Ok [(h, mi, s, us)] /\ us * 10 ^ Z.of_nat k <> f * 1000000.
Proof.
  exists gp, [lit "$GPGGA,120000.2,"], (lit "$GPGGA,120000.2,"), (lit "$"), [lit "120000.2"; []], 12, 0, 0, 1%nat, 2, 20000.
  split; [exact gp_usable|]. split; [apply sel_yes; [apply containsb_spec; reflexivity|constructor]|].
  split; [apply (mk_sentence gp (lit "$") [lit "120000.2"; []]); (discriminate || reflexivity)|].
  split; [split; [eexists; reflexivity|cbn; lia]|]. split; [vm_compute; reflexivity|cbn; lia].
Qed.
Print Assumptions C56_one_decimal_refuted.

(** a fraction that needs three digits (0.123 s) makes the Atlantis and Palmer readers raise *)
Theorem C56_three_digits_raise : forall talker allnav ln pre fields t h mi s k f g n, usable talker ->
  selected (occurs talker) allnav [ln] -> sentence talker ln pre fields -> ~ occurs talker pre -> shows_clock fields h mi s k f ->
  f <> 0 -> lowest k f g n -> readable s k f -> 100 <= g ->
  (Atlantis_date pre t -> navdate_Atlantis allnav talker = Raise (if g * 10000 <? 2 ^ 31 then ValueError else OverflowError)) /\
  (NBP_date pre t -> navdate_NBP allnav talker = Raise ValueError).
Proof.
  intros talker allnav ln pre fields t h mi s k f g n Hu Hs Hsen Hp Hc Hf Hl Hr Hg.
  destruct (C56_right_iff_two_decimals talker allnav ln pre fields h mi s k f g n Hu Hs Hsen Hc Hf Hl Hr) as [us [Hcl [-> _]]].
  assert (D : forall F e, F pre (h, mi, s, g * 10000) = Raise e -> dated allnav talker F = Raise e).
  { intros F e HF. unfold dated. rewrite Hcl. cbn [bind]. rewrite (talker_lines_selected _ _ _ Hs). cbn [combine mapM fst snd].
    rewrite (sentence_pre _ _ _ _ Hu Hsen Hp). cbn [bind]. rewrite HF. reflexivity. }
  destruct Hc as [_ [Rh [Rm [Rs _]]]]. split.
  - intros [a b y m d E Ho Hy Hd]. apply D.
    destruct (search (pmatch pat_Atlantis) pre) as [gr|e] eqn:Es.
    + pose proof (instant_local y m d h mi s 0 (Some 0) Hd) as Hi.
      pose proof (Atlantis_search pre (y, m, d) h mi s 0 _ (at_date pre a b y m d E Ho Hy Hd) Rh Rm Rs ltac:(lia) Hi) as H0.
      rewrite Es in H0. cbn [bind] in H0 |- *. cbv zeta in H0 |- *. unfold dt_us in *.
      assert (C : forallb c_int [zth (ints (fst gr)) 0; zth (ints (fst gr)) 1; zth (ints (fst gr)) 2; h; mi; s; g * 10000] = (g * 10000 <? 2 ^ 31)).
      { destruct (forallb c_int [_; _; _; h; mi; s; 0]) eqn:C0 in H0; [|discriminate]. revert C0. cbn [forallb]. rewrite !andb_true_r.
        repeat rewrite andb_true_iff. intros [-> [-> [-> [-> [-> ->]]]]]. cbn [andb]. unfold c_int.
        destruct (Z.leb_spec (- 2 ^ 31) (g * 10000)) as [|H]; [reflexivity|change (2 ^ 31) with 2147483648 in H; lia]. }
      rewrite C. destruct (g * 10000 <? 2 ^ 31); [|reflexivity].
      destruct (datetime_new _ _ _ _ _ _ (g * 10000) _) as [x|e] eqn:Ed.
      * apply datetime_new_inv in Ed. lia.
      * cbn [bind]. unfold datetime_new in Ed. destruct (_ && _) in Ed; [discriminate|]. injection Ed as <-. reflexivity.
    + exfalso. pose proof (instant_local y m d h mi s 0 (Some 0) Hd) as Hi.
      pose proof (Atlantis_search pre (y, m, d) h mi s 0 _ (at_date pre a b y m d E Ho Hy Hd) Rh Rm Rs ltac:(lia) Hi) as H0.
      rewrite Es in H0. discriminate.
  - intros Hd. apply D. destruct (search match_NBP pre) as [gr|e] eqn:Es.
    + cbn [bind]. cbv zeta. unfold doy_us. replace (g * 10000 <=? 999999) with false by (symmetry; apply Z.leb_gt; lia).
      rewrite !andb_false_r. reflexivity.
    + exfalso. assert (Hv : valid_date t).
      { destruct Hd as [a b yy w doy t' _ _ _ _ _ _ [m [Hd _]]]. eapply days_after_valid; [|exact Hd]. apply valid_date_iff. unfold days_in_month. cbn. lia. }
      destruct t as [[y m] d]. pose proof (instant_local y m d h mi s 0 (Some 0) Hv) as Hi.
      pose proof (NBP_search pre _ h mi s 0 _ Hd Rh Rm Rs ltac:(lia) Hi) as H0. rewrite Es in H0. discriminate.
Qed.
Print Assumptions C56_three_digits_raise.
Example C56_three_digits_case : navdate_Atlantis [lit "NAV 2023/06/12 $GPGGA,120000.123,"] gp = Raise ValueError.
Proof. vm_compute. reflexivity. Qed.

(** ** C57: instants *)
Theorem C57_Atlantis : forall talker allnav sub is, usable talker -> selected (occurs talker) allnav sub ->
  Forall2 (stamped Atlantis_date talker) sub is -> navdate_Atlantis allnav talker = Ok (map Some is).
Proof. exact Atlantis_times. Qed.
Print Assumptions C57_Atlantis.

Lemma valid_dec y m d : (1 <=? m) && (m <=? 12) && (1 <=? d) && (d <=? days_in_month y m) = true -> valid_date (y, m, d).
Proof. rewrite !andb_true_iff, !Z.leb_le. intros H. apply valid_date_iff. lia. Qed.

(** the leap day, with a clock of hundredths *)
Example C57_Atlantis_case : exists i, instant (2024, 2, 29) 23 59 59 250000 i /\
  navdate_Atlantis [lit "x NAV 2024/02/29 23:59:59 $GPGGA,235959.25,"; lit "NAV 2023/06/12 $GPVTG"] gp = Ok [Some i].
Proof.
  exists (local_us (mk_datetime 2024 2 29 23 59 59 250000 (Some 0))).
  assert (V : valid_date (2024, 2, 29)) by (apply valid_dec; reflexivity).
  pose proof (instant_local 2024 2 29 23 59 59 250000 (Some 0) V) as I. split; [exact I|].
  apply (C57_Atlantis gp _ [lit "x NAV 2024/02/29 23:59:59 $GPGGA,235959.25,"] [_] gp_usable).
  - apply sel_yes; [apply containsb_spec; reflexivity|]. apply sel_no; [apply no_occ; reflexivity|constructor].
  - repeat constructor. exists (lit "x NAV 2024/02/29 23:59:59 $"), [lit "235959.25"; []], (2024, 2, 29), 23, 59, 59, 2%nat, 25, 25.
    split; [apply (mk_sentence gp (lit "x NAV 2024/02/29 23:59:59 $") [lit "235959.25"; []]); (discriminate || reflexivity)|].
    split; [apply no_occ; reflexivity|].
    split; [apply (at_date _ (lit "x ") (lit " 23:59:59 $")); [reflexivity|apply no_occ; reflexivity|lia|exact V]|].
    split; [split; [eexists; reflexivity|cbn; lia]|]. split; [split; [reflexivity|split; [lia|right; discriminate]]|]. exact I.
Qed.

Theorem C57_NBP : forall talker allnav sub is, usable talker -> selected (occurs talker) allnav sub ->
  Forall2 (stamped NBP_date talker) sub is -> navdate_NBP allnav talker = Ok (map Some is).
Proof. exact NBP_times. Qed.
Print Assumptions C57_NBP.

(** day of year from the ordinal *)
Lemma doy_of y doy t : valid_date t -> ord t = ymd2ord y 1 1 + doy - 1 -> 1 <= doy -> day_of_year y doy t.
Proof.
  intros Hv E Hd. assert (V0 : valid_date (y, 1, 1)) by (apply valid_dec; reflexivity).
  destruct (days_after_total (y, 1, 1) (Z.to_nat (doy - 1)) V0) as [u Hu].
  exists (Z.to_nat (doy - 1)). split; [|lia]. replace t with u; [exact Hu|].
  apply ord_inj; [eapply days_after_valid; eassumption|exact Hv|]. rewrite (days_after_ord _ _ _ Hu), E. cbn [ord]. lia.
Qed.
(** day 60 of a leap year, written with two and with three digits *)
Example C57_NBP_case : exists i, instant (2024, 2, 29) 1 2 3 250000 i /\
  navdate_NBP [lit "24+60:01:02:03 $GPGGA,010203.25,"; lit "24+060:01:02:03 $GPGGA,010203.25,"] gp = Ok [Some i; Some i].
Proof.
  exists (local_us (mk_datetime 2024 2 29 1 2 3 250000 (Some 0))).
  assert (V : valid_date (2024, 2, 29)) by (apply valid_dec; reflexivity).
  assert (Y : day_of_year (2000 + 24) 60 (2024, 2, 29)) by (apply doy_of; [exact V|vm_compute; reflexivity|lia]).
  pose proof (instant_local 2024 2 29 1 2 3 250000 (Some 0) V) as I. split; [exact I|].
  apply (C57_NBP gp _ [lit "24+60:01:02:03 $GPGGA,010203.25,"; lit "24+060:01:02:03 $GPGGA,010203.25,"] [_; _] gp_usable).
  - repeat (apply sel_yes; [apply containsb_spec; reflexivity|]). constructor.
  - repeat constructor.
    + exists (lit "24+60:01:02:03 $"), [lit "010203.25"; []], (2024, 2, 29), 1, 2, 3, 2%nat, 25, 25.
      split; [apply (mk_sentence gp (lit "24+60:01:02:03 $") [lit "010203.25"; []]); (discriminate || reflexivity)|].
      split; [apply no_occ; reflexivity|].
      split; [apply (nbp_date _ [] (lit "01:02:03 $") 24 2 60); [reflexivity|intros []|tauto|lia|cbn; lia|lia|exact Y]|].
      split; [split; [eexists; reflexivity|cbn; lia]|]. split; [split; [reflexivity|split; [lia|right; discriminate]]|]. exact I.
    + exists (lit "24+060:01:02:03 $"), [lit "010203.25"; []], (2024, 2, 29), 1, 2, 3, 2%nat, 25, 25.
      split; [apply (mk_sentence gp (lit "24+060:01:02:03 $") [lit "010203.25"; []]); (discriminate || reflexivity)|].
      split; [apply no_occ; reflexivity|].
      split; [apply (nbp_date _ [] (lit "01:02:03 $") 24 3 60); [reflexivity|intros []|tauto|lia|cbn; lia|lia|exact Y]|].
      split; [split; [eexists; reflexivity|cbn; lia]|]. split; [split; [reflexivity|split; [lia|right; discriminate]]|]. exact I.
Qed.

(** Thompson: to the second; the fraction of the second is dropped *)
Theorem C57_Thompson_seconds : forall talker allnav sub is, usable talker -> selected (occurs talker) allnav sub ->
  Forall2 (stamped_seconds Thompson_date talker) sub is -> navdate_Thompson allnav talker = Ok (map Some is).
Proof. exact Thompson_times. Qed.
Print Assumptions C57_Thompson_seconds.
Definition th_line : str := lit "02/29/2024,10:11:12.5,$INGGA,101112.75,".
Lemma th_line_parts : sentence inn th_line (lit "02/29/2024,10:11:12.5,$") [lit "101112.75"; []] /\ ~ occurs inn (lit "02/29/2024,10:11:12.5,$") /\
  Thompson_date (lit "02/29/2024,10:11:12.5,$") (2024, 2, 29) /\ shows_clock [lit "101112.75"; []] 10 11 12 2 75.
Proof.
  split; [apply (mk_sentence inn (lit "02/29/2024,10:11:12.5,$") [lit "101112.75"; []]); (discriminate || reflexivity)|].
  split; [apply no_occ; reflexivity|].
  split; [apply (th_date _ [] (lit ",10:11:12.5,$") 2024 2 29); [reflexivity|intros []|lia|apply valid_dec; reflexivity]|].
  split; [eexists; reflexivity|cbn; lia].
Qed.
Example C57_Thompson_case : exists i, instant (2024, 2, 29) 10 11 12 0 i /\ navdate_Thompson [th_line] inn = Ok [Some i].
Proof.
  exists (local_us (mk_datetime 2024 2 29 10 11 12 0 (Some 0))).
  pose proof (instant_local 2024 2 29 10 11 12 0 (Some 0) (valid_dec 2024 2 29 eq_refl)) as I. split; [exact I|].
  destruct th_line_parts as [H1 [H2 [H3 H4]]].
  apply (C57_Thompson_seconds inn _ [th_line] [_] in_usable).
  - apply sel_yes; [apply containsb_spec; reflexivity|constructor].
  - repeat constructor. exists (lit "02/29/2024,10:11:12.5,$"), [lit "101112.75"; []], (2024, 2, 29), 10, 11, 12, 2%nat, 75.
    split; [exact H1|]. split; [exact H2|]. split; [exact H3|]. split; [exact H4|]. split; [split; [lia|right; left; lia]|exact I].
Qed.
Theorem C57_Thompson_refuted : exists talker allnav ln is, usable talker /\ selected (occurs talker) allnav [ln] /\
  stamped Thompson_date talker ln is /\ navdate_Thompson allnav talker <> Ok [Some is].
Proof.
  exists inn, [th_line], th_line, (local_us (mk_datetime 2024 2 29 10 11 12 750000 (Some 0))).
  destruct th_line_parts as [H1 [H2 [H3 H4]]].
  split; [exact in_usable|]. split; [apply sel_yes; [apply containsb_spec; reflexivity|constructor]|]. split.
  - exists (lit "02/29/2024,10:11:12.5,$"), [lit "101112.75"; []], (2024, 2, 29), 10, 11, 12, 2%nat, 75, 75.
    split; [exact H1|]. split; [exact H2|]. split; [exact H3|]. split; [exact H4|].
    split; [split; [reflexivity|split; [lia|right; discriminate]]|]. apply instant_local. apply valid_dec. reflexivity.
  - vm_compute. discriminate.
Qed.
Print Assumptions C57_Thompson_refuted.

Theorem C57_Langseth : forall talker allnav sub is, usable talker -> selected (occurs talker) allnav sub ->
  Forall2 (seapath_line_stamp talker) sub is -> navdate_Langseth allnav talker = Ok (map Some is).
Proof. exact Langseth_times. Qed.
Print Assumptions C57_Langseth.
Definition la_stamp : str := lit "2024:060:23:59:59.123".
Definition la_pre : str := lit "seapath" ++ tab :: la_stamp ++ tab :: lit "$".
Example C57_Langseth_case : exists i, instant (2024, 2, 29) 23 59 59 123000 i /\
  navdate_Langseth [la_pre ++ inn ++ lit ",235958.9,"] inn = Ok [Some i].
Proof.
  exists (local_us (mk_datetime 2024 2 29 23 59 59 123000 (Some 0))).
  assert (V : valid_date (2024, 2, 29)) by (apply valid_dec; reflexivity).
  pose proof (instant_local 2024 2 29 23 59 59 123000 (Some 0) V) as I. split; [exact I|].
  apply (C57_Langseth inn _ [la_pre ++ inn ++ lit ",235958.9,"] [_] in_usable).
  - apply sel_yes; [apply containsb_spec; reflexivity|constructor].
  - repeat constructor. exists la_pre, [lit "235958.9"; []].
    split; [apply (mk_sentence inn la_pre [lit "235958.9"; []]); (discriminate || reflexivity)|]. split; [apply no_occ; reflexivity|].
    apply (sea_intro la_pre [] [] (tab :: lit "$") 2024 3 60 23 59 59 3 123 (2024, 2, 29)).
    + reflexivity.
    + apply no_occ. reflexivity.
    + apply no_occ. vm_compute. reflexivity.
    + intros [].
    + right. eexists. reflexivity.
    + lia.
    + lia.
    + cbn. lia.
    + lia.
    + lia.
    + lia.
    + lia.
    + lia.
    + cbn. lia.
    + apply doy_of; [exact V|vm_compute; reflexivity|lia].
    + exact I.
Qed.

Theorem C57_Ride_posix : forall allnav sub is, sub <> [] -> selected (occurs (lit "INGGA")) allnav sub ->
  Forall2 posix_stamp sub is -> navdate_Ride allnav (lit "INGGA") = Ok (Stamps (map Some is)).
Proof. intros allnav sub is Hn Hs H. exact (Ride_times _ posix_stamp allnav sub is Hn Hs posix_line H). Qed.
Print Assumptions C57_Ride_posix.
Example C57_Ride_posix_case : navdate_Ride [lit "seapath 1709251199.25 $INGGA,235959.2,"] (lit "INGGA") = Ok (Stamps [Some 1709251199250000]).
Proof.
  apply (C57_Ride_posix _ [lit "seapath 1709251199.25 $INGGA,235959.2,"] [1709251199250000]).
  - discriminate.
  - apply sel_yes; [apply containsb_spec; reflexivity|constructor].
  - repeat constructor. apply (posix_intro _ (lit "seapath ") 10 1709251199 2 25 (lit ",235959.2,")); try reflexivity; try lia.
    + apply not_in_dec. reflexivity.
    + intros a' c E. change (lit "seapath ") with (lit "seapath" ++ [" "%char]) in E. apply app_inj_tail in E. destruct E as [_ <-].
      split; [|discriminate]. intros H. apply is_digit_spec in H. discriminate.
Qed.
(** 1709251199 s is 2024-02-29T23:59:59 *)
Example C57_posix_instant : instant (2024, 2, 29) 23 59 59 250000 1709251199250000.
Proof. exact (instant_local 2024 2 29 23 59 59 250000 (Some 0) (valid_dec 2024 2 29 eq_refl)). Qed.

Theorem C57_Ride_iso : forall allnav sub is, sub <> [] -> selected (occurs (lit "GPGGA")) allnav sub ->
  Forall2 iso_stamp sub is -> navdate_Ride allnav (lit "GPGGA") = Ok (Stamps (map Some is)).
Proof. intros allnav sub is Hn Hs H. exact (Ride_times _ iso_stamp allnav sub is Hn Hs iso_line H). Qed.
Print Assumptions C57_Ride_iso.
Example C57_Ride_iso_case : exists i, instant (2024, 2, 29) 23 59 59 125000 i /\
  navdate_Ride [lit "a 2024-02-29T23:59:59.125Z $GPGGA,235959.1,"] (lit "GPGGA") = Ok (Stamps [Some i]).
Proof.
  exists (local_us (mk_datetime 2024 2 29 23 59 59 125000 (Some 0))).
  assert (V : valid_date (2024, 2, 29)) by (apply valid_dec; reflexivity).
  pose proof (instant_local 2024 2 29 23 59 59 125000 (Some 0) V) as I. split; [exact I|].
  apply (C57_Ride_iso _ [lit "a 2024-02-29T23:59:59.125Z $GPGGA,235959.1,"] [_]).
  - discriminate.
  - apply sel_yes; [apply containsb_spec; reflexivity|constructor].
  - repeat constructor. apply (iso_intro _ (lit "a ") (lit " $GPGGA,235959.1,") 2024 2 29 23 59 59 3 125); try lia; try assumption.
    + reflexivity.
    + apply not_in_dec. reflexivity.
Qed.
(** other talkers give entries without a time; a file without the talker gives -999 *)
Theorem C57_Ride_other : forall allnav talker sub, selected (occurs talker) allnav sub ->
  (sub = [] -> navdate_Ride allnav talker = Ok Sentinel) /\
  (sub <> [] -> talker <> lit "INGGA" -> talker <> lit "GPGGA" -> navdate_Ride allnav talker = Ok (Stamps (map (fun _ => None) sub))).
Proof.
  intros allnav talker sub Hs. unfold navdate_Ride. rewrite (talker_lines_selected _ _ _ Hs). split.
  - intros ->. reflexivity.
  - intros Hn H1 H2. destruct sub as [|x sub]; [congruence|]. rewrite (mapM_Ok_map _ _ _ (fun _ => None)); [reflexivity|].
    intros ln _. unfold ride_line. rewrite (proj2 (str_eqb_neq _ _) H1), (proj2 (str_eqb_neq _ _) H2). reflexivity.
Qed.
Print Assumptions C57_Ride_other.
Example C57_Ride_other_case : navdate_Ride [lit "a $GNGGA,1"; lit "b"] (lit "GNGGA") = Ok (Stamps [None]) /\ navdate_Ride [lit "b"] (lit "GNGGA") = Ok Sentinel.
Proof. split; reflexivity. Qed.

(** A talker line without a date in its prefix raises. *)
Theorem C57_no_date_raises : forall talker allnav ln pre fields h mi s k f, usable talker ->
  selected (occurs talker) allnav [ln] -> sentence talker ln pre fields -> ~ occurs talker pre -> shows_clock fields h mi s k f -> readable s k f ->
  (~ occurs (lit "NAV ") pre -> navdate_Atlantis allnav talker = Raise IndexError) /\
  (~ In "+"%char pre -> navdate_NBP allnav talker = Raise IndexError) /\
  (~ In "/"%char pre -> navdate_Thompson allnav talker = Raise IndexError) /\
  (~ occurs (lit "seapath") pre -> navdate_Langseth allnav talker = Raise IndexError).
Proof.
  intros talker allnav ln pre fields h mi s k f Hu Hs Hsen Hp Hc Hr.
  destruct (clock_readable _ _ _ _ _ _ _ _ _ Hu Hsen Hc Hr) as [us Hcl].
  assert (D : forall F e, F pre (h, mi, s, us) = Raise e -> dated allnav talker F = Raise e).
  { intros F e HF. unfold dated, clock_time. rewrite (talker_lines_selected _ _ _ Hs). cbn [mapM]. rewrite Hcl. cbn [bind combine mapM fst snd].
    rewrite (sentence_pre _ _ _ _ Hu Hsen Hp). cbn [bind]. rewrite HF. reflexivity. }
  assert (SN : forall (A : Type) (m : str -> option A) x, (forall a b, x = a ++ b -> m b = None) -> search m x = Raise IndexError).
  { intros A m x. induction x as [|c x IH]; intros H; cbn [search]; rewrite (H [] _ eq_refl); [reflexivity|].
    apply IH. intros a b ->. apply (H (c :: a) b). reflexivity. }
  assert (SC : forall (A : Type) (m : str -> option A) n c, (forall x r, m x = Some r -> nth_error x n = Some c) -> ~ In c pre -> search m pre = Raise IndexError).
  { intros A m n c Hm Hi. apply SN. intros a b E. destruct (m b) as [r|] eqn:Eb; [|reflexivity]. exfalso. apply Hi. rewrite E.
    apply in_or_app. right. apply Hm, nth_error_In in Eb. exact Eb. }
  repeat split; intros H.
  - apply D. rewrite SN; [reflexivity|]. intros a b E. destruct (pmatch pat_Atlantis b) as [r|] eqn:Eb; [|reflexivity]. exfalso.
    apply H. apply pmatch_lit_inv in Eb. destruct Eb as [q ->]. exists a, q. exact E.
  - apply D. rewrite (SC _ _ 2%nat "+"%char match_NBP_plus H). reflexivity.
  - apply D. rewrite (SC _ (pmatch pat_Thompson) 2%nat "/"%char); [reflexivity| |exact H]. intros x r E. exact (pmatch_char [PDig 2] "/"%char _ x r E).
  - unfold navdate_Langseth. rewrite (talker_lines_selected _ _ _ Hs). cbn [mapM]. rewrite (sentence_pre _ _ _ _ Hu Hsen Hp). cbn [bind].
    rewrite split_none by (discriminate || exact H). reflexivity.
Qed.
Print Assumptions C57_no_date_raises.
Example C57_no_date_case : navdate_Atlantis [lit "$GPGGA,120000.25,"] gp = Raise IndexError /\ navdate_Langseth [lit "$GPGGA,120000.25,"] gp = Raise IndexError.
Proof. split; vm_compute; reflexivity. Qed.

(** ** C58: midnight *)
(** When the clock has passed into the day after the one written in the prefix, the timestamp is
    a day before the true instant (the same for the three ships with a date in the prefix). *)
Theorem C58_day_early : forall talker allnav ln pre fields t t' h mi s k f c i, usable talker -> selected (occurs talker) allnav [ln] ->
  sentence talker ln pre fields -> ~ occurs talker pre -> shows_clock fields h mi s k f -> hundredths k f c ->
  next_day t t' -> instant t' h mi s (c * 10000) i ->
  (Atlantis_date pre t -> navdate_Atlantis allnav talker = Ok [Some (i - 86400 * 1000000)]) /\
  (NBP_date pre t -> navdate_NBP allnav talker = Ok [Some (i - 86400 * 1000000)]) /\
  (Thompson_date pre t -> navdate_Thompson allnav talker = Ok [Some (i - c * 10000 - 86400 * 1000000)]).
Proof.
  intros talker allnav ln pre fields t t' h mi s k f c i Hu Hs Hsen Hp Hc Hh Hn Hi.
  pose proof (next_day_ord _ _ Hn) as Eo. pose proof (proj1 (next_day_valid _ _ Hn)) as Hv.
  destruct t as [[y m] d].
  assert (I : forall us, instant (y, m, d) h mi s us (i - c * 10000 - 86400 * 1000000 + us)).
  { intros us. pose proof (instant_local y m d h mi s us (Some 0) Hv) as Il.
    replace (i - c * 10000 - 86400 * 1000000 + us) with (local_us (mk_datetime y m d h mi s us (Some 0))); [exact Il|].
    rewrite (instant_unique _ _ _ _ _ _ Il), (instant_unique _ _ _ _ _ _ Hi), Eo. lia. }
  repeat split; intros Hd.
  - apply (Atlantis_times talker allnav [ln] [_] Hu Hs). repeat constructor.
    exists pre, fields, (y, m, d), h, mi, s, k, f, c. repeat (split; [assumption|]).
    replace (i - 86400 * 1000000) with (i - c * 10000 - 86400 * 1000000 + c * 10000) by lia. apply I.
  - apply (NBP_times talker allnav [ln] [_] Hu Hs). repeat constructor.
    exists pre, fields, (y, m, d), h, mi, s, k, f, c. repeat (split; [assumption|]).
    replace (i - 86400 * 1000000) with (i - c * 10000 - 86400 * 1000000 + c * 10000) by lia. apply I.
  - destruct (clock_hundredths _ _ _ _ _ _ _ _ _ _ Hu Hsen Hc Hh).
    apply (dated_ok _ _ _ [ln] [_] Hs). repeat constructor. exists (h, mi, s, c * 10000), pre.
    split; [apply (clock_hundredths _ _ _ _ _ _ _ _ _ _ Hu Hsen Hc Hh)|]. split; [apply (sentence_pre _ _ _ _ Hu Hsen Hp)|].
    destruct Hc as [_ [Rh [Rm [Rs _]]]]. apply (Thompson_search pre (y, m, d)); try assumption.
    replace (i - c * 10000 - 86400 * 1000000) with (i - c * 10000 - 86400 * 1000000 + 0) by lia. apply I.
Qed.
Print Assumptions C58_day_early.

(** the logger writes 23:59:59, the GPS clock in the same line 0.25 s past midnight *)
Theorem C58_midnight_refuted : exists ln logger gps i, instant (2023, 12, 31) 23 59 59 0 logger /\ instant (2024, 1, 1) 0 0 0 250000 gps /\
  gps - logger = 1250000 /\ ln = lit "NAV 2023/12/31 23:59:59 $GPGGA,000000.25," /\
  navdate_Atlantis [ln] gp = Ok [Some i] /\ gps - i = 86400 * 1000000 /\ logger - i > 86000 * 1000000.
Proof.
  exists (lit "NAV 2023/12/31 23:59:59 $GPGGA,000000.25,"), 1704067199000000, 1704067200250000, 1703980800250000.
  split; [exact (instant_local 2023 12 31 23 59 59 0 (Some 0) (valid_dec 2023 12 31 eq_refl))|].
  split; [exact (instant_local 2024 1 1 0 0 0 250000 (Some 0) (valid_dec 2024 1 1 eq_refl))|].
  split; [reflexivity|]. split; [reflexivity|]. split; [vm_compute; reflexivity|]. split; [reflexivity|lia].
Qed.
Print Assumptions C58_midnight_refuted.

(** ** C59: Revelle *)
Theorem C59_Revelle_dates : forall talker blocks tail rs, usable talker -> revelle_layout talker blocks tail ->
  Forall2 (block_read talker) blocks rs -> navdate_Revelle (revelle_text blocks tail) talker = Ok rs.
Proof. exact Revelle_times. Qed.
Print Assumptions C59_Revelle_dates.

Definition rv_file : list str :=
  [lit "2024-02-28T23:59:58.000000Z header"; lit "2024-02-29T10:00:00.000000Z $PSXN"; lit "noise"; lit "$GPGGA,100000.25,";
   lit "2024-03-01 not before a talker"; lit "$GPGGA,100001.25,"; lit "$GPGGA,100002.25,"; lit "end"].
(** every decomposition of a file exists and is unique; here three blocks, the last one empty *)
Lemma undated_dec l : pmatch pat_Revelle l = None -> undated l.
Proof. intros H y m d Hd. destruct (Revelle_dated _ _ _ _ Hd) as [r E]. congruence. Qed.
Example C59_case : exists i j, instant (2024, 2, 29) 10 0 0 250000 i /\ instant (2024, 3, 1) 10 0 1 250000 j /\
  navdate_Revelle rv_file gp = Ok [Some i; Some j; None].
Proof.
  exists (local_us (mk_datetime 2024 2 29 10 0 0 250000 (Some 0))), (local_us (mk_datetime 2024 3 1 10 0 1 250000 (Some 0))).
  assert (V1 : valid_date (2024, 2, 29)) by (apply valid_dec; reflexivity). assert (V2 : valid_date (2024, 3, 1)) by (apply valid_dec; reflexivity).
  pose proof (instant_local 2024 2 29 10 0 0 250000 (Some 0) V1) as I1. pose proof (instant_local 2024 3 1 10 0 1 250000 (Some 0) V2) as I2.
  split; [exact I1|]. split; [exact I2|].
  apply (C59_Revelle_dates gp [([lit "2024-02-28T23:59:58.000000Z header"; lit "2024-02-29T10:00:00.000000Z $PSXN"; lit "noise"], lit "$GPGGA,100000.25,");
    ([lit "2024-03-01 not before a talker"], lit "$GPGGA,100001.25,"); ([], lit "$GPGGA,100002.25,")] [lit "end"] [_; _; _] gp_usable).
  - split; repeat constructor; try (apply no_occ; reflexivity); apply containsb_spec; reflexivity.
  - repeat constructor.
    + exists (lit "$"), [lit "100000.25"; []], 10, 0, 0, 2%nat, 25, 25. cbn [fst snd].
      split; [apply (mk_sentence gp (lit "$") [lit "100000.25"; []]); (discriminate || reflexivity)|].
      split; [split; [eexists; reflexivity|cbn; lia]|]. split; [split; [reflexivity|split; [lia|right; discriminate]]|].
      left. exists 2024, 2, 29, (local_us (mk_datetime 2024 2 29 10 0 0 250000 (Some 0))).
      split; [|split; [lia|split; [exact V1|split; [exact I1|reflexivity]]]].
      exists [lit "2024-02-28T23:59:58.000000Z header"], (lit "2024-02-29T10:00:00.000000Z $PSXN"), [lit "noise"].
      split; [reflexivity|]. split; [exists (lit "T10:00:00.000000Z $PSXN"); split; [reflexivity|lia]|].
      constructor; [apply undated_dec; reflexivity|constructor].
    + exists (lit "$"), [lit "100001.25"; []], 10, 0, 1, 2%nat, 25, 25. cbn [fst snd].
      split; [apply (mk_sentence gp (lit "$") [lit "100001.25"; []]); (discriminate || reflexivity)|].
      split; [split; [eexists; reflexivity|cbn; lia]|]. split; [split; [reflexivity|split; [lia|right; discriminate]]|].
      left. exists 2024, 3, 1, (local_us (mk_datetime 2024 3 1 10 0 1 250000 (Some 0))).
      split; [|split; [lia|split; [exact V2|split; [exact I2|reflexivity]]]].
      exists [], (lit "2024-03-01 not before a talker"), []. split; [reflexivity|].
      split; [exists (lit " not before a talker"); split; [reflexivity|lia]|constructor].
    + exists (lit "$"), [lit "100002.25"; []], 10, 0, 2, 2%nat, 25, 25. cbn [fst snd].
      split; [apply (mk_sentence gp (lit "$") [lit "100002.25"; []]); (discriminate || reflexivity)|].
      split; [split; [eexists; reflexivity|cbn; lia]|]. split; [split; [reflexivity|split; [lia|right; discriminate]]|].
      right. split; [constructor|reflexivity].
Qed.

(** every file is of this form *)
Theorem C59_every_file_has_blocks : forall talker allnav, exists blocks tail,
  allnav = revelle_text blocks tail /\ revelle_layout talker blocks tail.
Proof.
  intros talker allnav. induction allnav as [|l allnav [blocks [tail [-> [Hb Ht]]]]].
  - exists [], []. split; [reflexivity|]. split; constructor.
  - destruct (containsb talker l) eqn:E.
    + exists (([], l) :: blocks), tail. split; [reflexivity|]. split; [|exact Ht]. constructor; [|exact Hb]. split; [constructor|apply containsb_spec; exact E].
    + apply containsb_false in E. destruct blocks as [|[b ln] blocks].
      * exists [], (l :: tail). split; [reflexivity|]. split; [constructor|constructor; assumption].
      * inversion Hb as [|x y [H1 H2] H3]; subst x y. exists ((l :: b, ln) :: blocks), tail. split; [reflexivity|].
        split; [|exact Ht]. constructor; [|exact H3]. split; [constructor; assumption|exact H2].
Qed.
Print Assumptions C59_every_file_has_blocks.
