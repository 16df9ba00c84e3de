(** Lemmas for properties C57-C59: dates. *)
From Coq Require Import ZArith Reals Ascii String Bool Lia List.
From Verif Require Import M_Py L_Base M_Str S_Str L_Str M_Cal S_Cal L_Cal M_Nmea S_Nmea L_Nmea.
Import ListNotations.
Open Scope Z_scope.
Local Notation len := List.length.

Lemma dated_ok allnav talker f sub is : selected (occurs talker) allnav sub ->
  Forall2 (fun ln i => exists c pre, clock_line talker ln = Ok c /\ pre_part talker ln = Ok pre /\ f pre c = Ok i) sub is ->
  dated allnav talker f = Ok (map Some is).
Proof.
  intros Hs H. unfold dated, clock_time. rewrite (talker_lines_selected _ _ _ Hs).
  assert (G : exists cs, mapM (clock_line talker) sub = Ok cs /\
    mapM (fun lc => do pre <- pre_part talker (fst lc); f pre (snd lc)) (combine sub cs) = Ok is).
  { clear Hs. induction H as [|ln i sub is [c [pre [Hc [Hp Hf]]]] _ [cs [IH1 IH2]]]; [exists []; split; reflexivity|].
    exists (c :: cs). cbn [mapM combine fst snd]. rewrite Hc, Hp. cbn [bind]. rewrite IH1, Hf. cbn [bind].
    rewrite IH2. split; reflexivity. }
  destruct G as [cs [G1 G2]]. rewrite G1. cbn [bind]. rewrite G2. reflexivity.
Qed.

Lemma pad4_bound y : 1 <= y <= 9999 -> 0 <= y < 10 ^ Z.of_nat 4.
Proof. change (10 ^ Z.of_nat 4) with 10000. lia. Qed.
Lemma valid_bounds y m d : valid_date (y, m, d) -> 0 <= m < 10 ^ Z.of_nat 2 /\ 0 <= d < 10 ^ Z.of_nat 2.
Proof.
  intros H. apply valid_date_iff in H. destruct H as [H1 H2].
  pose proof (month_days_range y m _ (month_days_total y m H1)). change (10 ^ Z.of_nat 2) with 100. lia.
Qed.

(** *** Atlantis *)
Lemma Atlantis_search pre t h mi s us i : Atlantis_date pre t -> 0 <= h < 24 -> 0 <= mi < 60 -> 0 <= s < 60 -> 0 <= us < 1000000 ->
  instant t h mi s us i ->
  (do g <- search (pmatch pat_Atlantis) pre; let n := ints (fst g) in dt_us (zth n 0) (zth n 1) (zth n 2) h mi s us) = Ok i.
Proof.
  intros [a b y m d -> Ho Hy Hd] Hh Hm Hs Hu Hi.
  rewrite search_skip.
  - erewrite search_here.
    2:{ unfold pat_Atlantis. rewrite pmatch_lit, pmatch_dig, pmatch_lit, pmatch_dig, pmatch_lit.
        rewrite <- (app_nil_r [PDig 2]), pmatch_dig. reflexivity. }
    cbn [bind fst ints map zth nth]. unfold zth. cbn [nth].
    destruct (valid_bounds _ _ _ Hd) as [B1 B2]. rewrite !pad_val_small by (assumption || apply pad4_bound; exact Hy).
    apply dt_us_instant; assumption.
  - intros a1 c a2 ->. destruct (pmatch pat_Atlantis _) as [r|] eqn:E; [|reflexivity]. exfalso.
    unfold pat_Atlantis in E. apply pmatch_lit_inv in E. destruct E as [q E].
    pose proof (unbordered_none_before (lit "NAV ") (a1 ++ c :: a2) (pad 4 y ++ lit "/" ++ pad 2 m ++ lit "/" ++ pad 2 d ++ b) (unborderedb_ok (lit "NAV ") eq_refl) Ho) as Hn.
    specialize (Hn a1 q). rewrite app_length in Hn. cbn [List.length] in Hn.
    assert (len a1 + S (len a2) <= len a1)%nat; [|lia]. apply Hn. rewrite <- app_assoc. f_equal. exact E.
Qed.

(** *** Palmer *)
Lemma pmatch_lit_end x s : pmatch (plit x) (lit x ++ s) = Some ([], s).
Proof. rewrite <- (app_nil_r (plit x)), pmatch_lit. reflexivity. Qed.

Lemma match_NBP_plus s r : match_NBP s = Some r -> nth_error s 2 = Some "+"%char.
Proof.
  unfold match_NBP. destruct (pmatch ([PDig 2] ++ plit "+" ++ [PDig 3] ++ plit ":") s) as [r'|] eqn:E; intros H.
  - exact (pmatch_char [PDig 2] "+"%char ([PDig 3] ++ plit ":") s r' E).
  - exact (pmatch_char [PDig 2] "+"%char ([PDig 2] ++ plit ":") s r H).
Qed.

Lemma NBP_search pre t h mi s us i : NBP_date pre t -> 0 <= h < 24 -> 0 <= mi < 60 -> 0 <= s < 60 -> 0 <= us < 1000000 ->
  instant t h mi s us i ->
  (do g <- search match_NBP pre; let n := ints (fst g) in doy_us (2000 + zth n 0) (zth n 1) h mi s us) = Ok i.
Proof.
  intros [a b yy w doy t' -> Ha Hw Hyy Hdoy Hdoy2 Hd] Hh Hm Hs Hu Hi.
  rewrite (search_fixed _ _ 2 "+"%char) ; [|exact match_NBP_plus|exact Ha|apply digit_not_in; reflexivity|apply pad_length].
  assert (E : match_NBP (pad 2 yy ++ lit "+" ++ pad w doy ++ lit ":" ++ b) = Some ([pad 2 yy; pad w doy], b)).
  { unfold match_NBP. destruct Hw as [->| ->].
    - rewrite !pmatch_dig, !pmatch_lit. rewrite pmatch_dig. rewrite pmatch_lit_end.
      replace (pmatch ([PDig 3] ++ plit ":") (pad 2 doy ++ lit ":" ++ b)) with (@None (list str * str)); [reflexivity|].
      symmetry. cbn [app pmatch]. replace (firstn 3 (pad 2 doy ++ lit ":" ++ b)) with (pad 2 doy ++ lit ":").
      + replace (forallb is_digit (pad 2 doy ++ lit ":")) with false; [rewrite andb_false_r; reflexivity|].
        rewrite forallb_app. cbn. rewrite andb_false_r. reflexivity.
      + rewrite firstn_app, pad_length. rewrite firstn_all2 by (rewrite pad_length; lia). reflexivity.
    - rewrite pmatch_dig, pmatch_lit, pmatch_dig, pmatch_lit_end. reflexivity. }
  erewrite search_here by exact E. cbn [bind fst ints map]. unfold zth. cbn [nth].
  rewrite !pad_val_small; [|lia|change (10 ^ Z.of_nat 2) with 100; lia].
  apply (doy_us_instant _ _ t'); (assumption || lia).
Qed.

(** *** Thompson *)
Lemma Thompson_search pre t h mi s i : Thompson_date pre t -> 0 <= h < 24 -> 0 <= mi < 60 -> 0 <= s < 60 ->
  instant t h mi s 0 i ->
  (do g <- search (pmatch pat_Thompson) pre; let n := ints (fst g) in dt_us (zth n 2) (zth n 0) (zth n 1) h mi s 0) = Ok i.
Proof.
  intros [a b y m d -> Ha Hy Hd] Hh Hm Hs Hi.
  rewrite (search_fixed _ _ 2 "/"%char); [|intros x r E; exact (pmatch_char [PDig 2] "/"%char _ x r E)|exact Ha|apply digit_not_in; reflexivity|apply pad_length].
  erewrite search_here.
  2:{ unfold pat_Thompson. rewrite pmatch_dig, pmatch_lit, pmatch_dig, pmatch_lit.
      rewrite <- (app_nil_r [PDig 4]), pmatch_dig. reflexivity. }
  cbn [bind fst ints map]. unfold zth. cbn [nth].
  destruct (valid_bounds _ _ _ Hd) as [B1 B2]. rewrite !pad_val_small by (assumption || apply pad4_bound; exact Hy).
  apply dt_us_instant; (assumption || lia).
Qed.

Lemma hundredths_us k f c : hundredths k f c -> 0 <= c * 10000 < 1000000.
Proof. intros [_ [H _]]. lia. Qed.

Lemma Atlantis_times talker allnav sub is : usable talker -> selected (occurs talker) allnav sub ->
  Forall2 (stamped Atlantis_date talker) sub is -> navdate_Atlantis allnav talker = Ok (map Some is).
Proof.
  intros Hu Hs H. apply (dated_ok _ _ _ sub); [exact Hs|]. eapply Forall2_weaken; [|exact H].
  intros ln i [pre [fields [t [h [mi [s [k [f [c [Hsen [Hn [Hd [Hc [Hh Hi]]]]]]]]]]]]]].
  exists (h, mi, s, c * 10000), pre. split; [eapply clock_hundredths; eassumption|]. split; [eapply sentence_pre; eassumption|].
  destruct Hc as [_ [Rh [Rm [Rs _]]]].
  apply (Atlantis_search pre t); try assumption. exact (hundredths_us _ _ _ Hh).
Qed.

Lemma NBP_times talker allnav sub is : usable talker -> selected (occurs talker) allnav sub ->
  Forall2 (stamped NBP_date talker) sub is -> navdate_NBP allnav talker = Ok (map Some is).
Proof.
  intros Hu Hs H. apply (dated_ok _ _ _ sub); [exact Hs|]. eapply Forall2_weaken; [|exact H].
  intros ln i [pre [fields [t [h [mi [s [k [f [c [Hsen [Hn [Hd [Hc [Hh Hi]]]]]]]]]]]]]].
  exists (h, mi, s, c * 10000), pre. split; [eapply clock_hundredths; eassumption|]. split; [eapply sentence_pre; eassumption|].
  destruct Hc as [_ [Rh [Rm [Rs _]]]].
  apply (NBP_search pre t); try assumption. exact (hundredths_us _ _ _ Hh).
Qed.

Lemma Thompson_times talker allnav sub is : usable talker -> selected (occurs talker) allnav sub ->
  Forall2 (stamped_seconds Thompson_date talker) sub is -> navdate_Thompson allnav talker = Ok (map Some is).
Proof.
  intros Hu Hs H. apply (dated_ok _ _ _ sub); [exact Hs|]. eapply Forall2_weaken; [|exact H].
  intros ln i [pre [fields [t [h [mi [s [k [f [Hsen [Hn [Hd [Hc [Hr Hi]]]]]]]]]]]]].
  destruct (clock_readable _ _ _ _ _ _ _ _ _ Hu Hsen Hc Hr) as [us Hcl].
  exists (h, mi, s, us), pre. split; [exact Hcl|]. split; [eapply sentence_pre; eassumption|].
  destruct Hc as [_ [Rh [Rm [Rs _]]]]. apply (Thompson_search pre t); assumption.
Qed.

(** *** Langseth *)
Lemma directive_pad lo hi sep n z rest : (lo <= n <= hi)%nat ->
  (forall c r, sep ++ rest = c :: r -> is_digit c = false) ->
  directive lo hi sep (pad n z ++ sep ++ rest) = Ok (pad n z, rest).
Proof.
  intros Hn Hs. unfold directive. rewrite span_app; [|apply pad_digits|exact Hs].
  rewrite pad_length, prefixb_app. replace (lo <=? n)%nat with true by (symmetry; apply Nat.leb_le; lia).
  replace (n <=? hi)%nat with true by (symmetry; apply Nat.leb_le; lia). cbn [andb].
  rewrite skipn_app, Nat.sub_diag, skipn_all2 by lia. reflexivity.
Qed.

Lemma strptime_ok y w doy h mi s k f t i : 1 <= y < 9999 -> (1 <= w <= 3)%nat -> 1 <= doy < 10 ^ Z.of_nat w -> doy <= 366 ->
  0 <= h < 24 -> 0 <= mi < 60 -> 0 <= s < 60 -> (1 <= k <= 6)%nat -> 0 <= f < 10 ^ Z.of_nat k ->
  day_of_year y doy t -> instant t h mi s (f * 10 ^ Z.of_nat (6 - k)) i ->
  strptime_Langseth (pad 4 y ++ lit ":" ++ pad w doy ++ lit ":" ++ pad 2 h ++ lit ":" ++ pad 2 mi ++ lit ":" ++ pad 2 s ++ lit "." ++ pad k f) = Ok i.
Proof.
  intros Hy Hw Hd1 Hd2 Hh Hm Hs Hk Hf Hd Hi. unfold strptime_Langseth.
  assert (ND : forall x r' c r, x = ":"%char \/ x = "."%char -> [x] ++ r' = c :: r -> is_digit c = false)
    by (intros x r' c r [->| ->] E; injection E as <- _; reflexivity).
  change (lit ":") with [":"%char] in *. change (lit ".") with ["."%char] in *.
  rewrite directive_pad; [|lia|intros c r; apply ND; tauto]. cbn [bind snd fst].
  rewrite directive_pad; [|lia|intros c r; apply ND; tauto]. cbn [bind snd fst].
  rewrite directive_pad; [|lia|intros c r; apply ND; tauto]. cbn [bind snd fst].
  rewrite directive_pad; [|lia|intros c r; apply ND; tauto]. cbn [bind snd fst].
  rewrite directive_pad; [|lia|intros c r; apply ND; tauto]. cbn [bind snd fst].
  rewrite <- (app_nil_r (pad k f)). change (pad k f ++ []) with (pad k f ++ [] ++ []).
  rewrite directive_pad; [|lia|discriminate]. cbn [bind snd fst].
  rewrite pad_length. rewrite !pad_val_small; try (assumption || (change (10 ^ Z.of_nat 2) with 100; lia) || (change (10 ^ Z.of_nat 4) with 10000; lia) || lia).
  apply (doy_us_instant _ _ t); try (assumption || lia).
  assert (Ep : 10 ^ Z.of_nat k * 10 ^ Z.of_nat (6 - k) = 1000000).
  { rewrite <- Z.pow_add_r by lia. replace (Z.of_nat k + Z.of_nat (6 - k)) with 6 by lia. reflexivity. }
  assert (0 < 10 ^ Z.of_nat (6 - k)) by (apply Z.pow_pos_nonneg; lia). nia.
Qed.

Lemma seapath_line talker ln pre fields i : usable talker -> sentence talker ln pre fields -> ~ occurs talker pre ->
  seapath_stamp pre i ->
  (do pre <- pre_part talker ln; do sea <- getr (split (lit "seapath") pre) 1; do date <- getr (split [tab] sea) 1; strptime_Langseth date) = Ok i.
Proof.
  intros Hu Hsen Hn Hst. rewrite (sentence_pre _ _ _ _ Hu Hsen Hn). cbn [bind].
  destruct Hst as [a b c y w doy h mi s k f t i E Ha Hx Hb Hc Hy Hw Hd1 Hd2 Hh Hm Hs Hk Hf Hdoy Hi].
  set (D := pad 4 y ++ lit ":" ++ pad w doy ++ lit ":" ++ pad 2 h ++ lit ":" ++ pad 2 mi ++ lit ":" ++ pad 2 s ++ lit "." ++ pad k f) in *.
  set (x := b ++ tab :: D ++ c) in *. rewrite E.
  assert (Us : usable (lit "seapath")) by (split; [discriminate|apply unborderedb_ok; reflexivity]).
  rewrite (split_hd _ _ _ Us Ha), (split_none _ _ (proj1 Us) Hx). cbn [getr nth_error bind]. unfold getr at 1. cbn [nth_error bind].
  unfold x. rewrite split_char_cons by exact Hb.
  assert (HD : ~ In tab D).
  { unfold D. repeat (rewrite in_app_iff). intros Hin.
    repeat match goal with H : _ \/ _ |- _ => destruct H as [H|H] end;
      try (revert Hin; apply digit_not_in; reflexivity); cbn in Hin; destruct Hin as [Hin|[]]; discriminate. }
  assert (Ed : exists r, split [tab] (D ++ c) = D :: r).
  { destruct Hc as [->|[c' ->]].
    - rewrite app_nil_r, split_char_none by exact HD. exists []. reflexivity.
    - rewrite split_char_cons by exact HD. eexists. reflexivity. }
  destruct Ed as [r ->]. unfold getr. cbn [nth_error bind].
  apply (strptime_ok y w doy h mi s k f t); assumption.
Qed.

Lemma Langseth_times talker allnav sub is : usable talker -> selected (occurs talker) allnav sub ->
  Forall2 (seapath_line_stamp talker) sub is -> navdate_Langseth allnav talker = Ok (map Some is).
Proof.
  intros Hu Hs H. unfold navdate_Langseth. rewrite (talker_lines_selected _ _ _ Hs).
  rewrite (mapM_Forall2 _ _ _ sub is); [reflexivity|]. eapply Forall2_weaken; [|exact H].
  intros ln i [pre [fields [Hsen [Hn Hst]]]]. apply (seapath_line talker ln pre fields); assumption.
Qed.

(** *** Ride *)
Lemma app_char_unique (c : ascii) p q p' q' : p ++ c :: q = p' ++ c :: q' -> ~ In c p -> ~ In c p' -> p = p' /\ q = q'.
Proof.
  revert p'. induction p as [|x p IH]; intros [|x' p'] E H H'; cbn [app] in E.
  - injection E as ->. split; reflexivity.
  - exfalso. injection E as <- _. apply H'. left. reflexivity.
  - exfalso. injection E as -> _. apply H. left. reflexivity.
  - injection E as <- E. destruct (IH p' E) as [-> ->]; [intros G; apply H; right; exact G|intros G; apply H'; right; exact G|]. split; reflexivity.
Qed.

Lemma match_posix_shape s r : match_posix s = Some r -> exists u b, plain u /\ s = u ++ lit " $INGGA" ++ b.
Proof.
  unfold match_posix. pose proof (span_spec is_digit s) as H. destruct (span is_digit s) as [i rest]. destruct H as [-> [Hi _]].
  assert (Pi : plain i) by (eapply Forall_impl; [|exact Hi]; intros c Hc; left; exact Hc).
  destruct i as [|i0 i']; [discriminate|]. set (i := i0 :: i') in *.
  destruct rest as [|c rest].
  - destruct (prefixb (lit " $INGGA") []) eqn:E; [|discriminate]. discriminate.
  - destruct (Ascii.eqb_spec c ".") as [->|Hc].
    + pose proof (span_spec is_digit rest) as H. destruct (span is_digit rest) as [f r2]. destruct H as [-> [Hf _]].
      destruct (prefixb (lit " $INGGA") r2) eqn:E; [|discriminate]. intros _. apply prefixb_spec in E. destruct E as [b ->].
      exists (i ++ "."%char :: f), b. split.
      * apply Forall_app. split; [exact Pi|]. constructor; [right; reflexivity|]. eapply Forall_impl; [|exact Hf]. intros x Hx. left. exact Hx.
      * rewrite <- app_assoc. reflexivity.
    + destruct (prefixb (lit " $INGGA") (c :: rest)) eqn:E; [|discriminate]. intros _. apply prefixb_spec in E. destruct E as [b ->].
      exists i, b. split; [exact Pi|]. reflexivity.
Qed.

Lemma plain_no_dollar u : plain u -> ~ In "$"%char (u ++ lit " ").
Proof.
  intros H Hin. apply in_app_or in Hin. destruct Hin as [Hin|Hin].
  - unfold plain in H. rewrite Forall_forall in H. destruct (H _ Hin) as [E|E]; discriminate.
  - destruct Hin as [E|[]]. discriminate.
Qed.

Lemma match_posix_here w s k f b : (0 < w)%nat -> 0 <= s < 10 ^ Z.of_nat w -> 0 <= f < 10 ^ Z.of_nat k ->
  match_posix (decimal_text w s k f ++ lit " $INGGA" ++ b) = Some (s * 10 ^ Z.of_nat k + f, Z.of_nat k).
Proof.
  intros Hw Hs Hf. unfold match_posix, decimal_text. rewrite <- app_assoc.
  rewrite span_app; [|apply pad_digits|].
  - pose proof (pad_nonnil w s Hw) as Hn. destruct (pad w s) as [|p0 p] eqn:Ep; [congruence|]. rewrite <- Ep. clear Hn.
    destruct k as [|k].
    + cbn [app]. change (lit " $INGGA" ++ b) with (" "%char :: lit "$INGGA" ++ b). cbn [Ascii.eqb Bool.eqb].
      rewrite app_nil_r, pad_val_small by exact Hs. change (10 ^ Z.of_nat 0) with 1 in *.
      change (" "%char :: lit "$INGGA" ++ b) with (lit " $INGGA" ++ b). rewrite prefixb_app. cbn [List.length]. do 2 f_equal. lia.
    + set (k' := S k) in *. cbn [app]. cbn [Ascii.eqb Bool.eqb]. rewrite span_app; [|apply pad_digits|intros c r E; injection E as <- _; reflexivity].
      rewrite prefixb_app, digits_val_app, !pad_val_small, pad_length by assumption. reflexivity.
  - destruct k; intros c r E; injection E as <- _; reflexivity.
Qed.

Lemma round_div_exact q d : 0 < d -> round_div (q * d) d = q.
Proof.
  intros H. unfold round_div. rewrite Z.div_mul, Z.mod_mul by lia. destruct (Z.ltb_spec (2 * 0) d); [reflexivity|lia].
Qed.

Lemma posix_line ln i : posix_stamp ln i -> ride_line (lit "INGGA") ln = Ok (Some i).
Proof.
  intros [a w s k f b i' -> Hd Hl Hw Hs Hf Hk Hmax ->]. unfold ride_line.
  replace (str_eqb (lit "INGGA") (lit "INGGA")) with true by reflexivity.
  rewrite search_skip.
  - erewrite search_here by (apply match_posix_here; assumption). cbn [bind fst snd]. unfold from_posix.
    assert (Ep : 10 ^ Z.of_nat k * 10 ^ Z.of_nat (6 - k) = 1000000).
    { rewrite <- Z.pow_add_r by lia. replace (Z.of_nat k + Z.of_nat (6 - k)) with 6 by lia. reflexivity. }
    assert (Hp : 0 < 10 ^ Z.of_nat k) by (apply Z.pow_pos_nonneg; lia).
    assert (Hp2 : 0 < 10 ^ Z.of_nat (6 - k)) by (apply Z.pow_pos_nonneg; lia).
    replace ((s * 10 ^ Z.of_nat k + f) * us_per_sec) with ((s * 1000000 + f * 10 ^ Z.of_nat (6 - k)) * 10 ^ Z.of_nat k)
      by (unfold us_per_sec; rewrite <- Ep; ring).
    rewrite round_div_exact by exact Hp.
    destruct (Z.ltb_spec (s * 1000000 + f * 10 ^ Z.of_nat (6 - k)) ((ymd2ord 9999 12 31 + 1 - epoch_ord) * us_per_day)) as [_|H]; [reflexivity|].
    exfalso. replace ((ymd2ord 9999 12 31 + 1 - epoch_ord) * us_per_day) with (253402300800 * 1000000) in H by (vm_compute; reflexivity). nia.
  - intros a1 c a2 ->. destruct (match_posix _) as [r|] eqn:E; [|reflexivity]. exfalso.
    apply match_posix_shape in E. destruct E as [u [b' [Hu E]]].
    change (lit " $INGGA") with (lit " " ++ "$"%char :: lit "INGGA") in E. rewrite <- !app_assoc in E. cbn [app] in E.
    change (c :: a2 ++ decimal_text w s k f ++ lit " " ++ "$"%char :: lit "INGGA" ++ b) with ((c :: a2) ++ decimal_text w s k f ++ lit " " ++ "$"%char :: lit "INGGA" ++ b) in E.
    rewrite (app_assoc u), (app_assoc (decimal_text w s k f)), (app_assoc (c :: a2)) in E.
    apply app_char_unique in E.
    + destruct E as [E _]. rewrite (app_assoc (c :: a2)) in E. apply app_inj_tail in E as [E _].
      destruct (exists_last (l := c :: a2) ltac:(discriminate)) as [a3 [x Ex]].
      destruct (Hl (a1 ++ a3) x) as [N1 N2]; [rewrite Ex, app_assoc; reflexivity|].
      assert (Hin : In x u) by (rewrite <- E, Ex; rewrite !in_app_iff; left; right; left; reflexivity).
      unfold plain in Hu. rewrite Forall_forall in Hu. destruct (Hu x Hin) as [G|G]; [apply N1, is_digit_spec; exact G|contradiction].
    + intros Hin. apply in_app_or in Hin. destruct Hin as [Hin|Hin]; [apply Hd; apply in_or_app; right; exact Hin|].
      revert Hin. apply plain_no_dollar. apply plain_decimal.
    + apply plain_no_dollar. exact Hu.
Qed.

Lemma match_iso_T s r : match_iso s = Some r -> nth_error s 10 = Some "T"%char.
Proof.
  unfold match_iso. destruct (pmatch pat_iso s) as [[g rest]|] eqn:E; [|discriminate]. intros _.
  exact (pmatch_char ([PDig 4] ++ plit "-" ++ [PDig 2] ++ plit "-" ++ [PDig 2]) "T"%char _ s (g, rest) E).
Qed.

Lemma iso_micro_pad k f : (1 <= k <= 6)%nat -> 0 <= f < 10 ^ Z.of_nat k -> iso_micro (pad k f) = Ok (f * 10 ^ Z.of_nat (6 - k)).
Proof.
  intros Hk Hf. unfold iso_micro. rewrite py_float_plain; [|constructor; [right; reflexivity|eapply Forall_impl; [|apply pad_digits]; intros c H; left; exact H]|discriminate].
  change ("."%char :: pad k f) with ([] ++ "."%char :: pad k f).
  rewrite parse_dec_point; [|constructor|apply pad_digits|apply pad_nonnil; lia]. cbn [bind app signed].
  rewrite pad_val_small, pad_length by exact Hf. f_equal.
  replace (Z.max 0 (- Z.of_nat k + 6)) with (Z.of_nat (6 - k)) by lia.
  replace (Z.max 0 (- (- Z.of_nat k + 6))) with 0 by lia. apply Z.div_1_r.
Qed.

Lemma iso_line ln i : iso_stamp ln i -> ride_line (lit "GPGGA") ln = Ok (Some i).
Proof.
  intros [a b y m d h mi s k f i' -> Ha Hy Hd Hh Hm Hs Hk Hf Hi]. unfold ride_line.
  replace (str_eqb (lit "GPGGA") (lit "INGGA")) with false by reflexivity.
  replace (str_eqb (lit "GPGGA") (lit "GPGGA")) with true by reflexivity. cbv iota.
  set (T := lit "T" ++ _). set (B := pad 4 y ++ lit "-" ++ pad 2 m ++ lit "-" ++ pad 2 d).
  replace (pad 4 y ++ lit "-" ++ pad 2 m ++ lit "-" ++ pad 2 d ++ T) with (B ++ T) by (unfold B; rewrite <- !app_assoc; reflexivity).
  rewrite (search_fixed _ _ 10 "T"%char); [|exact match_iso_T|exact Ha| |unfold B; rewrite !app_length, !pad_length; reflexivity].
  2:{ unfold B. rewrite !in_app_iff. intros Hin.
      repeat match goal with H : _ \/ _ |- _ => destruct H as [H|H] end;
        try (revert Hin; apply digit_not_in; reflexivity); cbn in Hin; destruct Hin as [Hin|[]]; discriminate. }
  assert (E : match_iso (B ++ T) = Some ([pad 4 y; pad 2 m; pad 2 d; pad 2 h; pad 2 mi; pad 2 s], pad k f)).
  { unfold match_iso, B, T, pat_iso. rewrite <- !app_assoc.
    rewrite pmatch_dig, pmatch_lit, pmatch_dig, pmatch_lit, pmatch_dig, pmatch_lit, pmatch_dig, pmatch_lit, pmatch_dig, pmatch_lit, pmatch_dig.
    rewrite <- (app_nil_r (plit ".")), pmatch_lit. cbn [pmatch].
    pose proof (pad_digits k f) as Dg. pose proof (pad_nonnil k f ltac:(lia)) as Nn.
    destruct (pad k f) as [|c0 p]; [congruence|]. inversion Dg as [|x l D0 D1]; subst x l. cbn [app]. rewrite D0.
    rewrite span_app.
    - cbn [lit list_ascii_of_string app]. rewrite ascii_eqb_refl. reflexivity.
    - eapply Forall_impl; [|exact D1]. intros x Hx. cbn beta. rewrite (digit_neq x "Z" Hx), (digit_neq x nl Hx) by reflexivity. reflexivity.
    - intros x r Ex. injection Ex as <- _. reflexivity. }
  erewrite search_here by exact E. cbn [bind fst snd ints map]. unfold zth. cbn [nth].
  rewrite iso_micro_pad by (exact Hk || exact Hf). cbn [bind].
  destruct (valid_bounds _ _ _ Hd) as [B1 B2].
  rewrite !pad_val_small by (assumption || (apply pad4_bound; exact Hy) || (change (10 ^ Z.of_nat 2) with 100; lia)).
  rewrite (dt_us_instant _ _ _ _ _ _ _ i'); try assumption; [reflexivity|].
  assert (Ep : 10 ^ Z.of_nat k * 10 ^ Z.of_nat (6 - k) = 1000000).
  { rewrite <- Z.pow_add_r by lia. replace (Z.of_nat k + Z.of_nat (6 - k)) with 6 by lia. reflexivity. }
  assert (0 < 10 ^ Z.of_nat (6 - k)) by (apply Z.pow_pos_nonneg; lia). nia.
Qed.

Lemma Ride_times talker (st : str -> Z -> Prop) allnav sub is : sub <> [] -> selected (occurs talker) allnav sub ->
  (forall ln i, st ln i -> ride_line talker ln = Ok (Some i)) ->
  Forall2 st sub is -> navdate_Ride allnav talker = Ok (Stamps (map Some is)).
Proof.
  intros Hn Hs Hl H. unfold navdate_Ride. rewrite (talker_lines_selected _ _ _ Hs).
  destruct sub as [|x sub]; [congruence|]. rewrite (mapM_Forall2 _ _ _ (x :: sub) (map Some is)); [reflexivity|].
  revert Hl H. clear. intros Hl H. induction H; cbn [map]; constructor; auto.
Qed.
