(** Lemmas for property C97: what the results of the navigation readers say about the lines. *)
From Coq Require Import ZArith QArith Qabs Reals Qreals Ascii String Bool Lia Lra List.
From Verif Require Import M_Py L_Base M_Str S_Str L_Str M_Cal S_Cal L_Cal M_Nmea S_Nmea L_Nmea L_Nav2 L_Revelle S_Table L_Num L_Table S_Other L_Other S_Written.
Import ListNotations.
Open Scope Z_scope.
Local Notation len := List.length.

(** ** Numbers *)
Lemma py_float_dec s m e : py_float s = Ok (FDec m e) -> float_value s (dec_Q m e).
Proof.
  unfold py_float. intros H. destruct (us_ok false (strip s)) eqn:Eu; [|discriminate]. cbn [negb] in H. apply us_ok_well in Eu.
  destruct (take_sign_value (remove_char "_" (strip s))) as [sg [sv [E [Hs Hv]]]].
  destruct (take_sign (remove_char "_" (strip s))) as [neg d]. cbn [fst snd] in *.
  destruct (str_eqb (map lower d) (lit "inf") || str_eqb (map lower d) (lit "infinity")); [discriminate|].
  destruct (str_eqb (map lower d) (lit "nan")); [discriminate|].
  apply parse_dec_value in H. destruct H as [i [f [mm [x [n [e' [-> [Hn [Hm [Hw [Hx Hq]]]]]]]]]]].
  injection Hq as -> ->. exists (strip s), sg, i, f, mm, x, sv, n, e'. split; [apply strip_trimmed|]. split; [exact Eu|].
  split; [exact E|]. split; [exact Hs|]. split; [exact Hn|]. split; [exact Hm|]. split; [exact Hw|]. split; [exact Hx|].
  unfold dec_Q. rewrite Hv. reflexivity.
Qed.

Lemma py_float_special s v : py_float s = Ok v -> fval_R v = None -> not_finite s.
Proof.
  unfold py_float. intros H Hv. destruct (us_ok false (strip s)) eqn:Eu; [|discriminate]. cbn [negb] in H. apply us_ok_well in Eu.
  destruct (take_sign_spec (remove_char "_" (strip s))) as [sg Hs].
  destruct (take_sign (remove_char "_" (strip s))) as [neg d]. destruct Hs as [E [Hs _]].
  exists (strip s), sg, d. split; [apply strip_trimmed|]. split; [exact Eu|]. split; [exact E|]. split; [exact Hs|].
  unfold special. destruct (str_eqb (map lower d) (lit "inf") || str_eqb (map lower d) (lit "infinity")) eqn:E1.
  - apply orb_true_iff in E1. destruct E1 as [E1|E1]; apply str_eqb_eq in E1; rewrite E1; cbn [In]; auto.
  - destruct (str_eqb (map lower d) (lit "nan")) eqn:E2; [apply str_eqb_eq in E2; rewrite E2; cbn [In]; auto|].
    apply parse_dec_value in H. destruct H as [i [f [mm [x [n [e' [_ [_ [_ [_ [_ ->]]]]]]]]]]]. discriminate.
Qed.

Lemma pow10_pos n : 0 <= n -> 0 < 10 ^ n. Proof. intros H. apply Z.pow_pos_nonneg; lia. Qed.

Lemma Qpower_pos e : 0 <= e -> (Qpower (10 # 1) e == inject_Z (10 ^ e))%Q.
Proof. intros H. change (10 # 1) with (inject_Z 10). rewrite Qpower.Zpower_Qpower by exact H. reflexivity. Qed.

(** a decimal as a fraction *)
Lemma dec_Q_frac m e : (dec_Q m e == inject_Z (m * 10 ^ Z.max 0 e) / inject_Z (10 ^ Z.of_nat (Z.to_nat (- e))))%Q.
Proof.
  unfold dec_Q. destruct (Z_le_gt_dec 0 e) as [H|H].
  - rewrite Qpower_pos by exact H. replace (Z.to_nat (- e)) with 0%nat by lia. rewrite Z.max_r by exact H.
    change (10 ^ Z.of_nat 0) with 1. rewrite inject_Z_mult. field.
  - rewrite Z.max_l by lia. rewrite Z2Nat.id by lia. change (10 ^ 0) with 1. rewrite Z.mul_1_r.
    destruct e as [|p|p]; try lia. change (- Zneg p) with (Zpos p). rewrite <- (Qpower_pos (Zpos p)) by lia. reflexivity.
Qed.

Lemma Q2R_pow e : Q2R (Qpower (10 # 1) e) = powerRZ 10 e.
Proof.
  assert (P : forall p : positive, Q2R (Qpower_positive (10 # 1) p) = powerRZ 10 (Zpos p)).
  { intros p. change (Qpower_positive (10 # 1) p) with (Qpower (10 # 1) (Zpos p)). rewrite (Qeq_eqR _ _ (Qpower_pos (Zpos p) ltac:(lia))).
    unfold Q2R, inject_Z. cbn [Qnum Qden]. rewrite Rinv_1, Rmult_1_r. rewrite <- (positive_nat_Z p) at 1.
    rewrite <- pow_IZR. rewrite <- (positive_nat_Z p). rewrite pow_powerRZ. reflexivity. }
  destruct e as [|p|p]; cbn [Qpower].
  - unfold Q2R. cbn. lra.
  - apply P.
  - rewrite Q2R_inv. { rewrite P. reflexivity. }
    intros E. assert (X : Q2R (Qpower_positive (10 # 1) p) = 0%R) by (rewrite (Qeq_eqR _ _ E); unfold Q2R; cbn; lra).
    rewrite P in X. apply (powerRZ_NOR 10 (Zpos p)); [lra|exact X].
Qed.
Lemma dec_R m e : Q2R (dec_Q m e) = (IZR m * powerRZ 10 e)%R.
Proof. unfold dec_Q. rewrite Q2R_mult, Q2R_pow. f_equal. unfold Q2R. cbn [inject_Z Qnum Qden]. field. Qed.

(** ** Seconds *)
Lemma strip0_spec k : forall r, 0 < r < 10 ^ Z.of_nat k -> exists n, (n <= k)%nat /\ r = strip0 k r * 10 ^ Z.of_nat (k - n) /\
  0 < strip0 k r < 10 ^ Z.of_nat n /\ strip0 k r mod 10 <> 0.
Proof.
  induction k as [|k IH]; intros r H; [change (10 ^ Z.of_nat 0) with 1 in H; lia|]. cbn [strip0].
  destruct (Z.eqb_spec (r mod 10) 0) as [E|E].
  - assert (Er : r = 10 * (r / 10)) by (Z.div_mod_to_equations; lia).
    rewrite Nat2Z.inj_succ, Z.pow_succ_r in H by lia. destruct (IH (r / 10)) as [n [H1 [H2 [H3 H4]]]]; [lia|].
    exists n. split; [lia|]. split; [|split; assumption]. rewrite Er at 1. rewrite H2 at 1.
    replace (S k - n)%nat with (S (k - n)) by lia. rewrite Nat2Z.inj_succ, Z.pow_succ_r by lia. lia.
  - exists (S k). split; [lia|]. rewrite Nat.sub_diag. change (10 ^ Z.of_nat 0) with 1. split; [lia|]. split; [exact H|exact E].
Qed.

Lemma Qabs_frac a d : 0 < d -> (Qabs (inject_Z a / inject_Z d) == inject_Z (Z.abs a) / inject_Z d)%Q.
Proof.
  intros H. unfold Qdiv. rewrite Qabs_Qmult. apply Qmult_comp; [reflexivity|]. apply Qabs_pos.
  apply Qinv_le_0_compat. change 0%Q with (inject_Z 0). rewrite <- Zle_Qle. lia.
Qed.

Lemma split_seconds_spec m e s us : split_seconds (FDec m e) = Ok (s, us) -> exists n g,
  (Qabs (dec_Q m e) == inject_Z (Z.abs s) + inject_Z g / inject_Z (10 ^ Z.of_nat n))%Q /\ (Qle 0 (dec_Q m e) -> 0 <= s) /\ (Qlt (dec_Q m e) 0 -> s <= 0) /\
  0 <= g < 10 ^ Z.of_nat n /\ (g = 0 \/ g mod 10 <> 0) /\ us = g * 10000.
Proof.
  unfold split_seconds. set (k := Z.to_nat (- e)). set (b := 10 ^ Z.max 0 e). set (a := Z.abs m * b). set (d := 10 ^ Z.of_nat k).
  set (q := a / d). set (r := a mod d). cbv zeta. destruct (_ || _); [discriminate|]. destruct (_ <=? _); [discriminate|].
  intros H. injection H as <- <-. assert (Hd : 0 < d) by (apply pow10_pos; lia). assert (Hb : 0 < b) by (apply pow10_pos; lia).
  assert (Ha : 0 <= a) by (unfold a; nia).
  assert (Hq : 0 <= q) by (apply Z.div_pos; lia). assert (Hr : 0 <= r < d) by (apply Z.mod_pos_bound; lia).
  assert (Eq : a = d * q + r) by (apply Z.div_mod; lia).
  assert (Es : Z.abs (signed (m <? 0) q) = q) by (unfold signed; destruct (m <? 0); lia).
  assert (Ev : (dec_Q m e == inject_Z (m * b) / inject_Z d)%Q) by apply dec_Q_frac.
  assert (Hdq : ~ (inject_Z d == 0)%Q) by (intros X; apply (eq_sym) in X || idtac; unfold Qeq in X; cbn in X; lia).
  assert (V : (Qabs (dec_Q m e) == inject_Z q + inject_Z r / inject_Z d)%Q).
  { rewrite Ev, Qabs_frac by exact Hd. replace (Z.abs (m * b)) with a by (unfold a; rewrite Z.abs_mul; f_equal; lia).
    rewrite Eq, inject_Z_plus, inject_Z_mult. field. exact Hdq. }
  assert (Sg : (Qle 0 (dec_Q m e) -> 0 <= signed (m <? 0) q) /\ (Qlt (dec_Q m e) 0 -> signed (m <? 0) q <= 0)).
  { assert (Hi : (0 < / inject_Z d)%Q) by (apply Qinv_lt_0_compat; change 0%Q with (inject_Z 0); rewrite <- Zlt_Qlt; exact Hd).
    destruct (Z.ltb_spec m 0) as [Hm|Hm]; cbn [signed].
    - split; [|lia]. intros X. exfalso. rewrite Ev in X. apply (Qle_not_lt _ _ X). unfold Qdiv.
      setoid_replace 0%Q with (inject_Z 0 * / inject_Z d)%Q by (unfold inject_Z at 1; ring). apply Qmult_lt_r; [exact Hi|]. rewrite <- Zlt_Qlt. nia.
    - split; [lia|]. intros X. exfalso. rewrite Ev in X. apply (Qlt_not_le _ _ X). unfold Qdiv.
      setoid_replace 0%Q with (inject_Z 0 * / inject_Z d)%Q by (unfold inject_Z at 1; ring). apply Qmult_le_r; [exact Hi|]. rewrite <- Zle_Qle. nia. }
  destruct (Z.eqb_spec r 0) as [E|E].
  - exists 0%nat, 0. rewrite Es. split; [|split; [apply Sg|split; [apply Sg|]]].
    + rewrite V, E. change (inject_Z 0) with 0%Q. field. split; [discriminate|exact Hdq].
    + change (10 ^ Z.of_nat 0) with 1. lia.
  - destruct (strip0_spec k r) as [n [H1 [H2 [H3 H4]]]]; [fold d; lia|]. exists n, (strip0 k r). rewrite Es.
    split; [|split; [apply Sg|split; [apply Sg|split; [lia|split; [right; exact H4|reflexivity]]]]].
    rewrite V. apply Qplus_comp; [reflexivity|]. rewrite H2 at 1. unfold d.
    replace (Z.of_nat k) with (Z.of_nat (k - n) + Z.of_nat n) by lia. rewrite Z.pow_add_r by lia.
    assert (P1 : 0 < 10 ^ Z.of_nat (k - n)) by (apply pow10_pos; lia). assert (P2 : 0 < 10 ^ Z.of_nat n) by (apply pow10_pos; lia).
    rewrite !inject_Z_mult. field. split; intros X; unfold Qeq in X; cbn in X; lia.
Qed.

(** ** Lines *)
Lemma join_last sep l x : l <> [] -> join sep (l ++ [x]) = join sep l ++ sep ++ x.
Proof.
  induction l as [|a l IH]; intros H; [congruence|]. destruct l as [|b l]; [reflexivity|].
  cbn [app]. rewrite (join_cons sep a (b :: l ++ [x])), (join_cons sep a (b :: l)) by discriminate.
  change (b :: l ++ [x]) with ((b :: l) ++ [x]). rewrite IH by discriminate. rewrite <- !app_assoc. reflexivity.
Qed.

Lemma split_occurs t s : t <> [] -> occurs t s -> exists l a, split t s = l ++ [a] /\ s = join t l ++ t ++ a /\ l <> [] /\ ~ occurs t a.
Proof.
  intros Ht Ho. destruct (first_occurrence t s Ho) as [a [b [E Hn]]]. subst s.
  pose proof (split_first t a b Ht Hn) as Es. pose proof (join_split t (a ++ t ++ b) Ht) as Ej.
  pose proof (split_parts_clean t (a ++ t ++ b) Ht) as Ec.
  destruct (exists_last (l := split t b) (split_nonnil t b)) as [l [x El]]. rewrite Es, El in *.
  exists (a :: l), x. split; [reflexivity|]. split.
  - rewrite <- join_last by discriminate. symmetry. exact Ej.
  - split; [discriminate|]. rewrite Forall_forall in Ec. apply Ec. right. apply in_or_app. right. left. reflexivity.
Qed.

Lemma post_fields_sentence talker ln fields : occurs talker ln -> post_fields talker ln = Ok fields -> fields <> [] ->
  exists pre, sentence talker ln pre fields.
Proof.
  intros Ho H Hf. unfold post_fields, py_split in H. destruct talker as [|t0 t]; [discriminate|]. set (talker := t0 :: t) in *. cbn [bind] in H.
  destruct (split_occurs talker ln ltac:(discriminate) Ho) as [l [a [Es [El [Hl Ha]]]]]. rewrite Es, last_last in H.
  injection H as H. unfold lstrip, lstrip_by in H. destruct (drop_while_split is_space a) as [ws [Ea [Hw Hc]]].
  set (b := drop_while is_space a) in *. assert (Hws : Forall space ws).
  { eapply Forall_impl; [|exact Hw]. intros c. apply is_space_spec. }
  pose proof (split_char_clean "," b) as Hcl. pose proof (join_split (lit ",") b ltac:(discriminate)) as Ej.
  change (lit ",") with [","%char] in *. pose proof (split_nonnil [","%char] b) as Hnn. change comma with ","%char in *.
  destruct (split [","%char] b) as [|f0 r]; [congruence|]. exists (join talker l). destruct f0 as [|c f0].
  - subst fields. rewrite join_cons in Ej by exact Hf. cbn [app] in Ej.
    apply sen_comma with (ws := ws); [exact Hws|exact Hf|inversion Hcl; assumption| |].
    + change comma with ","%char. rewrite Ej, <- Ea. exact Ha.
    + change comma with ","%char. rewrite Ej, <- Ea. exact El.
  - apply sen_direct with (ws := ws) (c := c) (f := f0) (rest := r); [exact Hws|symmetry; exact H| |rewrite <- H; exact Hcl| |].
    + apply is_space_false. destruct r as [|f1 r]; [cbn [join] in Ej; apply (Hc c f0); symmetry; exact Ej|].
      rewrite join_cons in Ej by discriminate. cbn [app] in Ej. eapply Hc. symmetry. exact Ej.
    + change comma with ","%char. rewrite <- H, Ej, <- Ea. exact Ha.
    + change comma with ","%char. rewrite <- H, Ej, <- Ea. exact El.
Qed.

Lemma pre_part_before talker ln pre : occurs talker ln -> pre_part talker ln = Ok pre -> before_talker talker ln pre.
Proof.
  intros Ho H. unfold pre_part, py_split in H. destruct talker as [|t0 t]; [discriminate|]. set (talker := t0 :: t) in *. cbn [bind] in H.
  injection H as H. destruct (first_occurrence talker ln Ho) as [a [b [E Hn]]]. subst ln. rewrite split_first in H by (discriminate || exact Hn).
  cbn [hd] in H. subst pre. exists b. split; [reflexivity|exact Hn].
Qed.

Lemma getr_inv (A : Type) (l : list A) n a : getr l n = Ok a -> nth_error l n = Some a.
Proof. unfold getr. destruct (nth_error l n); intros H; [congruence|discriminate]. Qed.

Lemma clock_line_written talker ln h mi s us : occurs talker ln -> clock_line talker ln = Ok (h, mi, s, us) ->
  exists pre fields, sentence talker ln pre fields /\ clock_written fields h mi s us.
Proof.
  intros Ho H. unfold clock_line in H. destruct (post_fields talker ln) as [fields|] eqn:Ef; [|discriminate]. cbn [bind] in H.
  destruct (getr fields 0) as [p0|] eqn:E0; [|discriminate]. cbn [bind] in H. apply getr_inv in E0.
  destruct fields as [|x rest]; [discriminate|]. cbn [nth_error] in E0. injection E0 as ->.
  destruct (py_int (firstn 2 p0)) as [h'|] eqn:Eh; [|discriminate]. cbn [bind] in H.
  destruct (py_int (firstn 2 (skipn 2 p0))) as [mi'|] eqn:Em; [|discriminate]. cbn [bind] in H.
  destruct (py_float (skipn 4 p0)) as [v|] eqn:Es; [|discriminate]. cbn [bind] in H.
  destruct v as [m e|neg|]; [|discriminate|discriminate].
  destruct (split_seconds (FDec m e)) as [[s' us']|] eqn:Ec; [|discriminate]. cbn [bind fst snd] in H. injection H as -> -> -> ->.
  destruct (post_fields_sentence talker ln (p0 :: rest) Ho Ef ltac:(discriminate)) as [pre Hp]. exists pre, (p0 :: rest). split; [exact Hp|].
  destruct (split_seconds_spec _ _ _ _ Ec) as [n [g [V1 [V2 [V3 [V4 [V5 V6]]]]]]].
  apply py_int_value in Eh. apply py_int_value in Em. pose proof (py_float_dec _ _ _ Es) as Hv.
  assert (L : (4 < len p0)%nat).
  { destruct (le_lt_dec (len p0) 4) as [L|L]; [|exact L]. rewrite skipn_all2 in Es by exact L. discriminate. }
  exists (firstn 2 p0), (firstn 2 (skipn 2 p0)), (skipn 4 p0), rest, (dec_Q m e), n, g.
  split. { f_equal. rewrite <- (firstn_skipn 2 p0) at 1. f_equal. rewrite <- (firstn_skipn 2 (skipn 2 p0)) at 1. f_equal. destruct p0 as [|? [|? ?]]; reflexivity. }
  split; [rewrite firstn_length; lia|]. split; [rewrite firstn_length, skipn_length; lia|].
  split; [exact Eh|]. split; [exact Em|]. split; [exact Hv|]. split; [exact V1|]. split; [exact V2|]. split; [exact V3|]. split; [exact V4|]. split; [exact V5|exact V6].
Qed.

(** ** Dates *)
Lemma dt_us_inv y m d h mi s us i : dt_us y m d h mi s us = Ok i ->
  1 <= y <= 9999 /\ valid_date (y, m, d) /\ 0 <= h < 24 /\ 0 <= mi < 60 /\ 0 <= s < 60 /\ 0 <= us < 1000000 /\ instant (y, m, d) h mi s us i.
Proof.
  unfold dt_us. destruct (forallb _ _); [|discriminate]. destruct (datetime_new y m d h mi s us (Some 0)) as [t|] eqn:E; [|discriminate].
  cbn [bind]. intros H. apply datetime_new_inv in E. destruct E as [-> [H1 [H2 [H3 [H4 [H5 H6]]]]]].
  split; [exact H1|]. split; [exact H2|]. split; [exact H3|]. split; [exact H4|]. split; [exact H5|]. split; [exact H6|].
  pose proof (instant_local y m d h mi s us (Some 0) H2) as L. replace i with (local_us (mk_datetime y m d h mi s us (Some 0))); [exact L|].
  apply (f_equal (fun r => match r with Ok z => z | _ => 0 end)) in H. rewrite <- H. unfold utc_us. cbn. lia.
Qed.

Lemma doy_us_inv y doy h mi s us i : doy_us y doy h mi s us = Ok i -> exists d,
  1 <= y <= 9999 /\ 1 <= doy <= 366 /\ day_of_year y doy d /\ valid_date d /\ 0 <= h < 24 /\ 0 <= mi < 60 /\ 0 <= s < 60 /\ 0 <= us < 1000000 /\ instant d h mi s us i.
Proof.
  unfold doy_us. destruct (_ && _) eqn:E; [|discriminate]. intros H. rewrite !andb_true_iff, !Z.leb_le in E.
  assert (V : valid_date (y, 1, 1)) by (exists 31; split; [apply md_31; tauto|lia]).
  destruct (days_after_total (y, 1, 1) (Z.to_nat (doy - 1)) V) as [d Hd]. exists d. pose proof (days_after_valid _ _ _ V Hd) as Vd.
  split; [lia|]. split; [lia|]. split; [exists (Z.to_nat (doy - 1)); split; [exact Hd|lia]|]. split; [exact Vd|].
  split; [lia|]. split; [lia|]. split; [lia|]. split; [lia|]. exists (ord d - epoch_ord). split; [apply day_number_ord; exact Vd|].
  apply days_after_ord in Hd. cbn [ord] in Hd. change us_per_sec with 1000000 in H.
  apply (f_equal (fun r => match r with Ok z => z | _ => 0 end)) in H. cbv beta iota in H. rewrite <- H. rewrite Hd. lia.
Qed.

(** ** Searches *)
Lemma search_inv (A : Type) (m : str -> option A) s : forall a, search m s = Ok a -> exists u v, s = u ++ v /\ m v = Some a /\
  forall u' v', s = u' ++ v' -> (len u' < len u)%nat -> m v' = None.
Proof.
  induction s as [|c s IH]; intros a H; cbn [search] in H.
  - destruct (m []) as [x|] eqn:E; [|discriminate]. injection H as ->. exists [], []. split; [reflexivity|]. split; [exact E|]. cbn [List.length]. lia.
  - destruct (m (c :: s)) as [x|] eqn:E; [injection H as ->|].
    + exists [], (c :: s). split; [reflexivity|]. split; [exact E|]. cbn [List.length]. lia.
    + destruct (IH a H) as [u [v [E1 [E2 E3]]]]. exists (c :: u), v. split; [cbn [app]; congruence|]. split; [exact E2|].
      intros [|c' u'] v' E' L; [cbn [app] in E'; congruence|]. cbn [app] in E'. injection E' as _ E'. apply (E3 u' v' E'). cbn [List.length] in L. lia.
Qed.

Lemma search_first (A K : Type) (m : str -> option A) (T : str -> K -> Prop) s a k :
  (forall v k', T v k' -> m v <> None) -> search m s = Ok a -> (forall v, m v = Some a -> T v k) -> first_text T s k.
Proof.
  intros HT H Hk. destruct (search_inv _ _ _ _ H) as [u [v [E [Hm Hn]]]]. exists u, v. split; [exact E|]. split; [apply Hk; exact Hm|].
  intros u' v' k' E' L X. apply (HT _ _ X). apply (Hn u' v' E' L).
Qed.

Lemma zth0 a l : zth (ints (a :: l)) 0 = digits_val a. Proof. reflexivity. Qed.
Lemma zthS a l n : zth (ints (a :: l)) (S n) = zth (ints l) n. Proof. reflexivity. Qed.

Ltac peel E z s B := apply pmatch_dig_inv in E; let g := fresh "g" in destruct E as [z [s [g [B [-> [-> E]]]]]].
Ltac peel_lit E s := apply pmatch_lit_inv2 in E; destruct E as [s [-> E]].

Lemma Atlantis_inv v g r : pmatch pat_Atlantis v = Some (g, r) -> nav_text v (zth (ints g) 0, zth (ints g) 1, zth (ints g) 2).
Proof.
  unfold pat_Atlantis. intros E. peel_lit E s1. peel E y s2 By. peel_lit E s3. peel E m s4 Bm. peel_lit E s5.
  rewrite <- (app_nil_r [PDig 2]) in E. peel E d s6 Bd. rewrite !zthS, !zth0, !pad_val_small by assumption.
  exists s6. split; [reflexivity|]. split; [exact By|]. split; [exact Bm|exact Bd].
Qed.
Lemma Atlantis_some v k : nav_text v k -> pmatch pat_Atlantis v <> None.
Proof.
  destruct k as [[y m] d]. intros [b [-> _]]. unfold pat_Atlantis. rewrite pmatch_lit, pmatch_dig, pmatch_lit, pmatch_dig, pmatch_lit.
  rewrite <- (app_nil_r [PDig 2]), pmatch_dig. discriminate.
Qed.
Lemma Thompson_inv v g r : pmatch pat_Thompson v = Some (g, r) -> us_text v (zth (ints g) 2, zth (ints g) 0, zth (ints g) 1).
Proof.
  unfold pat_Thompson. intros E. peel E m s2 Bm. peel_lit E s3. peel E d s4 Bd. peel_lit E s5.
  rewrite <- (app_nil_r [PDig 4]) in E. peel E y s6 By. rewrite !zthS, !zth0, !pad_val_small by assumption.
  exists s6. split; [reflexivity|]. split; [exact By|]. split; [exact Bm|exact Bd].
Qed.
Lemma Thompson_some v k : us_text v k -> pmatch pat_Thompson v <> None.
Proof.
  destruct k as [[y m] d]. intros [b [-> _]]. unfold pat_Thompson. rewrite pmatch_dig, pmatch_lit, pmatch_dig, pmatch_lit.
  rewrite <- (app_nil_r [PDig 4]), pmatch_dig. discriminate.
Qed.
Lemma NBP_w w v g r : (w = 2 \/ w = 3)%nat -> pmatch ([PDig 2] ++ plit "+" ++ [PDig w] ++ plit ":") v = Some (g, r) -> doy_text v (zth (ints g) 0, zth (ints g) 1).
Proof.
  intros Hw E. peel E yy s1 By. peel_lit E s2. peel E doy s3 Bd. rewrite <- (app_nil_r (plit ":")) in E. peel_lit E s4.
  rewrite !zthS, !zth0, !pad_val_small by assumption. exists w, s4. split; [reflexivity|]. split; [exact Hw|]. split; assumption.
Qed.
Lemma NBP_inv v g r : match_NBP v = Some (g, r) -> doy_text v (zth (ints g) 0, zth (ints g) 1).
Proof.
  unfold match_NBP. destruct (pmatch ([PDig 2] ++ plit "+" ++ [PDig 3] ++ plit ":") v) as [x|] eqn:E.
  - intros H. injection H as ->. apply (NBP_w 3 v g r); [right; reflexivity|exact E].
  - apply (NBP_w 2 v g r). left. reflexivity.
Qed.
Lemma NBP_some v k : doy_text v k -> match_NBP v <> None.
Proof.
  destruct k as [yy doy]. intros [w [b [-> [[->| ->] _]]]]; unfold match_NBP.
  - destruct (pmatch ([PDig 2] ++ plit "+" ++ [PDig 3] ++ plit ":") _); [discriminate|].
    rewrite pmatch_dig, pmatch_lit, pmatch_dig, pmatch_lit_end. discriminate.
  - rewrite pmatch_dig, pmatch_lit, pmatch_dig, pmatch_lit_end. discriminate.
Qed.

(** ** Stamps of whole lines *)
Lemma pad0 z : pad 0 z = []. Proof. reflexivity. Qed.

Lemma posix_inv v m k : match_posix v = Some (m, k) -> posix_text v (inject_Z m / inject_Z (10 ^ k))%Q.
Proof.
  unfold match_posix. intros H. pose proof (span_spec is_digit v) as Sp. destruct (span is_digit v) as [i r]. destruct Sp as [Ev [Hi _]].
  destruct i as [|c0 i']; [discriminate|]. set (i := c0 :: i') in *.
  assert (G : exists f r' p, (match r with c :: t => if Ascii.eqb c "." then span is_digit t else ([], r) | [] => ([], r) end) = (f, r') /\ r = p ++ r' /\
     Forall (fun c => is_digit c = true) f /\ (p = lit "." ++ f \/ (p = [] /\ f = []))).
  { destruct r as [|c t]; [exists [], [], []; split; [reflexivity|]; split; [reflexivity|]; split; [constructor|right; split; reflexivity]|].
    destruct (Ascii.eqb_spec c ".") as [->|_].
    - pose proof (span_spec is_digit t) as Sp. destruct (span is_digit t) as [f r']. destruct Sp as [Et [Hf _]].
      exists f, r', (lit "." ++ f). split; [reflexivity|]. split; [rewrite Et; reflexivity|]. split; [exact Hf|left; reflexivity].
    - exists [], (c :: t), []. split; [reflexivity|]. split; [reflexivity|]. split; [constructor|right; split; reflexivity]. }
  destruct G as [f [r' [p [G1 [G2 [Hf Hp]]]]]]. rewrite G1 in H. destruct (prefixb (lit " $INGGA") r') eqn:Er; [|discriminate].
  apply prefixb_spec in Er. destruct Er as [b Eb].
  assert (Em : m = digits_val (i ++ f)) by congruence. assert (Ek : k = Z.of_nat (len f)) by congruence. clear H.
  exists (len i), (digits_val i), (len f), (digits_val f), b, p. split; [subst i; cbn [List.length]; lia|].
  split; [apply digits_val_bound; exact Hi|]. split; [apply digits_val_bound; exact Hf|].
  split. { rewrite (pad_of_digits i Hi), Ev, G2, Eb. reflexivity. }
  split. { rewrite (pad_of_digits f Hf). destruct Hp as [Hp|[Hp Hp']]; [left; exact Hp|right; rewrite Hp'; split; [exact Hp|reflexivity]]. }
  rewrite Em, Ek, digits_val_app, inject_Z_plus, inject_Z_mult. assert (P : 0 < 10 ^ Z.of_nat (len f)) by (apply pow10_pos; lia).
  field. intros X; unfold Qeq in X; cbn in X; lia.
Qed.
Lemma posix_some v q : posix_text v q -> match_posix v <> None.
Proof.
  intros [w [s [k [f [b [p [Hw [Hs [Hf [-> [Hp _]]]]]]]]]]]. unfold match_posix.
  assert (Hd : forall c r, p ++ lit " $INGGA" ++ b = c :: r -> is_digit c = false).
  { intros c r E. destruct Hp as [->|[-> _]]; injection E as <- _; reflexivity. }
  rewrite (span_app is_digit (pad w s) _ (pad_digits w s) Hd). destruct (pad w s) as [|c0 i] eqn:E0; [exfalso; exact (pad_nonnil w s Hw E0)|].
  destruct Hp as [->|[-> _]].
  - change (lit ".") with ["."%char]. cbn [app]. rewrite ascii_eqb_refl.
    rewrite (span_app is_digit (pad k f) (lit " $INGGA" ++ b) (pad_digits k f)) by (intros c r E; injection E as <- _; reflexivity).
    rewrite prefixb_app. discriminate.
  - cbn. discriminate.
Qed.

Lemma iso_inv v g f : match_iso v = Some (g, f) -> 
  iso_text v ((zth (ints g) 0, zth (ints g) 1, zth (ints g) 2), (zth (ints g) 3, zth (ints g) 4, zth (ints g) 5), f).
Proof.
  unfold match_iso. destruct (pmatch pat_iso v) as [[g' r]|] eqn:E; [|discriminate]. destruct r as [|c r]; [discriminate|].
  destruct (is_digit c) eqn:Ec; [|discriminate]. pose proof (span_spec (fun c => negb (Ascii.eqb c "Z") && negb (Ascii.eqb c nl)) r) as Sp.
  destruct (span _ r) as [f' r']. destruct Sp as [Er [Hf _]]. destruct r' as [|z r']; [discriminate|]. destruct (Ascii.eqb_spec z "Z") as [->|]; [|discriminate].
  intros H. assert (g = g') by congruence. assert (Ef : f = c :: f') by congruence. subst g'. clear H.
  unfold pat_iso in E. peel E y s1 By. peel_lit E s2. peel E m s3 Bm. peel_lit E s4. peel E d s5 Bd. peel_lit E s6.
  peel E h s7 Bh. peel_lit E s8. peel E mi s9 Bi. peel_lit E s10. peel E s s11 Bs. rewrite <- (app_nil_r (plit ".")) in E. peel_lit E s12.
  cbn [pmatch] in E. assert (Es : s12 = c :: r) by congruence. clear E.
  rewrite !zthS, !zth0, !pad_val_small by assumption. exists c, f', r'.
  split. { rewrite Es, Er, Ef. reflexivity. }
  split; [exact Ef|]. split; [apply is_digit_spec; exact Ec|].
  rewrite Forall_forall in Hf. split; [intros Hin; specialize (Hf _ Hin); discriminate|]. split; [intros Hin; specialize (Hf _ Hin); discriminate|].
  split; [exact By|]. split; [exact Bm|]. split; [exact Bd|]. split; [exact Bh|]. split; [exact Bi|exact Bs].
Qed.
Lemma iso_some v k : iso_text v k -> match_iso v <> None.
Proof.
  destruct k as [[[[y m] d] [[h mi] s]] f]. intros [c [r [b [-> [-> [Hc [Hz [Hn _]]]]]]]]. unfold match_iso, pat_iso.
  rewrite pmatch_dig, pmatch_lit, pmatch_dig, pmatch_lit, pmatch_dig, pmatch_lit, pmatch_dig, pmatch_lit, pmatch_dig, pmatch_lit, pmatch_dig, pmatch_lit_end.
  cbn [app]. apply is_digit_spec in Hc. rewrite Hc.
  rewrite (span_app (fun c => negb (Ascii.eqb c "Z") && negb (Ascii.eqb c nl)) r (lit "Z" ++ b)).
  - cbn [app lit list_ascii_of_string]. rewrite ascii_eqb_refl. discriminate.
  - apply Forall_forall. intros x Hx. destruct (Ascii.eqb_spec x "Z") as [->|_]; [contradiction|]. destruct (Ascii.eqb_spec x nl) as [->|_]; [contradiction|]. reflexivity.
  - intros x t E. injection E as <- _. reflexivity.
Qed.

Lemma round_div_near m d : 0 < d -> Z.abs (2 * (round_div m d * d - m)) <= d.
Proof.
  intros H. unfold round_div. pose proof (Z.div_mod m d ltac:(lia)) as E. pose proof (Z.mod_pos_bound m d H) as B. cbv zeta.
  set (q := m / d) in *. set (r := m mod d) in *. clearbody q r.
  destruct (Z.ltb_spec (2 * r) d); [nia|]. destruct (Z.ltb_spec d (2 * r)); [nia|]. destruct (Z.even q); nia.
Qed.
Lemma from_posix_near m k i : 0 <= k -> from_posix m k = Ok i -> (Qabs (inject_Z i - inject_Z m / inject_Z (10 ^ k) * inject_Z 1000000) <= 1 # 2)%Q.
Proof.
  intros Hk. unfold from_posix. destruct (_ <? (_ + 1 - _) * _); [|destruct (_ <? _); [|destruct (_ <? _)]; discriminate]. intros H. assert (E : i = round_div (m * us_per_sec) (10 ^ k)) by congruence. clear H.
  change us_per_sec with 1000000 in E. pose proof (pow10_pos k Hk) as P. pose proof (round_div_near (m * 1000000) (10 ^ k) P) as R. rewrite <- E in R.
  set (d := 10 ^ k) in *. clearbody d.
  assert (Hd : ~ (inject_Z d == 0)%Q) by (intros X; unfold Qeq in X; cbn in X; lia).
  setoid_replace (inject_Z i - inject_Z m / inject_Z d * inject_Z 1000000)%Q with (inject_Z (i * d - m * 1000000) / inject_Z d)%Q.
  - rewrite Qabs_frac by exact P. apply Qle_shift_div_r; [change 0%Q with (inject_Z 0); rewrite <- Zlt_Qlt; exact P|].
    unfold Qle, Qmult, inject_Z. cbn [Qnum Qden]. rewrite Z.abs_mul in R. change (Z.abs 2) with 2 in R. lia.
  - unfold Zminus. rewrite inject_Z_plus, inject_Z_opp, !inject_Z_mult. field. exact Hd.
Qed.

Lemma iso_micro_floor f us : iso_micro f = Ok us -> exists q, float_value ("."%char :: f) q /\ (inject_Z us <= q * inject_Z 1000000 < inject_Z (us + 1))%Q.
Proof.
  unfold iso_micro. destruct (py_float ("."%char :: f)) as [v|] eqn:E; [|discriminate]. cbn [bind]. destruct v as [m e|neg|]; try discriminate.
  intros H. assert (Eu : us = m * 10 ^ Z.max 0 (e + 6) / 10 ^ Z.max 0 (- (e + 6))) by congruence. clear H.
  exists (dec_Q m e). split; [apply py_float_dec; exact E|].
  assert (V : (dec_Q m e * inject_Z 1000000 == inject_Z (m * 10 ^ Z.max 0 (e + 6)) / inject_Z (10 ^ Z.max 0 (- (e + 6))))%Q).
  { pose proof (dec_Q_frac m (e + 6)) as D. replace (Z.of_nat (Z.to_nat (- (e + 6)))) with (Z.max 0 (- (e + 6))) in D by lia.
    rewrite <- D. unfold dec_Q. rewrite Qpower.Qpower_plus by discriminate. change (Qpower (10 # 1) 6) with (1000000 # 1). unfold inject_Z at 2. ring. }
  rewrite V. assert (P : 0 < 10 ^ Z.max 0 (- (e + 6))) by (apply pow10_pos; lia).
  set (a := m * 10 ^ Z.max 0 (e + 6)) in *. set (d := 10 ^ Z.max 0 (- (e + 6))) in *. clearbody a d. clear V E.
  pose proof (Z.div_mod a d ltac:(lia)) as Ed. pose proof (Z.mod_pos_bound a d P) as B. rewrite <- Eu in Ed.
  split.
  - apply Qle_shift_div_l; [change 0%Q with (inject_Z 0); rewrite <- Zlt_Qlt; exact P|]. rewrite <- inject_Z_mult, <- Zle_Qle. lia.
  - apply Qlt_shift_div_r; [change 0%Q with (inject_Z 0); rewrite <- Zlt_Qlt; exact P|]. rewrite <- inject_Z_mult, <- Zlt_Qlt. lia.
Qed.

(** ** strptime *)
Lemma directive_inv lo hi sep s d r : directive lo hi sep s = Ok (d, r) ->
  s = pad (len d) (digits_val d) ++ sep ++ r /\ (lo <= len d <= hi)%nat /\ 0 <= digits_val d < 10 ^ Z.of_nat (len d).
Proof.
  unfold directive. pose proof (span_spec is_digit s) as Sp. destruct (span is_digit s) as [d' r']. destruct Sp as [Es [Hd _]].
  destruct (_ && _) eqn:E; [|discriminate]. intros H. assert (d' = d) by congruence. assert (Er : r = skipn (len sep) r') by congruence. subst d'. clear H.
  rewrite !andb_true_iff, !Nat.leb_le in E. destruct E as [E1 E2]. apply prefixb_spec in E2. destruct E2 as [t Et].
  split; [|split; [lia|apply digits_val_bound; exact Hd]]. rewrite (pad_of_digits d Hd), Es, Er, Et. f_equal. f_equal.
  rewrite skipn_app, skipn_all2, Nat.sub_diag by lia. reflexivity.
Qed.

(** ** Positions *)
Lemma degmin_written w s d m neg : (w <= len s)%nat -> py_int (firstn w s) = Ok d -> py_float (skipn w s) = Ok m -> degrees_written w s neg (degmin d m neg).
Proof.
  intros L Hd Hm. exists (firstn w s), (skipn w s), d. split; [symmetry; apply firstn_skipn|]. split; [rewrite firstn_length; lia|].
  split; [apply py_int_value; exact Hd|]. unfold degmin. destruct (fval_R m) as [r|] eqn:E.
  - left. destruct m as [mm e|neg'|]; try discriminate. exists (dec_Q mm e). split; [apply py_float_dec; exact Hm|].
    cbn [option_map]. rewrite dec_R. cbn [fval_R] in E. assert (Er : r = (IZR mm * powerRZ 10 e)%R) by congruence. rewrite Er.
    destruct neg; f_equal; ring.
  - right. split; [eapply py_float_special; [exact Hm|exact E]|reflexivity].
Qed.
Lemma float_length w s m : py_float (skipn w s) = Ok m -> (w <= len s)%nat.
Proof. intros H. destruct (le_lt_dec w (len s)) as [L|L]; [exact L|]. rewrite skipn_all2 in H by lia. discriminate. Qed.
