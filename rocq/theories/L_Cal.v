(** The ordinal arithmetic of [datetime] counts days of the Gregorian calendar. *)
From Coq Require Import List ZArith Bool Lia.
From Verif Require Import M_Py M_Cal S_Cal.
Import ListNotations.
Open Scope Z_scope.

Lemma is_leap_spec y : is_leap y = true <-> leap y.
Proof.
  unfold is_leap, leap. rewrite andb_true_iff, orb_true_iff, negb_true_iff, !Z.eqb_eq, Z.eqb_neq.
  split; [tauto|]. intros [H|H]; [tauto|]. split; [|tauto].
  Z.div_mod_to_equations. lia.
Qed.

Lemma leap_dec y : leap y \/ ~ leap y.
Proof.
  destruct (is_leap y) eqn:E; [left; apply is_leap_spec; exact E|right].
  intros H. apply is_leap_spec in H. congruence.
Qed.

Lemma is_leap_false y : ~ leap y -> is_leap y = false.
Proof. intros H. destruct (is_leap y) eqn:E; [|reflexivity]. apply is_leap_spec in E. contradiction. Qed.

Lemma month_days_fun y m n : month_days y m n -> days_in_month y m = n.
Proof.
  intros H. unfold days_in_month.
  destruct H as [m H|m H|H|H]; [| |rewrite (is_leap_false y H); reflexivity|rewrite (proj2 (is_leap_spec y) H); reflexivity];
    repeat (destruct H as [->|H]; [reflexivity|]); subst; reflexivity.
Qed.

Lemma month_days_range y m n : month_days y m n -> 1 <= m <= 12 /\ 28 <= n <= 31.
Proof. intros H. destruct H; lia. Qed.

Lemma month_days_total y m : 1 <= m <= 12 -> month_days y m (days_in_month y m).
Proof.
  intros H.
  assert (Hm : m = 1 \/ m = 2 \/ m = 3 \/ m = 4 \/ m = 5 \/ m = 6 \/ m = 7 \/ m = 8 \/ m = 9 \/ m = 10 \/ m = 11 \/ m = 12) by lia.
  destruct Hm as [->|[->|[->|[->|[->|[->|[->|[->|[->|[->|[->| ->]]]]]]]]]]];
   try (change (days_in_month y _) with 31; apply md_31; tauto);
   try (change (days_in_month y _) with 30; apply md_30; tauto).
  destruct (leap_dec y) as [Hl|Hl]; unfold days_in_month.
  - rewrite (proj2 (is_leap_spec y) Hl). apply md_feb_leap. exact Hl.
  - rewrite (is_leap_false y Hl). apply md_feb. exact Hl.
Qed.

Lemma valid_date_iff y m d : valid_date (y, m, d) <-> 1 <= m <= 12 /\ 1 <= d <= days_in_month y m.
Proof.
  split.
  - intros [n [H1 H2]]. split; [apply (month_days_range _ _ _ H1)|]. rewrite (month_days_fun _ _ _ H1). exact H2.
  - intros [H1 H2]. exists (days_in_month y m). split; [apply month_days_total; exact H1|exact H2].
Qed.

Lemma days_before_month_S y m : 1 <= m < 12 -> days_before_month y (m + 1) = days_before_month y m + days_in_month y m.
Proof.
  intros H.
  assert (Hm : m = 1 \/ m = 2 \/ m = 3 \/ m = 4 \/ m = 5 \/ m = 6 \/ m = 7 \/ m = 8 \/ m = 9 \/ m = 10 \/ m = 11) by lia.
  destruct Hm as [->|[->|[->|[->|[->|[->|[->|[->|[->|[->| ->]]]]]]]]]]; unfold days_before_month, days_in_month;
    cbn; destruct (is_leap y); reflexivity.
Qed.

Lemma days_before_year_S y : days_before_year (y + 1) = days_before_year y + 365 + (if is_leap y then 1 else 0).
Proof.
  unfold days_before_year. replace (y + 1 - 1) with y by lia.
  destruct (leap_dec y) as [H|H].
  - rewrite (proj2 (is_leap_spec y) H). unfold leap in H. Z.div_mod_to_equations. lia.
  - rewrite (is_leap_false y H). unfold leap in H. Z.div_mod_to_equations. lia.
Qed.

Lemma year_end y : days_before_month y 12 + 31 = 365 + (if is_leap y then 1 else 0).
Proof.
  unfold days_before_month. change (2 <? 12) with true. cbn [andb].
  change (fold_left Z.add (firstn (Z.to_nat (12 - 1)) month_table) 0) with 334. destruct (is_leap y); reflexivity.
Qed.

Lemma year_start y : days_before_month y 1 = 0.
Proof. reflexivity. Qed.

Definition ord (t : date) : Z := let '(y, m, d) := t in ymd2ord y m d.

Lemma next_day_ord t u : next_day t u -> ord u = ord t + 1.
Proof.
  intros H. destruct H as [y m d n Hm Hd|y m n Hm Hlt|y]; cbn [ord]; unfold ymd2ord.
  - lia.
  - pose proof (month_days_range _ _ _ Hm). rewrite days_before_month_S by lia.
    rewrite (month_days_fun _ _ _ Hm). lia.
  - rewrite days_before_year_S, year_start. pose proof (year_end y). lia.
Qed.

Lemma next_day_valid t u : next_day t u -> valid_date t /\ valid_date u.
Proof.
  intros H. destruct H as [y m d n Hm Hd|y m n Hm Hlt|y].
  - split; exists n; split; auto; lia.
  - pose proof (month_days_range _ _ _ Hm). split.
    + exists n. split; [exact Hm|lia].
    + pose proof (month_days_total y (m + 1) ltac:(lia)) as Ht. exists (days_in_month y (m + 1)). split; [exact Ht|].
      apply month_days_range in Ht. lia.
  - split; exists 31; (split; [apply md_31; tauto|lia]).
Qed.

Lemma next_day_total t : valid_date t -> exists u, next_day t u.
Proof.
  destruct t as [[y m] d]. intros [n [Hm Hd]].
  destruct (Z.eq_dec d n) as [->|Hn].
  - destruct (Z.eq_dec m 12) as [->|H12].
    + exists (y + 1, 1, 1). pose proof (month_days_fun _ _ _ Hm) as E. change (days_in_month y 12) with 31 in E.
      rewrite <- E. constructor.
    + exists (y, m + 1, 1). constructor; [exact Hm|]. apply month_days_range in Hm. lia.
  - exists (y, m, d + 1). apply (nd_day y m d n); [exact Hm|lia].
Qed.

Lemma days_after_ord s n t : days_after s n t -> ord t = ord s + Z.of_nat n.
Proof.
  induction 1 as [|n t u H IH Hn]; [lia|]. rewrite (next_day_ord _ _ Hn), IH. lia.
Qed.

Lemma days_after_valid s n t : valid_date s -> days_after s n t -> valid_date t.
Proof. intros Hs H. destruct H as [|n t u H Hn]; [exact Hs|]. apply (next_day_valid _ _ Hn). Qed.

Lemma days_after_total s n : valid_date s -> exists t, days_after s n t.
Proof.
  intros Hs. induction n as [|n [t IH]]; [exists s; constructor|].
  destruct (next_day_total t (days_after_valid _ _ _ Hs IH)) as [u Hu]. exists u. econstructor; eassumption.
Qed.

(** ** the ordinal determines the date *)
Lemma days_before_month_mono y m m' : 1 <= m -> m < m' -> m' <= 12 ->
  days_before_month y m + days_in_month y m <= days_before_month y m'.
Proof.
  intros H1 H2 H3. replace m' with (m + 1 + Z.of_nat (Z.to_nat (m' - m - 1))) by lia.
  remember (Z.to_nat (m' - m - 1)) as k eqn:Ek. assert (Hk : m + 1 + Z.of_nat k <= 12) by lia. clear Ek H2 H3 m'.
  induction k as [|k IH].
  - rewrite Z.add_0_r, days_before_month_S by lia. lia.
  - specialize (IH ltac:(lia)). replace (m + 1 + Z.of_nat (S k)) with (m + 1 + Z.of_nat k + 1) by lia.
    rewrite days_before_month_S by lia.
    pose proof (month_days_range _ _ _ (month_days_total y (m + 1 + Z.of_nat k) ltac:(lia))). lia.
Qed.

Lemma day_of_year_range y m d : valid_date (y, m, d) ->
  1 <= days_before_month y m + d <= 365 + (if is_leap y then 1 else 0).
Proof.
  intros H. apply valid_date_iff in H. destruct H as [H1 H2].
  assert (Hb : 0 <= days_before_month y m).
  { destruct (Z.eq_dec m 1) as [->|]; [rewrite year_start; lia|].
    pose proof (days_before_month_mono y 1 m ltac:(lia) ltac:(lia) ltac:(lia)) as H.
    rewrite year_start in H. change (days_in_month y 1) with 31 in H. lia. }
  split; [lia|]. rewrite <- year_end.
  destruct (Z.eq_dec m 12) as [->|].
  - change (days_in_month y 12) with 31 in H2. lia.
  - pose proof (days_before_month_mono y m 12 ltac:(lia) ltac:(lia) ltac:(lia)). lia.
Qed.

Lemma days_before_year_mono y y' : y < y' -> days_before_year y + 365 + (if is_leap y then 1 else 0) <= days_before_year y'.
Proof.
  intros H. replace y' with (y + 1 + Z.of_nat (Z.to_nat (y' - y - 1))) by lia.
  remember (Z.to_nat (y' - y - 1)) as k eqn:Ek. clear Ek H y'. induction k as [|k IH].
  - rewrite Z.add_0_r, days_before_year_S. lia.
  - replace (y + 1 + Z.of_nat (S k)) with (y + 1 + Z.of_nat k + 1) by lia. rewrite days_before_year_S.
    destruct (is_leap (y + 1 + Z.of_nat k)); lia.
Qed.

Lemma ord_inj t u : valid_date t -> valid_date u -> ord t = ord u -> t = u.
Proof.
  destruct t as [[y m] d], u as [[y' m'] d']. intros Ht Hu E. cbn [ord] in E. unfold ymd2ord in E.
  pose proof (day_of_year_range _ _ _ Ht) as R1. pose proof (day_of_year_range _ _ _ Hu) as R2.
  assert (Ey : y = y').
  { destruct (Z.lt_trichotomy y y') as [H|[H|H]]; [|exact H|];
      pose proof (days_before_year_mono _ _ H); lia. }
  subst y'.
  apply valid_date_iff in Ht. apply valid_date_iff in Hu.
  assert (Em : m = m').
  { destruct (Z.lt_trichotomy m m') as [H|[H|H]]; [|exact H|].
    - pose proof (days_before_month_mono y m m' ltac:(lia) ltac:(lia) ltac:(lia)). lia.
    - pose proof (days_before_month_mono y m' m ltac:(lia) ltac:(lia) ltac:(lia)). lia. }
  subst m'. f_equal. lia.
Qed.

Lemma epoch_valid : valid_date (1970, 1, 1).
Proof. exists 31. split; [apply md_31; tauto|lia]. Qed.
Lemma epoch_ord_ok : ord (1970, 1, 1) = epoch_ord. Proof. reflexivity. Qed.

(** The ordinal is the day number. *)
Lemma day_number_ord t : valid_date t -> day_number t (ord t - epoch_ord).
Proof.
  intros Ht. destruct (Z_le_gt_dec epoch_ord (ord t)) as [H|H].
  - left. exists (Z.to_nat (ord t - epoch_ord)). split; [|lia].
    destruct (days_after_total (1970, 1, 1) (Z.to_nat (ord t - epoch_ord)) epoch_valid) as [u Hu].
    assert (E : u = t); [|rewrite <- E at 2; exact Hu]. apply ord_inj; [apply (days_after_valid _ _ _ epoch_valid Hu)|exact Ht|].
    rewrite (days_after_ord _ _ _ Hu), epoch_ord_ok. lia.
  - right. exists (Z.to_nat (epoch_ord - ord t)). split; [|lia].
    destruct (days_after_total t (Z.to_nat (epoch_ord - ord t)) Ht) as [u Hu].
    assert (E : u = (1970, 1, 1)); [|rewrite <- E; exact Hu]. apply ord_inj; [apply (days_after_valid _ _ _ Ht Hu)|exact epoch_valid|].
    rewrite (days_after_ord _ _ _ Hu), epoch_ord_ok. lia.
Qed.

Lemma day_number_unique t n : day_number t n -> n = ord t - epoch_ord.
Proof.
  intros [[k [H ->]]|[k [H ->]]]; apply days_after_ord in H; rewrite epoch_ord_ok in H; lia.
Qed.

Lemma instant_local y m d h mi s us off : valid_date (y, m, d) ->
  instant (y, m, d) h mi s us (local_us (mk_datetime y m d h mi s us off)).
Proof.
  intros H. exists (ord (y, m, d) - epoch_ord). split; [apply day_number_ord; exact H|].
  unfold local_us, us_per_sec. cbn [year month day hour minute second micro ord]. lia.
Qed.

Lemma instant_unique t h mi s us i : instant t h mi s us i ->
  i = ((ord t - epoch_ord) * 24 + h) * 60 * 60 * 1000000 + mi * 60 * 1000000 + s * 1000000 + us.
Proof. intros [n [H ->]]. rewrite (day_number_unique _ _ H). lia. Qed.

Lemma datetime_new_ok y m d h mi s us off : 1 <= y <= 9999 -> valid_date (y, m, d) ->
  0 <= h < 24 -> 0 <= mi < 60 -> 0 <= s < 60 -> 0 <= us < 1000000 ->
  datetime_new y m d h mi s us off = Ok (mk_datetime y m d h mi s us off).
Proof.
  intros Hy Hd Hh Hm Hs Hu. apply valid_date_iff in Hd. unfold datetime_new.
  repeat rewrite (proj2 (Z.leb_le _ _)) by lia. reflexivity.
Qed.

Lemma datetime_new_inv y m d h mi s us off t : datetime_new y m d h mi s us off = Ok t ->
  t = mk_datetime y m d h mi s us off /\ 1 <= y <= 9999 /\ valid_date (y, m, d) /\
  0 <= h < 24 /\ 0 <= mi < 60 /\ 0 <= s < 60 /\ 0 <= us < 1000000.
Proof.
  unfold datetime_new. destruct (_ && _) eqn:E; [|discriminate]. intros H. injection H as <-.
  rewrite !andb_true_iff, !Z.leb_le in E. split; [reflexivity|]. rewrite valid_date_iff. lia.
Qed.
