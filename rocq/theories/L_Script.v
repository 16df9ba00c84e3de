(** Lemmas for the scripts: dates of instants, sorting of tables. *)
From Coq Require Import ZArith QArith Qround Reals Qreals Ascii String Bool Sorted Permutation Lia List.
From Verif Require Import M_Py M_Np M_Str M_Cal S_Cal L_Cal L_Base M_Ini M_ReadNav M_Table M_Bgm M_Dgs M_Faa M_Nan M_Script S_Table S_Script L_Table.
Import ListNotations.
Open Scope Z_scope.

(** ** Dates *)
Definition ymd_ok (n : Z) : bool :=
  let '(y, m, d) := ord2ymd n in
  (1 <=? m) && (m <=? 12) && (1 <=? d) && (d <=? days_in_month y m) && (ymd2ord y m d =? n).
(** A day of a year: [r] from 0 on, in a leap year or not; the last day of a leap year is a case of its own in [ord2ymd]. *)
Definition before_in (l : bool) (m : Z) : Z := fold_left Z.add (firstn (Z.to_nat (m - 1)) month_table) 0 + (if (2 <? m) && l then 1 else 0).
Definition length_in (l : bool) (m : Z) : Z := if (m =? 2) && l then 29 else nth (Z.to_nat (m - 1)) month_table 0.
Definition day_ok (l : bool) (r : Z) : bool :=
  let m := (r + 50) / 32 in let '(m, d) := if r <? before_in l m then (m - 1, r - before_in l (m - 1) + 1) else (m, r - before_in l m + 1) in
  (1 <=? m) && (m <=? 12) && (1 <=? d) && (d <=? length_in l m) && (before_in l m + d =? r + 1).
Fixpoint all_ok (k : nat) (r : Z) : bool := match k with O => true | S k => day_ok true r && day_ok false r && all_ok k (r + 1) end.
Lemma all_ok_spec k n j l : all_ok k n = true -> n <= j < n + Z.of_nat k -> day_ok l j = true.
Proof.
  revert n. induction k as [|k IH]; intros n H Hj; [lia|]. cbn [all_ok] in H. apply andb_true_iff in H. destruct H as [H1 H2].
  destruct (Z.eq_dec j n) as [->|N]; [|apply (IH (n + 1)); [exact H2|lia]]. apply andb_true_iff in H1. destruct H1 as [H1 H3]. destruct l; assumption.
Qed.
Lemma year_ok : all_ok 365 0 = true.
Proof. vm_compute. reflexivity. Qed.
Lemma cycle_ok n : 1 <= n <= 146097 -> ymd_ok n = true.
Proof.
  intros Hn. destruct (Z.eq_dec n 146097) as [->|Ne]; [reflexivity|]. unfold ymd_ok, ord2ymd. cbv zeta. rewrite (Z.div_small (n - 1) 146097), (Z.mod_small (n - 1) 146097) by lia.
  set (k := n - 1). assert (Hk : 0 <= k < 146096) by lia. assert (En : n = k + 1) by (unfold k; ring). clearbody k. set (a := k / 36524). set (k1 := k mod 36524). assert (Ha : 0 <= a <= 3 /\ 0 <= k1 < 36524 /\ k = 36524 * a + k1) by (unfold a, k1; Z.to_euclidean_division_equations; lia).
  clearbody a k1. set (b := k1 / 1461). set (k2 := k1 mod 1461). assert (Hb : 0 <= b <= 24 /\ 0 <= k2 < 1461 /\ k1 = 1461 * b + k2) by (unfold b, k2; Z.to_euclidean_division_equations; lia).
  clearbody b k2. set (c := k2 / 365). set (r := k2 mod 365). assert (Hc : 0 <= c <= 4 /\ 0 <= r < 365 /\ k2 = 365 * c + r) by (unfold c, r; Z.to_euclidean_division_equations; lia). clearbody c r.
  destruct (a =? 4) eqn:Ea; [lia|]. rewrite orb_false_r.
  assert (By : forall e, 0 <= e <= 3 -> days_before_year (0 * 400 + 1 + a * 100 + b * 4 + e) = 36524 * a + 1461 * b + 365 * e).
  { intros e He. unfold days_before_year. cbv zeta. replace (0 * 400 + 1 + a * 100 + b * 4 + e - 1) with (100 * a + 4 * b + e) by ring.
    assert ((100 * a + 4 * b + e) / 4 = 25 * a + b) by (Z.to_euclidean_division_equations; lia). assert ((100 * a + 4 * b + e) / 100 = a) by (Z.to_euclidean_division_equations; lia). assert ((100 * a + 4 * b + e) / 400 = 0) by (Z.to_euclidean_division_equations; lia). lia. }
  destruct (c =? 4) eqn:Ec.
  - assert (c = 4 /\ r = 0 /\ b <= 23) as (-> & -> & Hb') by lia. replace (0 * 400 + 1 + a * 100 + b * 4 + 4 - 1) with (0 * 400 + 1 + a * 100 + b * 4 + 3) by ring.
    assert (Lp : is_leap (0 * 400 + 1 + a * 100 + b * 4 + 3) = true).
    { unfold is_leap. assert (E1 : (0 * 400 + 1 + a * 100 + b * 4 + 3) mod 4 = 0) by (Z.to_euclidean_division_equations; lia). assert (E2 : (0 * 400 + 1 + a * 100 + b * 4 + 3) mod 100 <> 0) by (Z.to_euclidean_division_equations; lia). rewrite E1. apply Z.eqb_neq in E2. rewrite E2. reflexivity. }
    unfold ymd2ord. rewrite By by lia. unfold days_in_month, days_before_month. rewrite Lp. change (1 <=? 12) with true. apply Z.eqb_eq. change (fold_left Z.add (firstn (Z.to_nat (12 - 1)) month_table) 0 + (if (2 <? 12) && true then 1 else 0)) with 335. lia.
  - set (y := 0 * 400 + 1 + a * 100 + b * 4 + c). assert (Bn : forall m, days_before_month y m = before_in (is_leap y) m) by reflexivity. assert (Ln : forall m, days_in_month y m = length_in (is_leap y) m) by reflexivity.
    rewrite !Bn. pose proof (all_ok_spec 365 0 r (is_leap y) year_ok ltac:(lia)) as D. unfold day_ok in D. cbv zeta in D.
    assert (Yn : forall m d, ymd2ord y m d = 36524 * a + 1461 * b + 365 * c + (before_in (is_leap y) m + d)). { intros m d. unfold ymd2ord. rewrite Bn. unfold y. rewrite By by lia. ring. }
    destruct (r <? before_in (is_leap y) ((r + 50) / 32)); rewrite Ln, Yn; rewrite !andb_true_iff in D; destruct D as [[[[D1 D2] D3] D4] D5]; rewrite D1, D2, D3, D4; cbn [andb]; apply Z.eqb_eq in D5; apply Z.eqb_eq; rewrite D5; lia.
Qed.
Lemma is_leap_cycle y q : is_leap (y + 400 * q) = is_leap y.
Proof.
  unfold is_leap. replace (y + 400 * q) with (y + (100 * q) * 4) at 1 by ring. rewrite Z.mod_add by lia.
  replace (y + 400 * q) with (y + (4 * q) * 100) at 1 by ring. rewrite Z.mod_add by lia.
  replace (y + 400 * q) with (y + q * 400) by ring. rewrite Z.mod_add by lia. reflexivity.
Qed.
Lemma days_before_month_cycle y q m : days_before_month (y + 400 * q) m = days_before_month y m.
Proof. unfold days_before_month. rewrite is_leap_cycle. reflexivity. Qed.
Lemma days_in_month_cycle y q m : days_in_month (y + 400 * q) m = days_in_month y m.
Proof. unfold days_in_month. rewrite is_leap_cycle. reflexivity. Qed.
Lemma days_before_year_cycle y q : days_before_year (y + 400 * q) = days_before_year y + 146097 * q.
Proof.
  unfold days_before_year. cbv zeta. replace (y + 400 * q - 1) with (y - 1 + (100 * q) * 4) at 2 by ring. rewrite Z.div_add by lia.
  replace (y + 400 * q - 1) with (y - 1 + (4 * q) * 100) at 2 by ring. rewrite Z.div_add by lia.
  replace (y + 400 * q - 1) with (y - 1 + q * 400) at 2 by ring. rewrite Z.div_add by lia. ring.
Qed.
Lemma ymd2ord_cycle y q m d : ymd2ord (y + 400 * q) m d = ymd2ord y m d + 146097 * q.
Proof. unfold ymd2ord. rewrite days_before_year_cycle, days_before_month_cycle. ring. Qed.
Lemma ord2ymd_cycle n q : ord2ymd (n + 146097 * q) = let '(y, m, d) := ord2ymd n in (y + 400 * q, m, d).
Proof.
  unfold ord2ymd. cbv zeta. replace (n + 146097 * q - 1) with (n - 1 + q * 146097) by ring. rewrite Z.div_add, Z.mod_add by lia.
  set (k := (n - 1) mod 146097). set (n1 := (k mod 36524 mod 1461) / 365). set (n100 := k / 36524). set (n4 := (k mod 36524) / 1461).
  set (r := (k mod 36524 mod 1461) mod 365). set (c := (n - 1) / 146097).
  replace ((c + q) * 400 + 1 + n100 * 100 + n4 * 4 + n1) with (c * 400 + 1 + n100 * 100 + n4 * 4 + n1 + 400 * q) by ring.
  set (y := c * 400 + 1 + n100 * 100 + n4 * 4 + n1). rewrite !days_before_month_cycle.
  destruct ((n1 =? 4) || (n100 =? 4)); [f_equal; f_equal; ring|]. destruct (r <? days_before_month y ((r + 50) / 32)); reflexivity.
Qed.
Lemma ord2ymd_ok n y m d : ord2ymd n = (y, m, d) -> valid_date (y, m, d) /\ ymd2ord y m d = n.
Proof.
  intros E. set (k := (n - 1) mod 146097 + 1). set (q := (n - 1) / 146097).
  assert (Hk : 1 <= k <= 146097) by (unfold k; pose proof (Z.mod_pos_bound (n - 1) 146097 ltac:(lia)); lia).
  pose proof (cycle_ok _ Hk) as H. unfold ymd_ok in H.
  assert (Hn : n = k + 146097 * q). { unfold k, q. pose proof (Z.div_mod (n - 1) 146097 ltac:(lia)). lia. }
  destruct (ord2ymd k) as [[y0 m0] d0] eqn:E0.
  rewrite Hn, ord2ymd_cycle, E0 in E. assert (y = y0 + 400 * q) by congruence. assert (m = m0) by congruence. assert (d = d0) by congruence. subst y m d. clear E.
  rewrite !andb_true_iff, !Z.leb_le, Z.eqb_eq in H. destruct H as [[[[H1 H2] H3] H4] H5]. split.
  - apply valid_date_iff. rewrite days_in_month_cycle. lia.
  - rewrite ymd2ord_cycle, H5. lia.
Qed.
(** The first and the last instant of the calendar. *)
Definition first_us : Z := -62135596800000000.
Definition end_us : Z := 253402300800000000.
Lemma ord2ymd_year n y m d : ord2ymd n = (y, m, d) -> (1 <= y <= 9999 <-> 1 <= n <= 3652059).
Proof.
  intros E. destruct (ord2ymd_ok _ _ _ _ E) as [V H]. apply day_of_year_range in V. unfold ymd2ord in H.
  assert (B1 : days_before_year 1 = 0) by reflexivity. assert (B2 : days_before_year 10000 = 3652059) by reflexivity.
  split; intros K.
  - assert (0 <= days_before_year y). { destruct (Z.eq_dec y 1) as [->|]; [lia|]. pose proof (days_before_year_mono 1 y ltac:(lia)). destruct (is_leap 1); lia. }
    pose proof (days_before_year_mono y 10000 ltac:(lia)). lia.
  - destruct (Z_lt_dec y 1) as [L|L].
    { pose proof (days_before_year_mono y 1 ltac:(lia)). lia. }
    destruct (Z_lt_dec 9999 y) as [L2|L2]; [|lia]. exfalso. destruct (Z.eq_dec y 10000) as [->|]; [lia|].
    pose proof (days_before_year_mono 10000 y ltac:(lia)). destruct (is_leap 10000); lia.
Qed.
Lemma of_us_spec i : match of_us i with
  | Ok t => first_us <= i < end_us /\ exists y m d h mi s us, datetime_new y m d h mi s us (Some 0) = Ok t /\ instant (y, m, d) h mi s us i
  | Raise e => e = ValueError /\ ~ first_us <= i < end_us
  end.
Proof.
  unfold of_us. destruct (ord2ymd (i / us_per_day + epoch_ord)) as [[y m] d] eqn:E.
  destruct (ord2ymd_ok _ _ _ _ E) as [V O]. pose proof (ord2ymd_year _ _ _ _ E) as Y.
  assert (Hu : us_per_day = 86400000000) by reflexivity. assert (He : epoch_ord = 719163) by reflexivity.
  set (r := i mod us_per_day). assert (Hr : 0 <= r < 86400000000) by (apply (Z.mod_pos_bound i 86400000000); lia).
  assert (Hi : i = 86400000000 * (i / us_per_day) + r) by (apply (Z.div_mod i 86400000000); lia).
  change (3600 * us_per_sec) with 3600000000. change (60 * us_per_sec) with 60000000. change us_per_sec with 1000000.
  assert (R : first_us <= i < end_us <-> 1 <= i / us_per_day + epoch_ord <= 3652059) by (unfold first_us, end_us; rewrite He; lia).
  assert (Hh : 0 <= r / 3600000000 <= 23) by (split; [apply Z.div_pos; lia|]; enough (r / 3600000000 < 24) by lia; apply Z.div_lt_upper_bound; lia).
  assert (Hm : 0 <= r / 60000000 mod 60 <= 59) by (pose proof (Z.mod_pos_bound (r / 60000000) 60); lia).
  assert (Hs : 0 <= r / 1000000 mod 60 <= 59) by (pose proof (Z.mod_pos_bound (r / 1000000) 60); lia).
  assert (Hf : 0 <= r mod 1000000 <= 999999) by (pose proof (Z.mod_pos_bound r 1000000); lia).
  destruct (Z_le_dec 1 y) as [L1|L1]; [destruct (Z_le_dec y 9999) as [L2|L2]|].
  - assert (N : datetime_new y m d (r / 3600000000) (r / 60000000 mod 60) (r / 1000000 mod 60) (r mod 1000000) (Some 0) =
      Ok (mk_datetime y m d (r / 3600000000) (r / 60000000 mod 60) (r / 1000000 mod 60) (r mod 1000000) (Some 0))).
    { apply datetime_new_ok; try assumption; lia. }
    rewrite N. split; [apply R; apply Y; lia|].
    exists y, m, d, (r / 3600000000), (r / 60000000 mod 60), (r / 1000000 mod 60), (r mod 1000000). split; [exact N|].
    exists (i / us_per_day). split.
    + replace (i / us_per_day) with (ord (y, m, d) - epoch_ord); [apply day_number_ord; exact V|]. change (ord (y, m, d)) with (ymd2ord y m d). rewrite O. ring.
    + pose proof (Z.div_mod r 1000000 ltac:(lia)) as D1. pose proof (Z.div_mod (r / 1000000) 60 ltac:(lia)) as D2.
      pose proof (Z.div_mod (r / 60000000) 60 ltac:(lia)) as D3. rewrite !Z.div_div in * by lia. change (1000000 * 60) with 60000000 in *. change (60000000 * 60) with 3600000000 in *. lia.
  - unfold datetime_new. rewrite (proj2 (Z.leb_gt y 9999)) by lia. rewrite andb_false_r. cbn [andb]. split; [reflexivity|]. rewrite R, <- Y. lia.
  - unfold datetime_new. rewrite (proj2 (Z.leb_gt 1 y)) by lia. cbn [andb]. split; [reflexivity|]. rewrite R, <- Y. lia.
Qed.

(** ** Sorting *)
Lemma take_rows_rearranged idx T n : table T n -> Forall (fun i => (i < n)%nat) idx -> rearranged idx T (take_rows idx T).
Proof.
  intros [_ [_ HT]] HI. unfold rearranged, take_rows. induction HT as [|c T Hc HT IH]; [constructor|]. cbn [map]. constructor; [|exact IH].
  split; [reflexivity|]. cbn [snd]. clear IH HT. induction HI as [|i idx Hi HI IH]; [constructor|]. cbn [map]. constructor; [|exact IH].
  apply nth_error_nth'. rewrite Hc. exact Hi.
Qed.
Lemma take_rows_column idx f c : column (take_rows idx f) c = option_map (fun v => map (fun i => nth i v NaN) idx) (column f c).
Proof.
  induction f as [|[k v] f IH]; [reflexivity|]. cbn [take_rows map column fst snd]. destruct (str_eqb k c); [reflexivity|]. exact IH.
Qed.
Lemma some_of_map (A B : Type) (f : A -> B) l : some_of (map (fun a => Some (f a)) l) = map f l.
Proof. induction l as [|a l IH]; [reflexivity|]. cbn [map some_of flat_map app]. f_equal. exact IH. Qed.
Lemma filter_all (A : Type) (p : A -> bool) l : (forall a, In a l -> p a = true) -> filter p l = l.
Proof.
  induction l as [|a l IH]; intros H; [reflexivity|]. cbn [filter]. rewrite (H a (or_introl eq_refl)). f_equal. apply IH. intros b Hb. apply H. right. exact Hb.
Qed.
Lemma filter_none (A : Type) (p : A -> bool) l : (forall a, In a l -> p a = false) -> filter p l = [].
Proof.
  induction l as [|a l IH]; intros H; [reflexivity|]. cbn [filter]. rewrite (H a (or_introl eq_refl)). apply IH. intros b Hb. apply H. right. exact Hb.
Qed.
Lemma map_nth_seq idx n : Forall (fun i => (i < n)%nat) idx -> map (fun j => nth j (seq 0 n) 0%nat) idx = idx.
Proof. induction 1 as [|i idx Hi _ IH]; [reflexivity|]. cbn [map]. rewrite seq_nth, IH by exact Hi. reflexivity. Qed.
Lemma permutation_below idx n : Permutation idx (seq 0 n) -> Forall (fun i => (i < n)%nat) idx.
Proof. intros H. apply Forall_forall. intros i Hi. apply (Permutation_in _ H) in Hi. apply in_seq in Hi. lia. Qed.
Lemma sort_order_times argsort ts : sorts argsort -> sort_order argsort (map Time ts) = argsort ts.
Proof.
  intros S. unfold sort_order. rewrite map_map. cbn [time_key]. rewrite (some_of_map Q Q (fun t => t)), map_id, map_length.
  assert (K : forall i, In i (seq 0 (List.length ts)) -> is_some (nth i (map (fun x => Some x) ts) None) = true).
  { intros i Hi. apply in_seq in Hi. rewrite (nth_indep _ None (Some 0%Q)) by (rewrite map_length; lia). rewrite (map_nth (fun x => Some x)). reflexivity. }
  rewrite (filter_all nat) by exact K. rewrite (filter_none nat) by (intros i Hi; rewrite (K i Hi); reflexivity). rewrite app_nil_r.
  apply map_nth_seq. apply permutation_below. apply (S ts).
Qed.

(** ** The table of a meter *)
Lemma whole_us t i : (t == i # 1000000)%Q -> Qfloor (t * inject_Z us_per_sec) = i.
Proof.
  intros H. transitivity (Qfloor (inject_Z i)); [|apply Qfloor_Z]. apply Qfloor_comp. rewrite H. unfold Qeq. cbn [Qnum Qden Qmult inject_Z]. change us_per_sec with 1000000. lia.
Qed.
Definition utc_of (i : Z) (t : datetime) : Prop := exists y m d h mi s us, datetime_new y m d h mi s us (Some 0) = Ok t /\ instant (y, m, d) h mi s us i.
Lemma cell_time_ok t i : (t == i # 1000000)%Q -> in_calendar i -> exists d, cell_time (Time t) = Ok d /\ utc_of i d.
Proof.
  intros H C. cbn [cell_time]. rewrite (whole_us _ _ H). pose proof (of_us_spec i) as S. destruct (of_us i) as [d|e].
  - exists d. split; [reflexivity|]. exact (proj2 S).
  - exfalso. apply (proj2 S). exact C.
Qed.
Lemma Forall2_nth_total (A B : Type) (P : A -> B -> Prop) l l' a b i : Forall2 P l l' -> (i < List.length l)%nat -> P (nth i l a) (nth i l' b).
Proof.
  intros H. revert i. induction H as [|x y l l' Hxy _ IH]; intros i Hi; [cbn in Hi; lia|]. destruct i as [|i]; [exact Hxy|]. cbn [nth]. apply IH. cbn in Hi. lia.
Qed.
Lemma F2_len (A B : Type) (P : A -> B -> Prop) l l' : Forall2 P l l' -> List.length l' = List.length l.
Proof. induction 1 as [|x y l l' _ _ IH]; [reflexivity|]. cbn [List.length]. rewrite IH. reflexivity. Qed.
Lemma get_column_ok f c v : NoDup (map fst f) -> has_column f c v -> get_column f c = Ok v.
Proof. intros N H. unfold get_column. rewrite (column_has _ _ _ N H). reflexivity. Qed.
Lemma mapM_cells (A B : Type) (f : A -> res B) l : (forall a, In a l -> exists b, f a = Ok b) -> exists bs, mapM f l = Ok bs /\ Forall2 (fun a b => f a = Ok b) l bs.
Proof.
  induction l as [|a l IH]; intros H; [exists []; split; [reflexivity|constructor]|]. destruct (H a (or_introl eq_refl)) as [b Hb].
  destruct IH as [bs [E F]]; [intros x Hx; apply H; right; exact Hx|]. exists (b :: bs). split; [|constructor; assumption].
  cbn [mapM]. rewrite Hb. cbn [bind]. rewrite E. reflexivity.
Qed.
Lemma script_meter_at argsort T ts us gs : sorts argsort -> table T (List.length us) -> has_column T (lit "date_time") (map Time ts) ->
  has_column T (lit "rgrav") (map Num gs) -> Forall2 (fun t i => t == i # 1000000)%Q ts us -> Forall in_calendar us ->
  exists times, script_meter argsort (Ok (Some T)) = Ok (take_rows (argsort ts) T, times, map Some (map (fun i => Q2R (nth i gs 0%Q)) (argsort ts))) /\
    time_order us (argsort ts) /\ rearranged (argsort ts) T (take_rows (argsort ts) T) /\ Forall2 utc_of (map (fun i => nth i us 0) (argsort ts)) times /\
    mapM cell_time (map (fun i => nth i (map Time ts) NaN) (argsort ts)) = Ok times.
Proof.
  intros S HT Hd Hg Ht HC. pose proof (F2_len _ _ _ _ _ Ht) as Lu.
  set (n := List.length us) in *. destruct HT as [N [Hne HL]]. rewrite Forall_forall in HL.
  assert (Lg : List.length gs = n). { specialize (HL _ Hg). cbn [snd] in HL. rewrite map_length in HL. exact HL. }
  set (idx := argsort ts). destruct (S ts) as [S1 S2]. fold idx in S1, S2. rewrite <- Lu in S1. fold n in S1.
  pose proof (permutation_below _ _ S1) as B.
  assert (HI : forall i, In i idx -> (i < n)%nat) by (rewrite Forall_forall in B; exact B).
  destruct (mapM_cells _ _ cell_time (map (fun i => nth i (map Time ts) NaN) idx)) as [times [Em Ft]].
  { intros c Hc. apply in_map_iff in Hc. destruct Hc as [i [<- Hi]]. specialize (HI i Hi).
    rewrite (nth_indep _ NaN (Time 0%Q)) by (rewrite map_length; lia). rewrite map_nth.
    destruct (cell_time_ok (nth i ts 0%Q) (nth i us 0)) as [d [Ed _]].
    - apply (Forall2_nth_total _ _ (fun t i => t == i # 1000000)%Q); [exact Ht|lia].
    - rewrite Forall_forall in HC. apply HC. apply nth_In. exact HI.
    - exists d. exact Ed. }
  exists times. split; [|split; [|split; [|split; [|exact Em]]]].
  - cbn [script_meter bind]. unfold sort_values. rewrite (get_column_ok _ _ _ N Hd). cbn [bind]. rewrite (sort_order_times _ _ S). fold idx.
    unfold get_column. rewrite !take_rows_column. rewrite (column_has _ _ _ N Hd), (column_has _ _ _ N Hg). cbn [option_map bind]. rewrite Em. cbn [bind].
    rewrite (mapM_Ok_map _ _ reading (fun c => match c with Num q => Some (Q2R q) | _ => None end)).
    + cbn [bind]. rewrite !map_map. f_equal. f_equal. apply map_ext_in. intros i Hi. specialize (HI i Hi).
      rewrite (nth_indep _ NaN (Num 0%Q)) by (rewrite map_length; lia). rewrite map_nth. reflexivity.
    + intros c Hc. apply in_map_iff in Hc. destruct Hc as [i [<- Hi]]. specialize (HI i Hi).
      rewrite (nth_indep _ NaN (Num 0%Q)) by (rewrite map_length; lia). rewrite map_nth. reflexivity.
  - split; [exact S1|].
    clear - S2 Ht HI Lu. induction S2 as [|i idx' S2 IH Hi]; constructor.
    + apply IH. intros j Hj. apply HI. right. exact Hj.
    + rewrite Forall_forall in Hi |- *. intros j Hj. specialize (Hi j Hj).
      pose proof (Forall2_nth_total _ _ _ _ _ 0%Q 0 i Ht) as A. pose proof (Forall2_nth_total _ _ _ _ _ 0%Q 0 j Ht) as B.
      rewrite A in Hi by (rewrite <- Lu; apply HI; left; reflexivity). rewrite B in Hi by (rewrite <- Lu; apply HI; right; exact Hj).
      unfold Qle in Hi. cbn [Qnum Qden] in Hi. lia.
  - apply (take_rows_rearranged _ _ n); [|exact B]. split; [exact N|]. split; [exact Hne|]. apply Forall_forall. exact HL.
  - clear - Ft Ht HI HC Lu. revert times Ft. induction idx as [|i idx IH]; intros times Ft; inversion Ft as [|c d cs ds Hc Ft' E1 E2]; subst; [constructor|].
    cbn [map]. constructor; [|apply IH; [intros j Hj; apply HI; right; exact Hj|exact Ft']].
    assert (Hi : (i < n)%nat) by (apply HI; left; reflexivity).
    rewrite (nth_indep _ NaN (Time 0%Q)) in Hc by (rewrite map_length; lia). rewrite map_nth in Hc.
    destruct (cell_time_ok (nth i ts 0%Q) (nth i us 0)) as [d' [Ed U]].
    + apply (Forall2_nth_total _ _ (fun t i => t == i # 1000000)%Q); [exact Ht|lia].
    + rewrite Forall_forall in HC. apply HC. apply nth_In. exact Hi.
    + congruence.
Qed.
Lemma script_meter_ok argsort T us gs : sorts argsort -> meter_table T us gs ->
  exists idx T' times, script_meter argsort (Ok (Some T)) = Ok (T', times, map Some (map (fun i => Q2R (nth i gs 0%Q)) idx)) /\
    time_order us idx /\ rearranged idx T T' /\ Forall2 utc_of (map (fun i => nth i us 0) idx) times.
Proof.
  intros S (HT & (ts & Hd & Ht) & Hg & HC). destruct (script_meter_at argsort T ts us gs S HT Hd Hg Ht HC) as (times & H1 & H2 & H3 & H4 & _).
  exists (argsort ts), (take_rows (argsort ts) T), times. auto.
Qed.
