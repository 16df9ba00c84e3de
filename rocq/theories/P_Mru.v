(** Property C96: the ship's motion from its daily files. *)
From Coq Require Import ZArith QArith Qreals Reals Ascii String Bool Lia Lra Sorted Permutation List.
From Verif Require Import M_Py M_Str M_Cal M_Ini M_Nmea M_ReadNav M_Table M_Other M_Serial M_Mru S_Base S_Str S_Cal S_Nmea S_ReadNav S_Table S_Bgm S_Dgs S_Other S_Serial S_Coh S_Mru
  L_Base L_Str L_Cal L_Nmea L_Nav2 L_ReadNav L_Dateline L_Num L_Table L_Bgm L_Dgs L_DgsRaw L_Other P_Serial.
Import ListNotations.
Open Scope Z_scope.
Local Notation len := List.length.

(** ** Reading the files *)
Lemma read_feed_cases (I : Type) (specs : feed_specs I) fsys p : dictionary (formats specs) -> dictionary (descriptions specs) -> good_template specs feed ->
  match read_feed specs fsys feed p with Ok f => file_table specs fsys p f | Raise e => file_error specs fsys p e end.
Proof.
  intros Hf Hd Hg. unfold read_feed. destruct (assoc feed (formats specs)) as [t|] eqn:Ea.
  2: { apply fe_no_feed. apply assoc_not_in. exact Ea. }
  apply (assoc_in _ _ _ _ Hf) in Ea. pose proof (in_map fst _ _ Ea) as Hi. cbn [fst] in Hi.
  unfold open_text. destruct (fsys p) as [text|] eqn:Ep; cbn [bind]; [|apply fe_no_file; assumption].
  pose proof (feed_cases I specs text feed feed Hf Hd) as C. specialize (C (fn_plain feed ltac:(intros [r E]; discriminate E)) Hg).
  destruct (read_other_stuff specs text feed) as [[df info]|e]; cbn [bind fst]; [exists text, info; split; assumption|]. apply (fe_feed _ _ _ text); assumption.
Qed.
Lemma read_feeds (I : Type) (specs : feed_specs I) fsys l : dictionary (formats specs) -> dictionary (descriptions specs) -> good_template specs feed ->
  match mapM (read_feed specs fsys feed) l with
  | Ok fs => Forall2 (file_table specs fsys) l fs
  | Raise e => exists a p b fs, l = a ++ p :: b /\ Forall2 (file_table specs fsys) a fs /\ file_error specs fsys p e
  end.
Proof.
  intros Hf Hd Hg. induction l as [|p l IH]; cbn [mapM]; [constructor|]. pose proof (read_feed_cases I specs fsys p Hf Hd Hg) as C.
  destruct (read_feed specs fsys feed p) as [f|e]; cbn [bind].
  - destruct (mapM (read_feed specs fsys feed) l) as [fs|e]; cbn [bind]; [constructor; assumption|].
    destruct IH as (a & q & b & fs & -> & F & E). exists (p :: a), q, b, (f :: fs). split; [reflexivity|]. split; [constructor; assumption|exact E].
  - exists [], p, l, []. split; [reflexivity|]. split; [constructor|exact C].
Qed.
Lemma file_table_table (I : Type) (specs : feed_specs I) fsys p f : good_template specs feed -> file_table specs fsys p f ->
  (exists n, table f n) /\ In (lit "mystery") (map fst f).
Proof.
  intros Hg (text & info & _ & R). split.
  - inversion R as [template names kept rows base mystery df' info' Hi Hn Hk Hr Hft Hb Hm Hw Hinf]; subst. exists (len kept). exact (feed_result_table _ _ _ _ _ _ _ Hg R Hk).
  - destruct R as [template names kept rows base mystery df' info' Hi Hn Hk Hr Hft Hb Hm Hw Hinf]. destruct Hw as [g Hx|a w b Hx]; rewrite map_app; cbn [map fst]; apply in_or_app; right; left; reflexivity.
Qed.
Lemma seconds_cases l : Forall (fun c => c = NaN \/ exists t, c = Time t) l ->
  match mapM stamp_seconds l with Ok v => exists ts, l = map Time ts /\ v = map Num ts | Raise e => e = ValueError /\ In NaN l end.
Proof.
  induction 1 as [|c l Hc _ IH]; cbn [mapM]; [exists []; split; reflexivity|]. destruct Hc as [->|[t ->]]; cbn [stamp_seconds bind]; [split; [reflexivity|left; reflexivity]|].
  destruct (mapM stamp_seconds l) as [v|e]; cbn [bind].
  - destruct IH as (ts & -> & ->). exists (t :: ts). split; reflexivity.
  - destruct IH as [-> H]. split; [reflexivity|right; exact H].
Qed.
Lemma drop_selected f c : selected (fun col : str * list cell => fst col <> c) f (drop_column f c).
Proof.
  unfold drop_column. apply filter_selected. intros col _. destruct (str_eqb (fst col) c) eqn:E; cbn [negb].
  - apply str_eqb_eq in E. split; [discriminate|contradiction].
  - split; [|reflexivity]. intros _ H. apply str_eqb_eq in H. congruence.
Qed.

(** C96: the table is made of the tables of the files in order of their names; each record's time is what stands before its
    tag.  Else the first file that cannot be read, or the conversion of the times, says why. *)
Theorem C96_table : forall (I : Type) td (specs : feed_specs I) fsys paths, dictionary (formats specs) -> dictionary (descriptions specs) -> good_template specs feed -> converter td ->
  match read_mru td specs fsys paths with Ok T => mru_result td specs fsys paths T | Raise e => mru_error td specs fsys paths e end.
Proof.
  intros I td specs fsys paths Hf Hd Hg Hc. unfold read_mru. destruct (np_sort_spec paths) as [P S]. apply Permutation_sym in P. set (sorted := np_sort paths) in *. clearbody sorted.
  pose proof (read_feeds I specs fsys sorted Hf Hd Hg) as R. change (lit "PASHR") with feed. destruct (mapM (read_feed specs fsys feed) sorted) as [fs|e]; cbn [bind].
  2: { destruct R as (a & p & b & fs & -> & F & E). eapply me_file; eassumption. }
  destruct fs as [|f0 fs0] eqn:Efs.
  { cbn [concat_frames bind]. apply me_none. inversion R; subst. apply Permutation_sym, Permutation_nil in P. exact P. }
  rewrite <- Efs in *. assert (Hfs : fs <> []) by (rewrite Efs; discriminate).
  assert (Ht : Forall (fun f => (exists n, table f n) /\ In (lit "mystery") (map fst f)) fs).
  { clear -R Hg. induction R as [|p f l fs H _ IH]; constructor; [exact (file_table_table _ _ _ _ _ Hg H)|exact IH]. }
  destruct (concat_frames_stacked fs Hfs) as (W & EW & SW). { eapply Forall_impl; [|exact Ht]. intros f H. apply H. }
  rewrite EW. cbn [bind]. destruct SW as [SD SC].
  assert (NW : NoDup (map fst W)) by exact (distinct_NoDup _ _ SD).
  assert (HM : exists before, column W (lit "mystery") = Some before /\ has_column W (lit "mystery") before).
  { destruct (column W (lit "mystery")) as [b|] eqn:E; [exists b; split; [reflexivity|apply column_some; exact E]|]. exfalso. apply column_none in E. apply E.
    apply (distinct_In _ _ _ SD). rewrite Efs in Ht |- *. inversion Ht as [|? ? [_ H] _]; subst. cbn [map concat]. apply in_or_app. left. exact H. }
  destruct HM as (before & E & HB). unfold get_column. rewrite E. cbn [bind].
  destruct (td before) as [dt|e] eqn:Etd; cbn [bind]; [|eapply me_time; try eassumption; split; assumption].
  destruct (Hc _ _ Etd) as [_ Hc2]. pose proof (seconds_cases dt Hc2) as Sc. destruct (mapM stamp_seconds dt) as [v|e]; cbn [bind].
  - destruct Sc as (ts & -> & ->). eapply mr_intro; try eassumption.
    + split; assumption.
    + apply set_column_with. exact NW.
    + apply drop_selected.
    + apply set_column_with. unfold drop_column. assert (N2 : NoDup (map fst (set_column W (lit "date_time") (map Time ts)))).
      { rewrite set_column_names. destruct (has (map fst W) (lit "date_time")) eqn:Eh; [exact NW|]. apply NoDup_snoc; [exact NW|]. apply has_false. exact Eh. }
      clear -N2. set (l := set_column W _ _) in *. clearbody l. induction l as [|c l IH]; cbn [filter map]; [constructor|]. cbn [map] in N2. inversion N2; subst.
      destruct (negb (str_eqb (fst c) (lit "mystery"))); [|apply IH; assumption]. cbn [map]. constructor; [|apply IH; assumption].
      intros H. apply H1. apply in_map_iff in H. destruct H as (x & Hx & Hin). apply filter_In in Hin. rewrite <- Hx. apply in_map. apply Hin.
  - destruct Sc as [-> Hin]. eapply me_missing; try eassumption. split; assumption.
Qed.
Print Assumptions C96_table.

(** ** Order of the file names *)
Lemma digit_code c a : digit_value c a -> Z.of_nat (nat_of_ascii c) = 48 + a /\ 0 <= a <= 9.
Proof.
  intros H. inversion H as [k c' E]; subst. do 10 (destruct k as [|k]; [cbn in E; injection E as <-; cbn; lia|]). destruct k; discriminate E.
Qed.
Lemma whole_range s n : whole s n -> 0 <= n < 10 ^ Z.of_nat (len s).
Proof.
  induction 1 as [|c s a n Hc _ IH]; [cbn; lia|]. cbn [List.length]. rewrite Nat2Z.inj_succ, Z.pow_succ_r by lia. apply digit_code in Hc. nia.
Qed.
Lemma lex_prefix pre a b : lex_le (pre ++ a) (pre ++ b) -> lex_le a b.
Proof. induction pre as [|x pre IH]; cbn [app]; [tauto|]. intros H. inversion H; subst; [lia|]. apply IH. assumption. Qed.
Lemma lex_digits a b n m s t : len a = len b -> whole a n -> whole b m -> lex_le (a ++ s) (b ++ t) -> n < m \/ (n = m /\ lex_le s t).
Proof.
  intros L Ha. revert b m L. induction Ha as [|c a va n Hc Ha IH]; intros b m L Hb H.
  - destruct b; [|discriminate]. inversion Hb; subst. right. split; [reflexivity|exact H].
  - destruct b as [|d b]; [discriminate|]. cbn [List.length] in L. injection L as L. inversion Hb as [|d' b' vb m' Hd Hb']; subst. cbn [app] in H.
    pose proof (whole_range _ _ Ha). pose proof (whole_range _ _ Hb'). pose proof (digit_code _ _ Hc) as [C1 C2]. pose proof (digit_code _ _ Hd) as [D1 D2]. rewrite L in *.
    inversion H as [|x y u v Hlt|x u v Hle]; subst.
    + left. assert (va < vb) by lia. nia.
    + assert (va = vb) as -> by lia. destruct (IH _ _ eq_refl Hb' Hle) as [K|[-> K]]; [left; lia|right; split; [reflexivity|exact K]].
Qed.
Lemma ord_lt y m d y' m' d' : valid_date (y, m, d) -> valid_date (y', m', d') -> y < y' \/ (y = y' /\ (m < m' \/ (m = m' /\ d < d'))) -> ord (y, m, d) < ord (y', m', d').
Proof.
  intros V V' H. pose proof (day_of_year_range _ _ _ V). pose proof (day_of_year_range _ _ _ V'). apply valid_date_iff in V. apply valid_date_iff in V'. cbn [ord]. unfold ymd2ord.
  destruct H as [H|[-> [H|[-> H]]]]; [|pose proof (days_before_month_mono y' m m' ltac:(lia) H ltac:(lia)); lia|lia].
  pose proof (days_before_year_mono y y' H). destruct (is_leap y); lia.
Qed.
Lemma dated_order pre t t' p p' : dated pre t p -> dated pre t' p' -> valid_date t -> valid_date t' -> lex_le p p' -> ord t <= ord t'.
Proof.
  intros (Y & M & D & y & m & d & suf & -> & LY & LM & LD & HY & HM & HD & ->) (Y' & M' & D' & y' & m' & d' & suf' & -> & LY' & LM' & LD' & HY' & HM' & HD' & ->) V V' H.
  apply lex_prefix in H. destruct (lex_digits _ _ _ _ _ _ (eq_trans LY (eq_sym LY')) HY HY' H) as [K|[-> K]]; [apply Z.lt_le_incl, ord_lt; auto|].
  apply lex_prefix in K. destruct (lex_digits _ _ _ _ _ _ (eq_trans LM (eq_sym LM')) HM HM' K) as [J|[-> J]]; [apply Z.lt_le_incl, ord_lt; auto|].
  apply lex_prefix in J. destruct (lex_digits _ _ _ _ _ _ (eq_trans LD (eq_sym LD')) HD HD' J) as [G|[-> G]]; [apply Z.lt_le_incl, ord_lt; auto|]. lia.
Qed.

(** the stamps of the records of a file, as the reader sees them *)
Lemma file_stamps (I : Type) stamp td (specs : feed_specs I) fsys t p f before : reads stamp td -> day_file stamp fsys t p -> file_table specs fsys p f -> has_column f (lit "mystery") before -> good_template specs feed ->
  exists l ts, before = map Txt l /\ Forall2 stamp l ts /\ Sorted Qle ts /\
    Forall (fun s => inject_Z ((ord t - epoch_ord) * 86400) <= s /\ s < inject_Z ((ord t - epoch_ord + 1) * 86400))%Q ts.
Proof.
  intros [Rt _] (text & kept & rows & ts & n & Ep & Hk & Hr & Hs & So & Hn & Hd) (text' & info & Ep' & R) Hb Hg.
  assert (text' = text) as -> by congruence. destruct (file_table_table _ specs fsys p f Hg) as [[k [Nf _]] _]. { exists text, info. split; assumption. }
  destruct R as [template names kept' rows' base mystery df' info' Hi Hnm Hk' Hr' Hft Htb Hm Hw Hinf].
  apply tagged_fun in Hk. apply tagged_fun in Hk'. assert (kept' = kept) as -> by congruence. pose proof (feed_rows_fun _ _ _ _ Hr Hr') as ->.
  assert (mystery = before) as ->.
  { apply column_has in Hb; [|exact Nf]. assert (In (lit "mystery", mystery) df') as Hin by (destruct Hw; apply in_or_app; right; left; reflexivity).
    apply (column_has df') in Hin; [|exact Nf]. congruence. }
  apply day_number_unique in Hn. subst n. exists (map fst rows), ts. split; [|split; [exact Hs|split; [exact So|exact Hd]]].
  clear -Hm Hs Rt. revert ts Hs. induction Hm as [|s c ss cs H _ IH]; intros ts Hs; [reflexivity|]. inversion Hs as [|? u ? us Hu Hus]; subst. cbn [map]. rewrite (IH _ Hus). f_equal.
  destruct (Rt _ _ Hu) as [N1 N2]. destruct H as [|s q N3 N4|s N3 N4]; [congruence| |reflexivity]. exfalso. apply N2. exists q. exact N4.
Qed.

Lemma Sorted_app_days (a b : list Q) n m : Sorted Qle a -> Sorted Qle b -> n < m ->
  Forall (fun s => inject_Z (n * 86400) <= s /\ s < inject_Z ((n + 1) * 86400))%Q a -> Forall (fun s => inject_Z (m * 86400) <= s)%Q b -> Sorted Qle (a ++ b).
Proof.
  intros Sa Sb L Fa Fb. induction Sa as [|x a Sa IH Hx]; [exact Sb|]. inversion Fa as [|? ? [_ F1] F2]; subst. cbn [app]. constructor; [apply IH; exact F2|].
  destruct a as [|y a]; cbn [app].
  - destruct b as [|y b]; constructor. inversion Fb; subst. apply Qlt_le_weak. eapply Qlt_le_trans; [exact F1|]. eapply Qle_trans; [|eassumption]. rewrite <- Zle_Qle. lia.
  - inversion Hx; subst. constructor. assumption.
Qed.

Lemma days_sorted (files : list (str * date)) sorted pre : Forall (fun x => dated pre (snd x) (fst x) /\ valid_date (snd x)) files -> NoDup (map snd files) ->
  Permutation (map fst files) sorted -> Sorted lex_le sorted ->
  exists files', sorted = map fst files' /\ Permutation files files' /\ StronglySorted (fun x y => ord (snd x) < ord (snd y)) files'.
Proof.
  intros F N P S. apply Permutation_sym, Permutation_map_inv in P. destruct P as (files' & -> & P). exists files'. split; [reflexivity|]. split; [exact P|].
  assert (F' : Forall (fun x => dated pre (snd x) (fst x) /\ valid_date (snd x)) files'). { eapply Permutation_Forall; [exact P|exact F]. }
  assert (N' : NoDup (map snd files')). { eapply Permutation_NoDup; [|exact N]. apply Permutation_map. exact P. }
  clear -F' N' S. apply Sorted_StronglySorted; [intros a b c; lia|]. induction files' as [|x l IH]; [constructor|]. cbn [map] in *. inversion S as [|? ? S1 S2]; inversion F' as [|? ? [D1 V1] F2]; inversion N' as [|? ? N1 N2]; subst.
  constructor; [apply IH; assumption|]. destruct l as [|y l]; constructor. inversion F2 as [|? ? [D2 V2] F3]; subst. cbn [map] in S2. inversion S2 as [|? ? Hl]; subst.
  pose proof (dated_order _ _ _ _ _ D1 D2 V1 V2 Hl) as L. cut (ord (snd x) <> ord (snd y)); [lia|]. intros E. apply (ord_inj _ _ V1 V2) in E. apply N1. left. symmetry. exact E.
Qed.
Lemma stacked_stamps (I : Type) stamp td (specs : feed_specs I) fsys (files : list (str * date)) fs parts : reads stamp td -> good_template specs feed ->
  Forall (fun x => day_file stamp fsys (snd x) (fst x)) files -> StronglySorted (fun x y => ord (snd x) < ord (snd y)) files ->
  Forall2 (file_table specs fsys) (map fst files) fs -> Forall2 (fun f part => has_column f (lit "mystery") part) fs parts ->
  exists l ts, concat parts = map Txt l /\ Forall2 stamp l ts /\ Sorted Qle ts /\
    forall n, Forall (fun x => n <= ord (snd x)) files -> Forall (fun s => inject_Z ((n - epoch_ord) * 86400) <= s)%Q ts.
Proof.
  intros Rt Hg. revert fs parts. induction files as [|x files IH]; intros fs parts F S T H.
  - cbn [map] in T. inversion T; subst. inversion H; subst. exists [], []. split; [reflexivity|]. split; [constructor|]. split; [constructor|]. intros; constructor.
  - cbn [map] in T. inversion T as [|? f ? fs' T1 T2]; subst. inversion H as [|? part ? parts' H1 H2]; subst. inversion F as [|? ? F1 F2]; subst. inversion S as [|? ? S1 S2]; subst.
    destruct (IH _ _ F2 S1 T2 H2) as (l & ts & E & FS & So & B). destruct (file_stamps _ _ _ _ _ _ _ _ _ Rt F1 T1 H1 Hg) as (l1 & t1 & -> & FS1 & So1 & B1).
    exists (l1 ++ l), (t1 ++ ts). cbn [concat]. rewrite E, map_app. split; [reflexivity|]. split; [apply Forall2_app; assumption|]. split.
    + specialize (B (ord (snd x) + 1)). eapply (Sorted_app_days t1 ts (ord (snd x) - epoch_ord) (ord (snd x) + 1 - epoch_ord)); [exact So1|exact So|lia|exact B1|]. apply B.
      eapply Forall_impl; [|exact S2]. intros y Hy. cbv beta in Hy. lia.
    + intros n Hn. inversion Hn as [|? ? N1 N2]; subst. apply Forall_app. split; [|apply B; exact N2]. eapply Forall_impl; [|exact B1]. intros q [Q1 _]. eapply Qle_trans; [|exact Q1]. rewrite <- Zle_Qle. lia.
Qed.
Lemma sorted_ordered ts : Sorted Qle ts -> ordered (map Q2R ts).
Proof.
  intros H. apply Sorted_StronglySorted in H; [|intros a b c; apply Qle_trans]. induction H as [|x l S IH F]; intros a b [L1 L2]; [cbn in L2; lia|]. cbn [map List.length] in *.
  destruct a as [|a], b as [|b]; cbn [nth]; [apply Rle_refl| |lia|apply IH; lia]. rewrite map_length in L2.
  rewrite (nth_indep _ 0%R (Q2R 0)) by (rewrite map_length; lia). rewrite map_nth. apply Qle_Rle. rewrite Forall_forall in F. apply F. apply nth_In. lia.
Qed.

(** C96: files named after their days, year first, with nothing different before the date, and one for each day: the times of
    the records come out in order, as the interpolation after this needs (C90). *)
Theorem C96_time_order : forall (I : Type) stamp td (specs : feed_specs I) fsys pre (files : list (str * date)) T,
  dictionary (formats specs) -> dictionary (descriptions specs) -> good_template specs feed -> converter td -> reads stamp td ->
  Forall (fun x => dated pre (snd x) (fst x) /\ valid_date (snd x) /\ day_file stamp fsys (snd x) (fst x)) files -> NoDup (map snd files) ->
  read_mru td specs fsys (map fst files) = Ok T ->
  exists ts, has_column T (lit "tsec") (map Num ts) /\ Sorted Qle ts /\ ordered (map Q2R ts).
Proof.
  intros I stamp td specs fsys pre files T Hf Hd Hg Hc Rt F N E. pose proof (C96_table I td specs fsys (map fst files) Hf Hd Hg Hc) as R. rewrite E in R.
  destruct R as [sorted frames whole before ts timed rest T P S FT [SD SC] HB Etd W1 Sel W2].
  destruct (days_sorted files sorted pre) as (files' & -> & P' & SS); [eapply Forall_impl; [|exact F]; intros x H; split; apply H|exact N|exact P|exact S|].
  destruct (SC _ _ HB) as (parts & -> & FP).
  assert (HP : Forall2 (fun f part => has_column f (lit "mystery") part) frames parts).
  { assert (HM : Forall (fun f => In (lit "mystery") (map fst f)) frames). { clear -FT Hg. induction FT as [|p f l fs H _ IH]; constructor; [exact (proj2 (file_table_table _ _ _ _ _ Hg H))|exact IH]. }
    clear -FP HM. induction FP as [|f part fs parts H _ IH]; constructor; inversion HM; subst; [|apply IH; assumption]. destruct H as [H|[H _]]; [exact H|contradiction]. }
  assert (FD : Forall (fun x => day_file stamp fsys (snd x) (fst x)) files').
  { eapply Permutation_Forall; [exact P'|]. eapply Forall_impl; [|exact F]. intros x H. apply H. }
  destruct (stacked_stamps I stamp td specs fsys files' frames parts Rt Hg FD SS FT HP) as (l & ts' & El & FS & So & _).
  rewrite El in Etd. rewrite (proj2 Rt _ _ FS) in Etd.
  assert (ts' = ts) as ->. { assert (Q : map Time ts' = map Time ts) by congruence. clear -Q. revert ts Q. induction ts' as [|a l IH]; intros [|b m] Q; try discriminate; [reflexivity|]. cbn [map] in Q. injection Q as -> Q. f_equal. apply IH. exact Q. }
  exists ts. split; [|split; [exact So|apply sorted_ordered; exact So]].
  unfold has_column. destruct W2; apply in_or_app; right; left; reflexivity.
Qed.
Print Assumptions C96_time_order.

(** Paths of the same days in different directories: dates do not decide the order. *)
Definition iso_day (s : str) : option Q :=
  if str_eqb s (lit "2023-06-16T00:00:01Z,") then Some 1686873601%Q else if str_eqb s (lit "2023-06-17T00:00:01Z,") then Some 1686960001%Q else None.
Definition iso_days (l : list cell) : res (list cell) :=
  mapM (fun c => match c with Txt s => match iso_day s with Some t => Ok (Time t) | None => Raise ValueError end | _ => Ok NaN end) l.
Definition iso_stamp (s : str) (t : Q) : Prop := iso_day s = Some t.
Lemma iso_converter : converter iso_days.
Proof.
  intros l. induction l as [|c l IH]; intros ts E; cbn [iso_days mapM] in E; [injection E as <-; split; [reflexivity|constructor]|].
  change (mapM _ l) with (iso_days l) in E. match type of E with (do b <- ?x; _) = _ => destruct x as [b|] eqn:Eb end; [|discriminate]. cbn [bind] in E.
  destruct (iso_days l) as [bs|]; [|discriminate]. cbn [bind] in E. injection E as <-. destruct (IH _ eq_refl) as [L F]. split; [cbn [List.length]; congruence|]. constructor; [|exact F].
  destruct c as [| |s|]; try (injection Eb as <-; left; reflexivity). destruct (iso_day s); [|discriminate]. injection Eb as <-. right. eexists. reflexivity.
Qed.
Lemma iso_reads : reads iso_stamp iso_days.
Proof.
  split.
  - intros s t H. unfold iso_stamp, iso_day in H.
    destruct (str_eqb s (lit "2023-06-16T00:00:01Z,")) eqn:E1; [|destruct (str_eqb s (lit "2023-06-17T00:00:01Z,")) eqn:E2; [|discriminate]].
    + apply str_eqb_eq in E1. subst s. split; [discriminate|]. intros [q Hq]. pose proof (feed_cell_spec (lit "2023-06-16T00:00:01Z,")) as C. vm_compute in C. inversion C as [|? ? _ _|? _ N]. apply N. exists q. exact Hq.
    + apply str_eqb_eq in E2. subst s. split; [discriminate|]. intros [q Hq]. pose proof (feed_cell_spec (lit "2023-06-17T00:00:01Z,")) as C. vm_compute in C. inversion C as [|? ? _ _|? _ N]. apply N. exists q. exact Hq.
  - induction 1 as [|s t l ts H _ IH]; [reflexivity|]. cbn [map iso_days mapM]. unfold iso_stamp in H. rewrite H. cbn [bind]. change (mapM _ (map Txt l)) with (iso_days (map Txt l)). rewrite IH. reflexivity.
Qed.
Definition mru_specs : feed_specs str := mk_specs str [(lit "PASHR", lit "$PASHR,{Hour:d},{Pitch:g}")] [].
Definition day16 : str := lit "2023-06-16T00:00:01Z,$PASHR,1,2.5" ++ [nl] ++ lit "end" ++ [nl].
Definition day17 : str := lit "2023-06-17T00:00:01Z,$PASHR,2,3.5" ++ [nl] ++ lit "end" ++ [nl].
Definition mru_disk (a b : str) (p : str) : option str := if str_eqb p a then Some day16 else if str_eqb p b then Some day17 else None.
Lemma day_file_of fsys p text s t d r : fsys p = Some text -> text <> [] -> tagged_lines feed (readlines text) = [s ++ lit "$PASHR" ++ r] ->
  feed_row feed (s ++ lit "$PASHR" ++ r) (s, split (lit ",") (strip_by (Ascii.eqb ",") r)) -> iso_day s = Some t -> valid_date d ->
  (inject_Z ((ord d - epoch_ord) * 86400) <= t)%Q -> (t < inject_Z ((ord d - epoch_ord + 1) * 86400))%Q -> day_file iso_stamp fsys d p.
Proof.
  intros Ep Hn Et Hr Hs V L1 L2. exists text, [s ++ lit "$PASHR" ++ r], [(s, split (lit ",") (strip_by (Ascii.eqb ",") r))], [t], (ord d - epoch_ord).
  split; [exact Ep|]. split; [rewrite <- Et; apply tagged_exists; exact Hn|]. split; [constructor; [exact Hr|constructor]|]. split; [constructor; [exact Hs|constructor]|].
  split; [repeat constructor|]. split; [apply day_number_ord; exact V|]. constructor; [split; assumption|constructor].
Qed.
Lemma mru_day16 fsys p : fsys p = Some day16 -> day_file iso_stamp fsys (2023, 6, 16) p.
Proof.
  intros E. apply (day_file_of fsys p day16 (lit "2023-06-16T00:00:01Z,") 1686873601%Q (2023, 6, 16) (lit ",1,2.5")); [exact E|discriminate|vm_compute; reflexivity| |reflexivity| | |].
  - apply row_read_spec. eexists. split; [vm_compute; reflexivity|vm_compute; reflexivity].
  - apply valid_date_iff. vm_compute. split; split; discriminate.
  - vm_compute. discriminate.
  - vm_compute. reflexivity.
Qed.
Lemma mru_day17 fsys p : fsys p = Some day17 -> day_file iso_stamp fsys (2023, 6, 17) p.
Proof.
  intros E. apply (day_file_of fsys p day17 (lit "2023-06-17T00:00:01Z,") 1686960001%Q (2023, 6, 17) (lit ",2,3.5")); [exact E|discriminate|vm_compute; reflexivity| |reflexivity| | |].
  - apply row_read_spec. eexists. split; [vm_compute; reflexivity|vm_compute; reflexivity].
  - apply valid_date_iff. vm_compute. split; split; discriminate.
  - vm_compute. discriminate.
  - vm_compute. reflexivity.
Qed.
Lemma dated_day pre Y M D y m d suf : len Y = 4%nat -> len M = 2%nat -> len D = 2%nat -> forallb is_digit (Y ++ M ++ D) = true -> digits_val Y = y -> digits_val M = m -> digits_val D = d ->
  dated pre (y, m, d) (pre ++ Y ++ lit "-" ++ M ++ lit "-" ++ D ++ suf).
Proof.
  intros L1 L2 L3 Hd <- <- <-. rewrite !forallb_app in Hd. apply andb_prop in Hd. destruct Hd as [H1 H2]. apply andb_prop in H2. destruct H2 as [H2 H3].
  exists Y, M, D, (digits_val Y), (digits_val M), (digits_val D), suf. repeat (split; [first [reflexivity|assumption|apply digits_whole; apply Forall_forall; apply forallb_forall; assumption]|]). reflexivity.
Qed.
Lemma mru_valid16 : valid_date (2023, 6, 16). Proof. apply valid_date_iff. vm_compute. split; split; discriminate. Qed.
Lemma mru_valid17 : valid_date (2023, 6, 17). Proof. apply valid_date_iff. vm_compute. split; split; discriminate. Qed.
Lemma mru_good : dictionary (formats mru_specs) /\ dictionary (descriptions mru_specs) /\ good_template mru_specs feed.
Proof.
  split; [repeat constructor; intros []|]. split; [constructor|]. intros template names [E|[]] H. injection E as <-. apply template_spec in H. subst names. vm_compute. repeat constructor; cbn [In]; intros H; repeat (destruct H as [H|H]; [discriminate|]); contradiction.
Qed.
(** "sorting by filename accomplishes this since the paths have dates": not if they differ before the date. *)
Theorem C96_time_order_refuted : exists stamp td (specs : feed_specs str) fsys (files : list (str * date)) T,
  dictionary (formats specs) /\ dictionary (descriptions specs) /\ good_template specs feed /\ converter td /\ reads stamp td /\
  Forall (fun x => (exists pre, dated pre (snd x) (fst x)) /\ valid_date (snd x) /\ day_file stamp fsys (snd x) (fst x)) files /\ NoDup (map snd files) /\
  read_mru td specs fsys (map fst files) = Ok T /\
  forall ts, has_column T (lit "tsec") (map Num ts) -> ~ Sorted Qle ts.
Proof.
  exists iso_stamp, iso_days, mru_specs, (mru_disk (lit "e/2023-06-16") (lit "d/2023-06-17")), [(lit "e/2023-06-16", (2023, 6, 16)); (lit "d/2023-06-17", (2023, 6, 17))].
  eexists. destruct mru_good as (G1 & G2 & G3). split; [exact G1|]. split; [exact G2|]. split; [exact G3|]. split; [exact iso_converter|]. split; [exact iso_reads|]. split; [|split; [|split; [vm_compute; reflexivity|]]].
  - constructor; [|constructor; [|constructor]]; cbn [fst snd].
    + split; [exists (lit "e/"); exact (dated_day (lit "e/") (lit "2023") (lit "06") (lit "16") 2023 6 16 [] eq_refl eq_refl eq_refl eq_refl eq_refl eq_refl eq_refl)|]. split; [exact mru_valid16|]. apply mru_day16. reflexivity.
    + split; [exists (lit "d/"); exact (dated_day (lit "d/") (lit "2023") (lit "06") (lit "17") 2023 6 17 [] eq_refl eq_refl eq_refl eq_refl eq_refl eq_refl eq_refl)|]. split; [exact mru_valid17|]. apply mru_day17. reflexivity.
  - cbn [map snd]. constructor; [intros [H|[]]; discriminate H|]. constructor; [intros []|constructor].
  - intros ts [H|[H|[H|[H|[]]]]] S; try discriminate H. destruct ts as [|a [|b [|c ts]]]; try discriminate H. cbn [map] in H.
    assert (a = 1686960001%Q /\ b = 1686873601%Q) as [-> ->] by (split; congruence). inversion S as [|? ? _ S2]. inversion S2 as [|? ? L]. vm_compute in L. apply L. reflexivity.
Qed.
Print Assumptions C96_time_order_refuted.
Example C96_case : exists T, read_mru iso_days mru_specs (mru_disk (lit "d/mru-2023-06-16.txt") (lit "d/mru-2023-06-17.txt")) [lit "d/mru-2023-06-17.txt"; lit "d/mru-2023-06-16.txt"] = Ok T /\
  T = [(lit "Hour:d", [Num 1; Num 2]); (lit "Pitch:g", [Num (25 # 10); Num (35 # 10)]); (lit "date_time", [Time 1686873601; Time 1686960001]); (lit "tsec", [Num 1686873601; Num 1686960001])].
Proof. eexists. split; [vm_compute; reflexivity|reflexivity]. Qed.
Example C96_case_order : exists files T, map fst files = [lit "d/mru-2023-06-17.txt"; lit "d/mru-2023-06-16.txt"] /\
  Forall (fun x => dated (lit "d/mru-") (snd x) (fst x) /\ valid_date (snd x) /\ day_file iso_stamp (mru_disk (lit "d/mru-2023-06-16.txt") (lit "d/mru-2023-06-17.txt")) (snd x) (fst x)) files /\
  NoDup (map snd files) /\ read_mru iso_days mru_specs (mru_disk (lit "d/mru-2023-06-16.txt") (lit "d/mru-2023-06-17.txt")) (map fst files) = Ok T.
Proof.
  exists [(lit "d/mru-2023-06-17.txt", (2023, 6, 17)); (lit "d/mru-2023-06-16.txt", (2023, 6, 16))]. eexists. split; [reflexivity|]. split; [|split; [|vm_compute; reflexivity]].
  - constructor; [|constructor; [|constructor]]; cbn [fst snd].
    + split; [exact (dated_day (lit "d/mru-") (lit "2023") (lit "06") (lit "17") 2023 6 17 (lit ".txt") eq_refl eq_refl eq_refl eq_refl eq_refl eq_refl eq_refl)|]. split; [exact mru_valid17|]. apply mru_day17. reflexivity.
    + split; [exact (dated_day (lit "d/mru-") (lit "2023") (lit "06") (lit "16") 2023 6 16 (lit ".txt") eq_refl eq_refl eq_refl eq_refl eq_refl eq_refl eq_refl)|]. split; [exact mru_valid16|]. apply mru_day16. reflexivity.
  - cbn [map snd]. constructor; [intros [H|[]]; discriminate H|]. constructor; [intros []|constructor].
Qed.
(** no files, a missing file, a feed that the yaml file does not describe, a time that cannot be read *)
Example C96_case_errors :
  read_mru iso_days mru_specs (fun _ => None) [] = Raise ValueError /\
  read_mru iso_days mru_specs (fun _ => None) [lit "a"] = Raise FileNotFoundError /\
  read_mru iso_days (mk_specs str [] []) (fun _ => None) [lit "a"] = Raise AssertionError /\
  read_mru (fun l => Ok (map (fun _ => NaN) l)) mru_specs (fun _ => Some day16) [lit "a"] = Raise ValueError.
Proof. repeat split. Qed.
