(** Cases for property C115. *)
From Coq Require Import ZArith QArith Reals Lra Lia Ascii String Arith Bool Permutation List.
From Verif Require Import M_Py M_Str M_Table M_Bgm M_Dgs M_Nmea M_Script M_Ccp M_Sat.
From Verif Require Import S_Base S_Str S_Nmea S_ReadNav S_Table S_Bgm S_Dgs S_Written S_Script S_Ccp S_Sat.
From Verif Require Import L_Str L_Table L_Dateline P_Nmea P_Script P_Meters P_MotionCase P_Ccp P_Sat.
Import ListNotations.
Open Scope Z_scope.
Local Notation len := List.length.

(** Satellite values of 1.5 for each of [n] rows, in words and between commas below a heading. *)
Definition sat_words (n : nat) : str := concat (repeat (lit "0 0 1.5" ++ [nl]) n).
Definition sat_commas (n : nat) : str := lit "lon,lat,depth,grav" ++ nl :: concat (repeat (lit "0,0,0,1.5" ++ [nl]) n).
Lemma repeated_lines l n : ~ In nl l -> file_lines (concat (repeat (l ++ [nl]) n)) (repeat (l ++ [nl]) n).
Proof. intros H. induction n as [|n IH]; [constructor|]. cbn [repeat concat]. rewrite <- app_assoc. apply (fl_line l _ _ H IH). Qed.
Lemma repeated_rows delim l row n : txt_fields delim l = row -> row <> [] ->
  filter (fun f => match f with [] => false | _ => true end) (map (txt_fields delim) (repeat l n)) = repeat row n.
Proof. intros E N. induction n as [|n IH]; [reflexivity|]. cbn [repeat map filter]. rewrite E, IH. destruct row; [congruence|reflexivity]. Qed.
Ltac no_nl := let H := fresh in intros H; repeat (destruct H as [H|H]; [discriminate H|]); exact H.
Lemma words_rows n : text_rows None 0 (sat_words n) (repeat [lit "0"; lit "0"; lit "1.5"] n).
Proof.
  apply text_rows_iff. unfold kept_rows, sat_words. rewrite (readlines_lines _ (repeat (lit "0 0 1.5" ++ [nl]) n)) by (apply repeated_lines; no_nl). cbn [skipn]. apply repeated_rows; [reflexivity|discriminate].
Qed.
Lemma commas_rows n : text_rows (Some ","%char) 1 (sat_commas n) (repeat [lit "0"; lit "0"; lit "0"; lit "1.5"] n).
Proof.
  apply text_rows_iff. unfold kept_rows, sat_commas. rewrite (readlines_lines _ ((lit "lon,lat,depth,grav" ++ [nl]) :: repeat (lit "0,0,0,1.5" ++ [nl]) n)) by (apply fl_line; [no_nl|apply repeated_lines; no_nl]).
  cbn [skipn]. apply repeated_rows; [reflexivity|discriminate].
Qed.
Lemma sat_number col row n : nth_error row col = Some (lit "1.5") -> Forall (fun r => exists s, cell_number col r s) (repeat row n).
Proof.
  intros E. apply Forall_forall. intros r Hr. apply repeat_spec in Hr. subst r. exists (lit "1.5"). split; [exact E|]. split; [apply py_float_spec; eexists; reflexivity|no_nl].
Qed.
Lemma repeated_values delim skip col text row n : (2 <= n)%nat -> text_rows delim skip text (repeat row n) -> nth_error row col = Some (lit "1.5") -> loadtxt delim skip col text = Ok (Vector (repeat (FDec 15 (-1)) n)).
Proof.
  intros Hn Hr E. apply text_rows_iff in Hr. unfold loadtxt. fold (kept_rows delim skip text). rewrite Hr.
  assert (X : mapM (txt_value col) (repeat row n) = Ok (repeat (FDec 15 (-1)) n)).
  { clear Hn Hr. induction n as [|n IH]; [reflexivity|]. cbn [repeat mapM]. unfold txt_value at 1. rewrite E.
    replace (if in_set (lit "1.5") "_" then Raise ValueError else py_float (lit "1.5")) with (Ok (FDec 15 (-1))) by reflexivity. cbn [bind]. rewrite IH. reflexivity. }
  rewrite X. destruct n as [|[|n]]; [lia|lia|reflexivity].
Qed.
Lemma plotted_values data drop vals p pt : plot_satellite data drop (Vector vals) = Ok p -> In pt p -> In (snd pt) vals.
Proof.
  unfold plot_satellite. destruct (get_column data (lit "date_time")) as [dt|]; [|discriminate]. cbn [bind sliced]. unfold plot. destruct (_ =? _)%nat; [|discriminate]. intros E H.
  assert (p = combine (trim (skipn drop dt)) (trim vals)) as -> by congruence. destruct pt as [a b]. apply in_combine_r in H. cbn [snd]. unfold trim, slice in H.
  rewrite <- (firstn_skipn M_Filt.script_taps vals). apply in_or_app. right. rewrite <- (firstn_skipn (len vals - 240 - M_Filt.script_taps) (skipn M_Filt.script_taps vals)). apply in_or_app. left. exact H.
Qed.
Lemma raw_plotted argsort fsys td ship nav_paths dgs_paths bias sat text vals p1 p2 pt : raw_plot argsort fsys td ship nav_paths dgs_paths bias sat = Ok (p1, p2) ->
  fsys sat = Some text -> loadtxt None 0 2 text = Ok (Vector vals) -> In pt p2 -> In (snd pt) vals.
Proof.
  unfold raw_plot. destruct (dgs_script _ _ _ _ _ _ _ _ _ _) as [[[data faa] full]|]; [|discriminate]. cbn [bind]. destruct (M_Nan.script_filter_nan faa) as [ffaa|]; [|discriminate]. cbn [bind].
  unfold open_text. intros E Hs Hl Hp. rewrite Hs in E. cbn [bind] in E. rewrite Hl in E. cbn [bind] in E. destruct (plot_anomaly _ _ _) as [q1|]; [|discriminate]. cbn [bind] in E.
  destruct (plot_satellite _ _ _) as [q2|] eqn:E2; [|discriminate]. cbn [bind] in E. assert (q2 = p2) as -> by congruence. exact (plotted_values _ _ _ _ _ E2 Hp).
Qed.
Definition sat_files (p : str) : option str :=
  if str_eqb p (lit "sat") then Some (sat_words 1441) else if str_eqb p (lit "short") then Some (sat_words 1440) else if str_eqb p (lit "one row") then Some (sat_words 1)
  else if str_eqb p (lit "sat.csv") then Some (sat_commas 1441) else day_files p.
Lemma sat_provided : Forall2 (provides sat_files (lit "Atlantis") gp None) [lit "n"] [case_data].
Proof. constructor; [|constructor]. exists case_nav. eexists. split; [reflexivity|]. split; [exact case_lines|exact case_file]. Qed.
Lemma sat_dgs : read_dgs_laptop sat_files day_dates [lit "dgs"] (lit "Atlantis") None = read_dgs_laptop day_files day_dates [lit "dgs"] (lit "Atlantis") None.
Proof. apply same_read. reflexivity. Qed.
Lemma sat_bgm : read_bgm_raw sat_files day_dates [lit "bgm"] (lit "Atlantis") None None = read_bgm_raw day_files day_dates [lit "bgm"] (lit "Atlantis") None None.
Proof.
  assert (E : sat_files (lit "bgm") = day_files (lit "bgm")) by reflexivity. unfold read_bgm_raw, read_bgm_raw_from, collect. match goal with |- match ?x with _ => _ end = _ => destruct x as [sc|]; [|reflexivity] end. cbn [mapM]. unfold bgm_reader, open_text. rewrite E. reflexivity.
Qed.
Strategy expand [sat_words sat_commas].
(** 721 points; the first is that of the 481st record, 10:23:00. *)
Example C115_case_raw : exists p1 p2 t, raw_plot insertion_sort sat_files day_dates (lit "Atlantis") [lit "n"] [lit "dgs"] 970000 (lit "sat") = Ok (p1, p2) /\
  len p1 = 721%nat /\ len p2 = 721%nat /\ nth_error p2 0 = Some (Time t, FDec 15 (-1)) /\ (t == 1709202180)%Q.
Proof.
  destruct (good_table_ok _ _ _ day_dgs) as (T & gs & Er & M & Hg). rewrite <- sat_dgs in Er. assert (L : (1440 < len day_us)%nat) by (rewrite day_length; lia).
  destruct (C115_raw insertion_sort sat_files day_dates (lit "Atlantis") gp [lit "n"] [case_data] [lit "dgs"] T day_us gs 970000 (lit "sat") insertion_sort_sorts case_ship motion_talker sat_provided Er M L)
    as (idx & T' & faa & full & ffaa & O & _ & _ & _ & _ & _ & R).
  apply day_order in O. subst idx.
  destruct (R (sat_words 1441) _ eq_refl (words_rows 1441)) as [_ R2]. destruct (R2 (sat_number 2 [lit "0"; lit "0"; lit "1.5"] 1441 eq_refl)) as (_ & _ & R3). clear R R2.
  rewrite repeat_length, day_length in R3. destruct (R3 eq_refl) as (p1 & p2 & E & (L1 & _) & (L2 & V)). clear R3. destruct (V 0%nat ltac:(lia)) as (t & v & Ev & Et & _).
  rewrite seq_nth in Et by lia. unfold day_us in Et. rewrite nth_map_seq_at in Et by lia.
  assert (v = FDec 15 (-1)) as ->.
  { apply nth_error_In in Ev. apply (raw_plotted _ _ _ _ _ _ _ _ (sat_words 1441) (repeat (FDec 15 (-1)) 1441) _ _ _ E eq_refl) in Ev; [apply repeat_spec in Ev; exact Ev|].
    apply (repeated_values None 0 2 _ [lit "0"; lit "0"; lit "1.5"]); [lia|apply words_rows|reflexivity]. }
  exists p1, p2, t. split; [exact E|]. split; [exact L1|]. split; [exact L2|]. split; [exact Ev|]. rewrite Et. reflexivity.
Qed.
(** A row too few; a single row; a file that does not exist. *)
Example C115_case_failures :
  raw_plot insertion_sort sat_files day_dates (lit "Atlantis") [lit "n"] [lit "dgs"] 970000 (lit "short") = Raise ValueError /\
  raw_plot insertion_sort sat_files day_dates (lit "Atlantis") [lit "n"] [lit "dgs"] 970000 (lit "one row") = Raise IndexError /\
  raw_plot insertion_sort sat_files day_dates (lit "Atlantis") [lit "n"] [lit "dgs"] 970000 (lit "none") = Raise FileNotFoundError.
Proof.
  destruct (good_table_ok _ _ _ day_dgs) as (T & gs & Er & M & Hg). rewrite <- sat_dgs in Er. assert (L : (1440 < len day_us)%nat) by (rewrite day_length; lia).
  pose proof (fun sat => C115_raw insertion_sort sat_files day_dates (lit "Atlantis") gp [lit "n"] [case_data] [lit "dgs"] T day_us gs 970000 sat insertion_sort_sorts case_ship motion_talker sat_provided Er M L) as R.
  split; [|split].
  - destruct (R (lit "short")) as (? & ? & ? & ? & ? & _ & _ & _ & _ & _ & _ & R1). destruct (R1 (sat_words 1440) _ eq_refl (words_rows 1440)) as [_ R2]. destruct (R2 (sat_number 2 [lit "0"; lit "0"; lit "1.5"] 1440 eq_refl)) as (_ & R3 & _).
    rewrite repeat_length, day_length in R3. apply R3; discriminate.
  - destruct (R (lit "one row")) as (? & ? & ? & ? & ? & _ & _ & _ & _ & _ & _ & R1). destruct (R1 (sat_words 1) _ eq_refl (words_rows 1)) as [_ R2]. destruct (R2 (sat_number 2 [lit "0"; lit "0"; lit "1.5"] 1 eq_refl)) as (R3 & _). apply R3. reflexivity.
  - destruct (R (lit "none")) as (? & ? & ? & ? & ? & _ & _ & _ & _ & _ & R1 & _). apply R1. reflexivity.
Qed.
Example C115_case_meters : exists p1 p2 p3 t, meters_plot insertion_sort sat_files day_dates (lit "Atlantis") [lit "n"] [lit "dgs"] [lit "bgm"] 970000 855000 (lit "sat.csv") = Ok (p1, p2, p3) /\
  len p1 = 721%nat /\ len p2 = 721%nat /\ len p3 = 721%nat /\ (exists v, nth_error p3 720 = Some (Time t, v)) /\ (t == 1709202900)%Q.
Proof.
  destruct (good_table_ok _ _ _ day_dgs) as (D & gs & Er & M & _). rewrite <- sat_dgs in Er. destruct (good_table_ok _ _ _ day_bgm) as (B & hs & Er' & M' & _). assert (L : (1440 < len day_us)%nat) by (rewrite day_length; lia).
  assert (Er2 : read_bgm_raw sat_files day_dates [lit "bgm"] (lit "Atlantis") None None = Ok (Some B)) by (rewrite sat_bgm; exact Er').
  destruct (C115_meters insertion_sort sat_files day_dates (lit "Atlantis") gp [lit "n"] [case_data] [lit "dgs"] [lit "bgm"] D day_us gs B (rev day_us) hs 970000 855000 (lit "sat.csv")
    insertion_sort_sorts case_talker sat_provided Er M L Er2 M' ltac:(rewrite rev_length; exact L)) as (idx & jdx & D' & B' & ? & ? & ? & ? & ? & ? & O & _ & _ & _ & _ & _ & _ & _ & _ & _ & R).
  apply day_order in O. subst idx.
  destruct (R (sat_commas 1441) _ eq_refl (commas_rows 1441)) as [_ R2]. destruct (R2 (sat_number 3 [lit "0"; lit "0"; lit "0"; lit "1.5"] 1441 eq_refl)) as (_ & _ & R3). clear R R2.
  rewrite repeat_length, rev_length, day_length in R3. destruct (R3 eq_refl) as (p1 & p2 & p3 & E & (L1 & _) & (L2 & _) & (L3 & V)). clear R3. destruct (V 720%nat ltac:(lia)) as (t & v & Ev & Et & _).
  rewrite seq_nth in Et by lia. unfold day_us in Et. rewrite nth_map_seq_at in Et by lia.
  exists p1, p2, p3, t. split; [exact E|]. split; [exact L1|]. split; [exact L2|]. split; [exact L3|]. split; [exists v; exact Ev|]. rewrite Et. reflexivity.
Qed.
(** The 1002 records of C107 suffice for the fit but not for the low pass. *)
Example C115_case_ccp : forall params sat, ccp_plot insertion_sort cc_files case_dates (lit "Atlantis") [lit "n"] [lit "one"] 970000 params sat = Some (Raise ValueError).
Proof.
  intros params sat. destruct (cc_run cc_one (lit "one")) as (r & p & E & _); [reflexivity|exact cc_read_one|]. destruct (cc_meter cc_one eq_refl) as (M & _ & _).
  assert (Lu : len cc_us = 1002%nat) by (unfold cc_us; rewrite map_length, seq_length; reflexivity).
  refine (proj1 (C115_ccp _ _ _ _ _ _ _ _ _ _ params sat r insertion_sort_sorts cc_read_one M E _) _); rewrite Lu; lia.
Qed.
