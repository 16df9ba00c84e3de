(** Lemmas for property C70. *)
From Coq Require Import ZArith QArith Qabs Ascii String Bool Lia Sorted List.
From Verif Require Import M_Py M_Str M_Cal M_Ini M_Nmea M_ReadNav M_Table M_Bgm M_Dgs S_Str S_Cal S_Nmea S_ReadNav S_Table S_Bgm S_Dgs
  L_Base L_Str L_Cal L_Nmea L_Nav2 L_ReadNav L_Dateline L_Num L_Table L_Bgm L_Dgs.
Import ListNotations.
Open Scope Z_scope.
Local Notation len := List.length.

Lemma column_cases l : (exists cs, text_column l cs) \/ number_column l.
Proof.
  destruct l as [|a l]; [left; exists []; split; [left; reflexivity|constructor]|]. set (l0 := a :: l).
  destruct (Forall_Exists_dec (fun s => missing s \/ a_number s)
    ltac:(intros s; destruct (is_na s) eqn:E1; [left; left; apply is_na_spec; exact E1|]; destruct (numeral s) as [q|] eqn:E2;
      [left; right; exists q; apply numeral_some; exact E2|right; intros [K|K]; [apply is_na_false in E1; contradiction|apply numeral_none in E2; contradiction]]) l0) as [F|F].
  - right. split; [discriminate|exact F].
  - left. apply Exists_exists in F. destruct F as [s [Hs Hn]]. exists (map (fun s => if is_na s then NaN else Txt s) l0). split.
    + right. exists s. split; [exact Hs|]. split; intros K; apply Hn; [left|right]; exact K.
    + apply Forall2_map_r. intros x _. destruct (is_na x) eqn:E; [apply tc_missing; apply is_na_spec; exact E|apply tc_text; apply is_na_false; exact E].
Qed.
Lemma number_column_no_text l : number_column l -> forall s, ~ In (Txt s) (infer_column l).
Proof.
  intros [_ H] s. unfold infer_column. replace (forallb _ l) with true.
  - intros Hi. apply in_map_iff in Hi. destruct Hi as [x [E _]]. destruct (is_na x); [discriminate|]. destruct (numeral x); discriminate.
  - symmetry. apply forallb_forall. intros x Hx. rewrite Forall_forall in H. destruct (H x Hx) as [K|K].
    + apply is_na_spec in K. rewrite K. reflexivity.
    + apply orb_true_iff. right. destruct (numeral x) eqn:E; [reflexivity|]. apply numeral_none in E. contradiction.
Qed.
Lemma starts_with_spec p s : prefixb p s = true <-> starts_with p s.
Proof. apply prefixb_spec. Qed.
Lemma strip_unique s t : trimmed s t -> strip s = t.
Proof. exact (trimmed_strip s t). Qed.
Lemma unsynced_spec r : prefixb (lit "1") (strip (nth 18 r [])) = true <-> unsynced r.
Proof.
  rewrite starts_with_spec. split.
  - intros H. exists (nth 18 r []), (strip (nth 18 r [])). split; [apply field_at_nth|]. split; [apply strip_trimmed|exact H].
  - intros [s [s' [Hf [Ht H]]]]. apply field_at_fun in Hf. apply strip_unique in Ht. subst s s'. exact H.
Qed.
Lemma line_stamp_spec k r c : stamp14 (strip (nth k r [])) = Ok c <-> line_stamp k r c.
Proof.
  split.
  - intros H. apply stamp14_sound in H. destruct H as [i [Hi ->]]. exists (nth k r []), (strip (nth k r [])), i.
    split; [apply field_at_nth|]. split; [apply strip_trimmed|]. split; [exact Hi|reflexivity].
  - intros [s [s' [i [Hf [Ht [Hi ->]]]]]]. apply field_at_fun in Hf. apply strip_unique in Ht. subst s s'. apply stamp14_ok. exact Hi.
Qed.
Lemma mapM_field (B : Type) (f : str -> res B) k rows : mapM f (field_column k rows) = mapM (fun r => f (nth k r [])) rows.
Proof. unfold field_column. induction rows as [|r rows IH]; [reflexivity|]. cbn [map mapM]. rewrite IH. reflexivity. Qed.
Lemma raw_names_fields : numbered (raw_names ++ [lit "timestamp"]) = raw_fields.
Proof. reflexivity. Qed.
Lemma raw_Thompson_names : numbered ([lit "date"; lit "time"] ++ raw_names) = raw_Thompson_fields.
Proof. reflexivity. Qed.
Lemma first_words cs : Forall (fun c => c = NaN \/ exists x, c = Txt x) cs ->
  match mapM (fun c => match c with Txt s => Ok (Txt (hd [] (split (lit " ") s))) | _ => Raise AttributeError end) cs with
  | Ok l => exists words, l = map Txt words /\ Forall2 (fun c w => exists s, c = Txt s /\ before_first " " s w) cs words
  | Raise _ => In NaN cs
  end.
Proof.
  induction 1 as [|c cs Hc _ IH]; cbn [mapM]; [exists []; split; [reflexivity|constructor]|].
  destruct Hc as [->|[x ->]]; cbn [bind]; [left; reflexivity|].
  destruct (mapM _ cs) as [l|e]; cbn [bind]; [|right; exact IH]. destruct IH as [words [-> H]].
  exists (hd [] (split (lit " ") x) :: words). split; [reflexivity|]. constructor; [|exact H]. exists x. split; [reflexivity|]. apply (split_before_first " ").
Qed.
Lemma raw_general_cases iso text :
  match dgs_raw_general iso text with Ok f => raw_general iso text f | Raise e => raw_general_error text e end.
Proof.
  unfold dgs_raw_general. cbv zeta. rewrite raw_names_fields. set (rows := csv_rows "," 0 text).
  assert (Hr : csv_file "," 0 text rows) by (apply csv_rows_file; reflexivity). unfold read_csv.
  destruct (check_columns_cases (map snd raw_fields) rows) as [E|E]; rewrite E; cbn [bind].
  2: { eapply rge_narrow; [exact Hr|]. intros K. rewrite (check_columns_ok _ _ K) in E. discriminate. }
  apply check_columns_ok_inv in E. pose proof (csv_frame_table raw_fields rows) as Hf.
  assert (Ht : forall t, csv_frame raw_fields rows ++ [(date_time_name, t)] = csv_frame raw_fields rows ++ [(lit "date_time", t)]) by reflexivity.
  clearbody rows. destruct rows as [|r0 rs]; [apply rge_empty; exact Hr|].
  remember (csv_frame raw_fields (r0 :: rs)) as dat eqn:Ed. clear Ed.
  destruct (prefixb (lit "1") (strip (nth 18 r0 []))) eqn:E1; cbn [negb].
  - apply unsynced_spec in E1. set (strings := field_column 0 (r0 :: rs)).
    assert (Hs : Forall2 (field_at 0) (r0 :: rs) strings) by (apply field_column_at; reflexivity).
    destruct (column_cases strings) as [[cs Hc]|Hc].
    + rewrite (infer_text _ _ Hc). pose proof (text_only _ _ Hc) as Hto. destruct Hc as [Hc1 Hc2].
      unfold strings in Hc2. cbn [field_column map] in Hc2. inversion Hc2 as [|s0 c0 l' cs' Hc0 Hcs]; subst. cbn [nth].
      inversion Hc0 as [Hm|Hm]; subst.
      * eapply rge_string; try eassumption; [reflexivity|left; exact Hm].
      * match goal with |- context [prefixb (lit "$") ?x] => destruct (prefixb (lit "$") x) eqn:E2 end.
        -- apply starts_with_spec in E2. eapply rg_dollar; try eassumption. split; [exact Hc1|constructor; [exact Hc0|exact Hcs]].
        -- assert (E3 : ~ starts_with (lit "$") (nth 0 r0 [])) by (intros K; apply starts_with_spec in K; exact (eq_true_false_abs _ K E2)).
           pose proof (first_words _ Hto) as Fw. match type of Fw with context [mapM ?f ?l] => set (m := mapM f l) in Fw; match goal with |- context [mapM ?f' ?l'] => change (mapM f' l') with m end end.
           destruct m as [l|e].
           ++ destruct Fw as [words [-> Fw]]. destruct (iso (map Txt words)) as [t|e] eqn:Ei.
              ** rewrite Ht. eapply rg_iso; try eassumption. split; [exact Hc1|constructor; [exact Hc0|exact Hcs]].
              ** eapply rg_no_iso; try eassumption; [split; [exact Hc1|constructor; [exact Hc0|exact Hcs]]|]. right. exists words, e. split; assumption.
           ++ eapply rg_no_iso; try eassumption; [split; [exact Hc1|constructor; [exact Hc0|exact Hcs]]|]. left. destruct Fw as [Fw|Fw]; [discriminate|exact Fw].
    + pose proof (number_column_no_text _ Hc) as Nt.
      assert (Hl : (0 < len (infer_column strings))%nat) by (rewrite infer_length; cbn; lia).
      destruct (infer_column strings) as [|c0 cs] eqn:Ei; [cbn in Hl; lia|]. cbn [nth].
      destruct c0 as [q| |s0|t0]; try (eapply rge_string; try eassumption; [reflexivity|right; exact Hc]).
      exfalso. apply (Nt s0). left. reflexivity.
  - assert (E2 : ~ unsynced r0) by (intros K; apply unsynced_spec in K; exact (eq_true_false_abs _ K E1)).
    rewrite mapM_field. destruct (mapM (fun r => stamp14 (strip (nth 18 r []))) (r0 :: rs)) as [ts|e] eqn:Em; cbn [bind].
    + rewrite Ht. eapply rg_stamps; try eassumption. apply mapM_Forall2_inv in Em. eapply Forall2_weaken; [|exact Em].
      intros r c Hrc. apply line_stamp_spec. exact Hrc.
    + apply mapM_raise_in in Em. destruct Em as [l1 [r [l2 [El [_ Er]]]]]. pose proof (stamp14_err _ _ Er) as ->. eapply rge_stamp; try eassumption.
      * rewrite El. apply in_or_app. right. left. reflexivity.
      * intros c K. apply line_stamp_spec in K. congruence.
Qed.

(** ** Thompson *)
Lemma thompson_time_cases p :
  match thompson_time p with Ok c => mdy_line p c | Raise e => mdy_error p e end.
Proof.
  destruct p as [a b]. unfold thompson_time.
  destruct a as [q| |d|q]; try (apply me_type; intros x y K; discriminate). destruct b as [q| |t|q]; try (apply me_type; intros x y K; discriminate).
  destruct (strptime_Thompson (d ++ lit ":" ++ t)) as [q|e] eqn:E; cbn [bind].
  - apply mdy_sound in E. destruct E as [i [Hi ->]]. apply ml. exact Hi.
  - pose proof (mdy_err _ _ E) as ->. apply me_value. intros i K. apply mdy_ok in K. congruence.
Qed.
Lemma raw_Thompson_cases text :
  match dgs_raw_Thompson text with Ok f => raw_Thompson text f | Raise e => raw_Thompson_error text e end.
Proof.
  unfold dgs_raw_Thompson. cbv zeta. rewrite raw_Thompson_names. set (rows := csv_rows "," 0 text).
  assert (Hr : csv_file "," 0 text rows) by (apply csv_rows_file; reflexivity). unfold read_csv.
  destruct (check_columns_cases (map snd raw_Thompson_fields) rows) as [E|E]; rewrite E; cbn [bind].
  2: { eapply rte_narrow; [exact Hr|]. intros K. rewrite (check_columns_ok _ _ K) in E. discriminate. }
  apply check_columns_ok_inv in E. pose proof (csv_frame_table raw_Thompson_fields rows) as Hf.
  set (pairs := combine _ _).
  assert (Hb : both_columns rows pairs).
  { exists (field_column 0 rows), (field_column 1 rows), (infer_column (field_column 0 rows)), (infer_column (field_column 1 rows)).
    split; [apply field_column_at; reflexivity|]. split; [apply field_column_at; reflexivity|]. split; [apply infer_read|]. split; [apply infer_read|reflexivity]. }
  clearbody pairs. destruct (mapM thompson_time pairs) as [ts|e] eqn:Em; cbn [bind].
  - apply (rt text rows _ pairs ts Hr E Hf Hb). apply mapM_Forall2_inv in Em. eapply Forall2_weaken; [|exact Em].
    intros p c Hp. pose proof (thompson_time_cases p) as C. rewrite Hp in C. exact C.
  - eapply rte_stamp; [exact Hr|exact E|exact Hb|]. apply mapM_raise_in in Em. destruct Em as [l1 [p [l2 [El [Hl Ep]]]]].
    exists l1, p, l2. split; [exact El|]. split.
    + eapply Forall_impl; [|exact Hl]. intros x [y Hy]. exists y. pose proof (thompson_time_cases x) as C. rewrite Hy in C. exact C.
    + pose proof (thompson_time_cases p) as C. rewrite Ep in C. exact C.
Qed.

(** ** Sikuliaq *)
Lemma num_char_spec c : num_char c = true <-> number_char c.
Proof.
  unfold num_char, number_char. rewrite !orb_true_iff, !Ascii.eqb_eq, is_digit_spec. tauto.
Qed.
Lemma num_char_false c : num_char c = false <-> ~ number_char c.
Proof. rewrite <- num_char_spec. destruct (num_char c); split; intros H; try congruence; exfalso; apply H; reflexivity. Qed.
Lemma num_field_spec s : num_field s = true <-> group s.
Proof.
  unfold num_field, group. destruct s as [|c s]; [split; [discriminate|intros [H _]; congruence]|]. rewrite forallb_forall. split.
  - intros H. split; [discriminate|]. apply Forall_forall. intros x Hx. apply num_char_spec. apply H. exact Hx.
  - intros [_ H] x Hx. rewrite Forall_forall in H. apply num_char_spec. apply H. exact Hx.
Qed.
Lemma group_no_comma s : group s -> no_comma s.
Proof. intros [_ H] Hi. rewrite Forall_forall in H. destruct (H _ Hi) as [K|[K|K]]; [|discriminate|discriminate]. apply is_digit_spec in K. discriminate. Qed.
Lemma split_lead c a s : ~ In c a -> split [c] (a ++ s) = (a ++ hd [] (split [c] s)) :: tl (split [c] s).
Proof.
  intros Ha. pose proof (split_char_clean c s) as Hc. pose proof (join_split [c] s ltac:(discriminate)) as E. pose proof (split_nonnil [c] s) as N.
  destruct (split [c] s) as [|x l]; [congruence|]. cbn [hd tl]. rewrite <- E.
  replace (a ++ join [c] (x :: l)) with (join [c] ((a ++ x) :: l)).
  - apply split_char_join; [discriminate|]. inversion Hc; subst. constructor; [|assumption]. rewrite in_app_iff. tauto.
  - destruct l as [|y l]; [reflexivity|]. change (join [c] ((a ++ x) :: y :: l)) with ((a ++ x) ++ [c] ++ join [c] (y :: l)). symmetry. apply app_assoc.
Qed.
Lemma sikuliaq_groups_ok raw gs : at1m raw gs -> sikuliaq_groups raw = Some gs.
Proof.
  intros [x0 g1 g2 g3 x4 x5 x6 x7 g4 g5 g6 g7 x12 x13 g8 g9 rest Hx Hg Hrest].
  assert (Hp : no_comma (lit "$AT1M_" ++ x0)).
  { intros Hi. apply in_app_or in Hi. destruct Hi as [Hi|Hi]; [cbv in Hi; intuition discriminate|]. inversion Hx; contradiction. }
  repeat match goal with H : Forall _ (_ :: _) |- _ => inversion H; subst; clear H end.
  repeat match goal with H : Forall _ [] |- _ => clear H end.
  repeat match goal with H : group ?g |- _ => lazymatch goal with K : no_comma g |- _ => fail | _ => pose proof (group_no_comma g H) end end.
  unfold no_comma in *.
  assert (E : split (lit ",") (lit "$AT1M_" ++ join (lit ",") [x0; g1; g2; g3; x4; x5; x6; x7; g4; g5; g6; g7; x12; x13; g8; g9] ++ rest) =
    [lit "$AT1M_" ++ x0; g1; g2; g3; x4; x5; x6; x7; g4; g5; g6; g7; x12; x13; g8; g9 ++ hd [] (split (lit ",") rest)] ++ tl (split (lit ",") rest)).
  { change (lit ",") with [","%char].
    transitivity ((lit "$AT1M_" ++ x0) :: g1 :: g2 :: g3 :: x4 :: x5 :: x6 :: x7 :: g4 :: g5 :: g6 :: g7 :: x12 :: x13 :: g8 :: split [","%char] (g9 ++ rest));
      [|rewrite (split_lead "," g9 rest) by assumption; reflexivity].
    replace (lit "$AT1M_" ++ _ ++ rest) with ((lit "$AT1M_" ++ x0) ++ ","%char :: g1 ++ ","%char :: g2 ++ ","%char :: g3 ++ ","%char :: x4 ++ ","%char :: x5 ++
      ","%char :: x6 ++ ","%char :: x7 ++ ","%char :: g4 ++ ","%char :: g5 ++ ","%char :: g6 ++ ","%char :: g7 ++ ","%char :: x12 ++ ","%char :: x13 ++ ","%char :: g8 ++ ","%char :: g9 ++ rest)
      by (cbn [join]; repeat rewrite <- !app_assoc; reflexivity).
    rewrite !split_char_cons by assumption. reflexivity. }
  unfold sikuliaq_groups. rewrite E. cbv zeta.
  set (r' := hd [] (split (lit ",") rest)). set (more := tl (split (lit ",") rest)).
  assert (Sp : span num_char (g9 ++ r') = (g9, r')).
  { apply span_app.
    - match goal with H : group g9 |- _ => destruct H as [_ H]; eapply Forall_impl; [|exact H] end. intros c. apply num_char_spec.
    - intros c t Er. apply num_char_false. pose proof (split_before_first "," rest) as [_ B]. change [","%char] with (lit ",") in B. fold r' in B.
      destruct B as [B|[p B]]; rewrite Er in B; cbn [app] in B; exact (Hrest _ _ B). }
  cbn [app nth]. rewrite Sp. cbn [fst map forallb nth app].
  repeat match goal with H : group ?g |- _ => apply num_field_spec in H; rewrite H end.
  replace (prefixb (lit "$AT1M_") (lit "$AT1M_" ++ x0)) with true by (symmetry; apply prefixb_app).
  replace (16 <=? _)%nat with true by (symmetry; apply Nat.leb_le; cbn [len]; lia). reflexivity.
Qed.
Lemma sikuliaq_groups_sound raw gs : sikuliaq_groups raw = Some gs -> at1m raw gs.
Proof.
  unfold sikuliaq_groups. pose proof (split_char_clean "," raw) as Hc. pose proof (join_split [","%char] raw ltac:(discriminate)) as E. change [","%char] with (lit ",") in *.
  destruct (split (lit ",") raw) as [|f0 [|f1 [|f2 [|f3 [|f4 [|f5 [|f6 [|f7 [|f8 [|f9 [|f10 [|f11 [|f12 [|f13 [|f14 [|f15 more]]]]]]]]]]]]]]]]; try discriminate.
  cbv zeta. cbn [nth]. pose proof (span_spec num_char f15) as Sp. destruct (span num_char f15) as [g9 r']. destruct Sp as [E15 [_ Hr]]. cbn [fst].
  destruct (_ && _) eqn:C; [|discriminate]. intros H. injection H as <-. cbn [map nth app].
  apply andb_true_iff in C. destruct C as [C Cl]. apply andb_true_iff in C. destruct C as [C Cg]. apply andb_true_iff in C. destruct C as [_ Cp].
  cbn [forallb nth] in Cg. repeat (apply andb_true_iff in Cg; let K := fresh "G" in destruct Cg as [K Cg]; apply num_field_spec in K). clear Cg.
  apply num_field_spec in Cl. apply prefixb_spec in Cp. destruct Cp as [x0 ->].
  revert E. subst f15. repeat match goal with H : Forall _ (_ :: _) |- _ => inversion H; subst; clear H end. intros E.
  set (tail := match more with [] => [] | _ => lit "," ++ join (lit ",") more end).
  assert (Er : raw = lit "$AT1M_" ++ join (lit ",") [x0; f1; f2; f3; f4; f5; f6; f7; f8; f9; f10; f11; f12; f13; f14; g9] ++ r' ++ tail).
  { rewrite <- E. unfold tail. destruct more as [|m more]; cbn [join]; rewrite ?app_nil_r; repeat rewrite <- !app_assoc; reflexivity. }
  rewrite Er. apply (at1m_intro x0 f1 f2 f3 f4 f5 f6 f7 f8 f9 f10 f11 f12 f13 f14 g9 (r' ++ tail)).
  - apply Forall_cons; [intros K; match goal with H : ~ In _ ("$"%char :: _) |- _ => apply H; do 6 right; exact K end|].
    repeat (apply Forall_cons; [assumption|]). apply Forall_nil.
  - repeat (apply Forall_cons; [assumption|]). apply Forall_nil.
  - intros c t K. destruct r' as [|y r'].
    + unfold tail in K. destruct more; [discriminate|]. cbn [app] in K. injection K as <- _. intros [N|[N|N]]; [apply is_digit_spec in N; discriminate|discriminate|discriminate].
    + injection K as <- _. apply num_char_false. exact (Hr y r' eq_refl).
Qed.
Lemma uncomment_spec b : before_first "#" b (uncomment b).
Proof.
  unfold uncomment. pose proof (span_spec (fun c => negb (Ascii.eqb c "#")) b) as Sp. destruct (span _ b) as [a r]. destruct Sp as [E [Ha Hr]]. cbn [fst]. split.
  - intros K. rewrite Forall_forall in Ha. specialize (Ha _ K). rewrite Ascii.eqb_refl in Ha. discriminate.
  - destruct r as [|x r]; [left; rewrite app_nil_r in E; exact E|]. right. exists r. specialize (Hr x r eq_refl). apply negb_false_iff in Hr. apply Ascii.eqb_eq in Hr. subst x. exact E.
Qed.
Lemma at1m_groups raw : match sikuliaq_groups raw with Some gs => at1m raw gs | None => forall gs, ~ at1m raw gs end.
Proof.
  destruct (sikuliaq_groups raw) as [gs|] eqn:E; [apply sikuliaq_groups_sound; exact E|]. intros gs K. apply sikuliaq_groups_ok in K. congruence.
Qed.
Lemma at1m_nine raw gs : at1m raw gs -> len gs = 9%nat.
Proof. intros []. reflexivity. Qed.
Lemma sikuliaq_rows_ok text : sikuliaq_rows text (map (split [tab]) (filter (fun l => negb (blank tab l)) (map (fun l => uncomment (chomp l)) (readlines text)))).
Proof.
  destruct (lines_exist text) as [ls [Hl E]]. rewrite E. exists ls, (map (fun l => uncomment (chomp l)) ls), (filter (fun l => negb (blank tab l)) (map (fun l => uncomment (chomp l)) ls)).
  split; [exact Hl|]. split; [|split].
  - apply lines_bodies in Hl. clear E. remember (map chomp ls) as bs eqn:Eb. revert Eb. induction Hl as [|l b ls' bs' Hb _ IH]; intros Eb; [constructor|].
    cbn [map] in *. injection Eb as Eb1 Eb2. constructor; [|apply IH; exact Eb2]. exists b. split; [exact Hb|]. subst b. apply uncomment_spec.
  - apply filter_selected. intros a _. apply blank_false.
  - apply Forall2_map_r. intros a _. apply split_fields.
Qed.
Lemma sikuliaq_cells rows k : (k < 9)%nat ->
  Forall2 (sikuliaq_cell k) rows (map (fun g => match g with Some l => coerce (nth k l []) | None => NaN end) (map sikuliaq_groups (field_column 2 rows))).
Proof.
  intros Hk. unfold field_column. rewrite !map_map. apply Forall2_map_r. intros r _. exists (nth 2 r []). split; [apply field_at_nth|].
  pose proof (at1m_groups (nth 2 r [])) as G. destruct (sikuliaq_groups (nth 2 r [])) as [gs|].
  - left. exists gs, (nth k gs []). split; [exact G|]. split; [|apply coerce_spec]. apply nth_error_nth'. rewrite (at1m_nine _ _ G). exact Hk.
  - right. split; [exact G|reflexivity].
Qed.
Lemma raw_Sikuliaq_cases td text :
  match dgs_raw_Sikuliaq td text with Ok f => raw_Sikuliaq td text f | Raise e => raw_Sikuliaq_error td text e end.
Proof.
  unfold dgs_raw_Sikuliaq. cbv zeta. pose proof (sikuliaq_rows_ok text) as Hr. set (rows := map (split [tab]) _) in *. clearbody rows.
  destruct (existsb (fun r => (3 <? len r)%nat) rows) eqn:E.
  - apply existsb_exists in E. destruct E as [r [Hi Hl]]. apply Nat.ltb_lt in Hl. eapply rse_long; eassumption.
  - assert (Hs : Forall (fun r : list str => (len r <= 3)%nat) rows).
    { apply Forall_forall. intros r Hi. destruct (Nat.le_gt_cases (len r) 3) as [K|K]; [exact K|]. exfalso.
      assert (existsb (fun r : list str => (3 <? len r)%nat) rows = true) by (apply existsb_exists; exists r; split; [exact Hi|apply Nat.ltb_lt; exact K]). congruence. }
    destruct (td (infer_column (field_column 1 rows))) as [ts|e] eqn:Et; cbn [bind].
    + eapply rs_intro; [exact Hr|exact Hs| |apply field_column_at; reflexivity|apply infer_read|exact Et].
      change (numbered sikuliaq_names) with (in_order ["rgrav"; "long_a"; "crss_a"; "vcc"; "ve"; "al"; "ax"; "lat"; "lon"]%string).
      apply Forall2_map_r. intros [c k] Hc. split; [reflexivity|]. cbn [snd]. apply sikuliaq_cells.
      apply in_combine_r in Hc. apply in_seq in Hc. cbn [len] in Hc. lia.
    + eapply rse_date; [exact Hr|exact Hs|apply field_column_at; reflexivity|apply infer_read|exact Et].
Qed.

Lemma raw_cases fsys td iso ship p text : fsys p = Some text ->
  match raw_reader fsys td iso ship p with Ok f => raw_file td iso ship text f | Raise e => raw_error td ship text e end.
Proof.
  intros Hp. unfold raw_reader, open_text. rewrite Hp. cbn [bind].
  destruct (str_eqb ship (lit "Thompson")) eqn:E1.
  - apply str_eqb_eq in E1. pose proof (raw_Thompson_cases text) as C. destruct (dgs_raw_Thompson text); left; split; assumption.
  - apply str_eqb_neq in E1. destruct (str_eqb ship (lit "Sikuliaq")) eqn:E2.
    + apply str_eqb_eq in E2. pose proof (raw_Sikuliaq_cases td text) as C. destruct (dgs_raw_Sikuliaq td text); right; left; split; assumption.
    + apply str_eqb_neq in E2. pose proof (raw_general_cases iso text) as C. destruct (dgs_raw_general iso text); right; right; (split; [exact E1|]); split; assumption.
Qed.

(** ** Tables with monitors *)
Lemma table_snoc f n c v : table f n -> ~ In c (map fst f) -> len v = n -> table (f ++ [(c, v)]) n.
Proof.
  intros [H1 [H2 H3]] Hc Hv. split; [rewrite map_app; apply NoDup_snoc; assumption|]. split; [destruct f; discriminate|].
  apply Forall_app. split; [exact H3|constructor; [exact Hv|constructor]].
Qed.
Definition with_monitors (f : frame) : Prop := (exists n, table f n) /\ forall m, In m monitors -> In m (map fst f).
Lemma monitors_in names : forallb (has names) monitors = true -> forall m, In m monitors -> In m names.
Proof. intros H m Hm. rewrite forallb_forall in H. apply has_spec. apply H. exact Hm. Qed.
Lemma raw_file_monitors td iso ship text f : keeps_length td -> keeps_length iso -> raw_file td iso ship text f -> with_monitors f.
Proof.
  intros Hk Hi H.
  assert (G : forall cols rows f, csv_table cols rows f -> NoDup (map fst cols) -> forallb (has (map fst cols)) monitors = true -> cols <> [] ->
    has (map fst cols) (lit "date_time") = false ->
    with_monitors f /\ table f (len rows) /\ forall ts, len ts = len rows -> with_monitors (f ++ [(lit "date_time", ts)])).
  { clear. intros cols rows f Hf Hn Hm Hc Hd. pose proof (csv_table_table _ _ _ Hf Hn Hc) as Ht. pose proof (frame_names _ _ _ Hf) as En.
    assert (Hm' : forall m, In m monitors -> In m (map fst f)) by (rewrite En; apply monitors_in; exact Hm).
    split; [split; [eexists; exact Ht|exact Hm']|]. split; [exact Ht|]. intros ts Hl. split.
    - eexists. apply table_snoc; [exact Ht| |exact Hl]. rewrite En. apply has_false. exact Hd.
    - intros m K. rewrite map_app. apply in_or_app. left. apply Hm'. exact K. }
  destruct H as [[_ H]|[[_ H]|[_ [_ H]]]].
  - destruct H as [rows f pairs ts Hr Hw Hf Hb Hts].
    destruct (G _ _ _ Hf ltac:(apply nodupb_ok; reflexivity) ltac:(reflexivity) ltac:(discriminate) ltac:(reflexivity)) as [_ [_ K]]. apply K.
    destruct Hb as [ds [ts' [cd [ct [H1 [H2 [H3 [H4 ->]]]]]]]].
    assert (L : forall texts cs, column_read texts cs -> len cs = len texts) by (intros texts cs [cs' C|cs' s _ _ _ C]; symmetry; exact (Forall2_len _ _ _ _ _ C)).
    apply L in H3. apply L in H4. apply Forall2_len in H1. apply Forall2_len in H2. apply Forall2_len in Hts. rewrite combine_length in Hts. unfold str in *. lia.
  - destruct H as [rows f stamps cs ts Hr Hl Hf Hs Hc Ht].
    assert (L : forall texts cs, column_read texts cs -> len cs = len texts) by (intros texts cs' [cs'' C|cs'' s _ _ _ C]; symmetry; exact (Forall2_len _ _ _ _ _ C)).
    apply L in Hc. apply Hk in Ht. apply Forall2_len in Hs.
    set (cols := in_order _) in Hf.
    assert (En : map fst f = map fst cols) by (clear -Hf; induction Hf as [|c col cols f [E _] _ IH]; [reflexivity|]; cbn [map]; rewrite E, IH; reflexivity).
    assert (Lf : Forall (fun col => len (snd col) = len rows) f) by (clear -Hf; induction Hf as [|c col cols f [_ E] _ IH]; constructor; [symmetry; exact (Forall2_len _ _ _ _ _ E)|exact IH]).
    assert (Tf : table f (len rows)).
    { split; [rewrite En; apply nodupb_ok; reflexivity|]. split; [|exact Lf]. intros ->. discriminate. }
    split.
    + exists (len rows). apply table_snoc; [exact Tf| |lia]. rewrite En. apply has_false. reflexivity.
    + intros m K. rewrite map_app. apply in_or_app. left. rewrite En. revert m K. apply monitors_in. reflexivity.
  - assert (A : forall rows f, csv_table raw_fields rows f -> with_monitors f /\ table f (len rows) /\ forall ts, len ts = len rows -> with_monitors (f ++ [(lit "date_time", ts)]))
      by (intros rows f' Hf; apply (G _ _ _ Hf ltac:(apply nodupb_ok; reflexivity) ltac:(reflexivity) ltac:(discriminate) ltac:(reflexivity))).
    destruct H as [r0 rs f ts Hr Hw Hf Hn Hts|r0 rs f strings s0 cs Hr Hw Hf Hn Hs Ht Hd|r0 rs f strings s0 cs words ts Hr Hw Hf Hn Hs Ht Hd Hws Hts|r0 rs f strings s0 cs Hr Hw Hf Hn Hs Ht Hd Ho].
    + apply (A _ _ Hf). symmetry. exact (Forall2_len _ _ _ _ _ Hts).
    + apply (A _ _ Hf).
    + apply (A _ _ Hf). apply Hi in Hts. rewrite map_length in Hts. apply Forall2_len in Hws. destruct Ht as [_ Ht]. apply Forall2_len in Ht. apply Forall2_len in Hs. unfold str in *. lia.
    + apply (A _ _ Hf).
Qed.

(** ** Rescaling *)
Definition scaled_at (ms : list str) (f g : frame) : Prop :=
  Forall2 (fun c c' : str * list cell => fst c' = fst c /\
    (In (fst c) ms -> Forall2 (times_scale (1 # 100000)) (snd c) (snd c')) /\ (~ In (fst c) ms -> snd c' = snd c)) f g.
Lemma scaled_at_nil f : scaled_at [] f f.
Proof. induction f as [|c f IH]; constructor; [|exact IH]. split; [reflexivity|]. split; [intros []|reflexivity]. Qed.
Lemma scaled_at_names ms f g : scaled_at ms f g -> map fst g = map fst f.
Proof. induction 1 as [|c c' f g [E _] _ IH]; [reflexivity|]. cbn [map]. rewrite E, IH. reflexivity. Qed.
Lemma scaled_not_numeric sc v e : mapM (scaled sc) v = Raise e -> e = TypeError /\ ~ numeric_column v.
Proof.
  intros H. apply mapM_raise_in in H. destruct H as [l1 [a [l2 [-> [_ E]]]]]. destruct a as [q| |s|q]; cbn in E; try discriminate; (split; [congruence|]);
    intros K; unfold numeric_column in K; rewrite Forall_forall in K; destruct (K _ (in_elt _ _ _)) as [K'|[q' K']]; discriminate.
Qed.
Lemma scaled_numeric sc v w : mapM (scaled sc) v = Ok w -> Forall2 (times_scale sc) v w.
Proof.
  intros H. apply mapM_Forall2_inv in H. eapply Forall2_weaken; [|exact H]. intros a b E. destruct a as [q| |s|q]; cbn in E; try discriminate.
  - injection E as <-. constructor. reflexivity.
  - injection E as <-. constructor.
Qed.
Lemma rescale_step ms f g m : NoDup (map fst f) -> scaled_at ms f g -> ~ In m ms -> In m (map fst f) ->
  match rescale g m with Ok h => scaled_at (m :: ms) f h | Raise e => e = TypeError /\ exists v, has_column f m v /\ ~ numeric_column v end.
Proof.
  intros Hn Hs Hm Hi. pose proof (scaled_at_names _ _ _ Hs) as En. unfold rescale, get_column.
  destruct (column g m) as [v|] eqn:Ec; [|exfalso; apply column_none in Ec; apply Ec; rewrite En; exact Hi]. cbn [bind].
  apply column_some in Ec.
  assert (Hv : has_column f m v).
  { clear -Hs Ec Hm. unfold has_column in *. induction Hs as [|c c' f g [E1 [E2 E3]] _ IH]; [destruct Ec|]. destruct Ec as [->|Ec]; [|right; apply IH; exact Ec].
    left. destruct c as [k w]. cbn [fst snd] in *. subst k. rewrite (E3 Hm). reflexivity. }
  destruct (mapM (scaled (1 # 100000)) v) as [w|e] eqn:Ew; cbn [bind].
  - apply scaled_numeric in Ew.
    assert (U : forall u, In (m, u) f -> u = v).
    { intros u Hu. pose proof (column_has f m v Hn Hv) as C1. pose proof (column_has f m u Hn Hu) as C2. congruence. }
    clear -Hs Hm Ew U Hn Hi. revert Hn U Hi. induction Hs as [|c c' f g [E1 [E2 E3]] Hs IH]; intros Hn U Hi; [destruct Hi|].
    { destruct c as [k x]. destruct c' as [k' x']. cbn [fst snd map] in *. subst k'. cbn [set_column]. inversion Hn; subst.
      destruct (str_eqb k m) eqn:E.
      * apply str_eqb_eq in E. subst k. constructor.
        -- cbn [fst snd]. split; [reflexivity|]. split; [|intros K; exfalso; apply K; left; reflexivity]. intros _. rewrite (U x (or_introl eq_refl)). exact Ew.
        -- clear -Hs H1. induction Hs as [|c c' f g [E1 [E2 E3]] _ IH]; constructor.
           ++ split; [exact E1|]. split; intros K; [apply E2; destruct K as [K|K]; [exfalso; apply H1; left; symmetry; exact K|exact K]|apply E3; intros K'; apply K; right; exact K'].
           ++ apply IH. intros K. apply H1. right. exact K.
      * apply str_eqb_neq in E. constructor.
        -- cbn [fst snd]. split; [reflexivity|]. split; intros K; [apply E2; destruct K as [K|K]; [exfalso; apply E; symmetry; exact K|exact K]|apply E3; intros K'; apply K; right; exact K'].
        -- apply IH; [assumption| |]; [intros u Hu; apply U; right; exact Hu|]. destruct Hi as [Hi|Hi]; [exfalso; apply E; exact Hi|exact Hi]. }
  - apply scaled_not_numeric in Ew. destruct Ew as [-> Ew]. split; [reflexivity|]. exists v. split; [exact Hv|exact Ew].
Qed.

Definition rescale_all (f : frame) : res frame :=
  do f <- rescale f (lit "ve"); do f <- rescale f (lit "ax"); do f <- rescale f (lit "al"); rescale f (lit "vcc").
Lemma rescale_cases f : with_monitors f ->
  match rescale_all f with Ok g => rescaled f g | Raise e => e = TypeError /\ monitor_text f end.
Proof.
  intros [[n Ht] Hm]. pose proof (proj1 Ht) as Hn.
  assert (M : forall m, In m monitors -> forall v, has_column f m v -> ~ numeric_column v -> monitor_text f) by (intros m K v Hv Hnum; exists m, v; repeat split; assumption).
  assert (I : forall s, forallb (fun m => has monitors m) [s] = true -> In s monitors) by (intros s K; cbn in K; rewrite andb_true_r in K; apply has_spec; exact K).
  assert (D : forall a l, has l a = false -> ~ In a l) by (intros a l; apply has_false).
  unfold rescale_all.
  pose proof (rescale_step [] f f (lit "ve") Hn (scaled_at_nil f) ltac:(intros []) ltac:(apply Hm; apply I; reflexivity)) as S1.
  destruct (rescale f (lit "ve")) as [g1|e]; cbn [bind]; [|destruct S1 as [-> [v [Hv Nv]]]; split; [reflexivity|]; eapply M; [|exact Hv|exact Nv]; apply I; reflexivity].
  pose proof (rescale_step _ f g1 (lit "ax") Hn S1 ltac:(apply D; reflexivity) ltac:(apply Hm; apply I; reflexivity)) as S2.
  destruct (rescale g1 (lit "ax")) as [g2|e]; cbn [bind]; [|destruct S2 as [-> [v [Hv Nv]]]; split; [reflexivity|]; eapply M; [|exact Hv|exact Nv]; apply I; reflexivity].
  pose proof (rescale_step _ f g2 (lit "al") Hn S2 ltac:(apply D; reflexivity) ltac:(apply Hm; apply I; reflexivity)) as S3.
  destruct (rescale g2 (lit "al")) as [g3|e]; cbn [bind]; [|destruct S3 as [-> [v [Hv Nv]]]; split; [reflexivity|]; eapply M; [|exact Hv|exact Nv]; apply I; reflexivity].
  pose proof (rescale_step _ f g3 (lit "vcc") Hn S3 ltac:(apply D; reflexivity) ltac:(apply Hm; apply I; reflexivity)) as S4.
  destruct (rescale g3 (lit "vcc")) as [g4|e]; cbn [bind]; [|destruct S4 as [-> [v [Hv Nv]]]; split; [reflexivity|]; eapply M; [|exact Hv|exact Nv]; apply I; reflexivity].
  unfold rescaled, scaled_at in *. eapply Forall2_weaken; [|exact S4]. intros c c' [E1 [E2 E3]].
  assert (P : In (fst c) [lit "vcc"; lit "al"; lit "ax"; lit "ve"] <-> In (fst c) monitors) by (unfold monitors; cbn [map In]; tauto).
  split; [exact E1|]. split; intros K; [apply E2|apply E3]; rewrite P; exact K.
Qed.
Lemma rescaled_table f g n : table f n -> rescaled f g -> table g n.
Proof.
  intros [H1 [H2 H3]] Hr. assert (En : map fst g = map fst f) by (clear -Hr; induction Hr as [|c c' f g [E _] _ IH]; [reflexivity|]; cbn [map]; rewrite E, IH; reflexivity).
  split; [rewrite En; exact H1|]. split; [intros ->; inversion Hr; subst; congruence|].
  clear -Hr H3. induction Hr as [|c c' f g [E1 [E2 E3]] _ IH]; [constructor|]. inversion H3; subst. constructor; [|apply IH; assumption].
  destruct (in_dec (list_eq_dec ascii_dec) (fst c) monitors) as [K|K]; [symmetry; exact (Forall2_len _ _ _ _ _ (E2 K))|rewrite (E3 K); reflexivity].
Qed.
(** what one path gives *)
Definition raw_one fsys td iso ship (scale_ccp : bool) (p : str) : res frame :=
  do dat <- raw_reader fsys td iso ship p; if scale_ccp then rescale_all dat else Ok dat.
Lemma raw_unfold fsys td iso paths ship scale : read_dgs_raw fsys td iso paths ship scale =
  do fs <- mapM (raw_one fsys td iso ship scale) paths; concat_frames fs.
Proof. reflexivity. Qed.

Lemma raw_one_cases fsys td iso ship scale p : keeps_length td -> keeps_length iso ->
  match raw_one fsys td iso ship scale p with
  | Ok g => raw_table fsys td iso ship scale p g /\ exists n, table g n
  | Raise e => raw_path_error fsys td iso ship scale p e
  end.
Proof.
  intros Hk Hi. unfold raw_one. destruct (fsys p) as [text|] eqn:Hp.
  - pose proof (raw_cases fsys td iso ship p text Hp) as C. destruct (raw_reader fsys td iso ship p) as [f|e]; cbn [bind]; [|exact (rpe_content _ _ _ _ _ _ text e Hp C)].
    pose proof (raw_file_monitors _ _ _ _ _ Hk Hi C) as M. destruct scale.
    + pose proof (rescale_cases f M) as R. destruct M as [[n Hn] _]. destruct (rescale_all f) as [g|e].
      * split; [exists text, f; split; [exact Hp|]; split; [exact C|exact R]|]. exists n. exact (rescaled_table _ _ _ Hn R).
      * destruct R as [-> R]. eapply rpe_text; [exact Hp|exact C|reflexivity|exact R].
    + split; [exists text, f; split; [exact Hp|]; split; [exact C|reflexivity]|]. exact (proj1 M).
  - unfold raw_reader, open_text. rewrite Hp. cbn [bind]. apply rpe_missing. exact Hp.
Qed.

(** rescaling the tables or the stack of them *)
Lemma rescaled_names f g : rescaled f g -> map fst g = map fst f.
Proof. exact (scaled_at_names _ f g). Qed.
Lemma rescaled_column f g c : rescaled f g ->
  match column f c, column g c with
  | Some v, Some w => (In c monitors -> Forall2 (times_scale (1 # 100000)) v w) /\ (~ In c monitors -> w = v)
  | None, None => True
  | _, _ => False
  end.
Proof.
  induction 1 as [|[k v] [k' w] f g [E1 [E2 E3]] _ IH]; [exact I|]. cbn [fst snd] in *. subst k'. cbn [column].
  destruct (str_eqb k c) eqn:E; [|exact IH]. apply str_eqb_eq in E. subst k. split; assumption.
Qed.
Lemma rescaled_nrows f g : rescaled f g -> nrows g = nrows f.
Proof.
  intros [|[k v] [k' w] f' g' [E1 [E2 E3]] _]; [reflexivity|]. cbn [fst snd] in *. unfold nrows. cbn [snd].
  destruct (in_dec (list_eq_dec ascii_dec) k monitors) as [K|K]; [symmetry; exact (Forall2_len _ _ _ _ _ (E2 K))|rewrite (E3 K); reflexivity].
Qed.
Lemma Forall2_map_both (A B C : Type) (P : B -> C -> Prop) (f : A -> B) (g : A -> C) l : (forall a, P (f a) (g a)) -> Forall2 P (map f l) (map g l).
Proof. intros H. induction l as [|a l IH]; constructor; [apply H|exact IH]. Qed.
Lemma concat_rescaled fs gs U : Forall2 rescaled fs gs -> concat_frames fs = Ok U -> exists T, concat_frames gs = Ok T /\ rescaled U T.
Proof.
  intros H E. assert (En : map (map fst) gs = map (map fst) fs).
  { clear E. induction H as [|f g fs gs R _ IH]; [reflexivity|]. cbn [map]. rewrite IH, (rescaled_names _ _ R). reflexivity. }
  destruct fs as [|f fs]; [discriminate|]. destruct gs as [|g gs]; [inversion H|]. unfold concat_frames in *.
  eexists. split; [reflexivity|]. injection E as <-. unfold all_names. rewrite En. set (names := fold_left _ _ _). clearbody names. clear En.
  set (part := fun c (h : frame) => match column h c with Some v => v | None => repeat NaN (nrows h) end).
  assert (Inner : forall c fs gs, Forall2 rescaled fs gs ->
    (In c monitors -> Forall2 (times_scale (1 # 100000)) (concat (map (part c) fs)) (concat (map (part c) gs))) /\
    (~ In c monitors -> concat (map (part c) gs) = concat (map (part c) fs))).
  { clear. intros c fs gs H. induction H as [|f' g' fs' gs' R _ [I1 I2]]; [split; [constructor|reflexivity]|].
    cbn [map concat]. pose proof (rescaled_column f' g' c R) as C. pose proof (rescaled_nrows _ _ R) as N. unfold part at 1 3 5 7.
    destruct (column f' c) as [v|]; destruct (column g' c) as [w|]; try contradiction.
    + destruct C as [C1 C2]. split; intros K; [apply Forall2_app; [apply C1; exact K|apply I1; exact K]|rewrite (C2 K), (I2 K); reflexivity].
    + rewrite N. split; intros K; [apply Forall2_app; [|apply I1; exact K]|rewrite (I2 K); reflexivity].
      clear. induction (nrows f'); constructor; [constructor|assumption]. }
  apply Forall2_map_both. intros c. cbn [fst snd]. split; [reflexivity|]. exact (Inner c _ _ H).
Qed.
