(** Properties C72 and C73: [read_other_stuff]. *)
From Coq Require Import ZArith QArith Ascii String Bool Lia Sorted List.
From Verif Require Import M_Py M_Str M_Cal M_Ini M_Nmea M_ReadNav M_Table M_Bgm M_Dgs M_Other S_Str S_Cal S_Nmea S_ReadNav S_Table S_Bgm S_Dgs S_Other
  L_Base L_Str L_Cal L_Nmea L_Nav2 L_ReadNav L_Dateline L_Num L_Table L_Bgm L_Dgs L_DgsRaw L_Other.
Import ListNotations.
Open Scope Z_scope.
Local Notation len := List.length.

Definition pashr_specs : feed_specs str :=
  mk_specs str [(lit "PASHR", lit "$PASHR,{hour:d},{roll:f},{pitch}")] [(lit "roll", lit "degrees"); (lit "pitch", lit "deg")].
Definition pashr_data : str := lit "12:00 $PASHR,1,2.5,-3" ++ [nl] ++ lit "$OTHER,7" ++ [nl] ++ lit "$PASHR,2,,x  " ++ [nl] ++ lit "$PASHR,3,4,5" ++ [nl].

(** * C72: one row for each line with the tag. *)
Theorem C72_refuted : exists (specs : feed_specs str) data tag df info lines all,
  dictionary (formats specs) /\ read_other_stuff specs data tag = Ok (df, info) /\
  file_lines data lines /\ selected (occurs tag) lines all /\ ~ table df (len all).
Proof.
  exists pashr_specs, pashr_data, (lit "PASHR"). do 2 eexists. exists (readlines pashr_data), (filter (containsb (lit "PASHR")) (readlines pashr_data)).
  split; [repeat constructor; intros []|]. split; [vm_compute; reflexivity|]. split; [destruct (lines_exist pashr_data) as [ls [H E]]; rewrite E; exact H|].
  split; [apply filter_containsb|]. intros [_ [_ H]]. inversion H as [|? ? H1 _]. vm_compute in H1. discriminate.
Qed.
Print Assumptions C72_refuted.
(** The table, or the error, for any file: the last line of the file does not count. *)
Theorem C72_feed : forall (I : Type) (specs : feed_specs I) data arg tag, dictionary (formats specs) -> dictionary (descriptions specs) ->
  feed_name arg tag -> good_template specs tag ->
  match read_other_stuff specs data arg with Ok (df, info) => feed_result specs data tag df info | Raise e => feed_error specs data tag e end.
Proof. exact feed_cases. Qed.
Print Assumptions C72_feed.
Theorem C72_rows : forall (I : Type) (specs : feed_specs I) data arg tag df info kept, dictionary (formats specs) -> dictionary (descriptions specs) ->
  feed_name arg tag -> good_template specs tag -> read_other_stuff specs data arg = Ok (df, info) -> tagged tag data kept -> table df (len kept).
Proof.
  intros I specs data arg tag df info kept Hf Hd Hn Hg E Hk. pose proof (feed_cases I specs data arg tag Hf Hd Hn Hg) as C. rewrite E in C.
  exact (feed_result_table _ _ _ _ _ _ _ Hg C Hk).
Qed.
Print Assumptions C72_rows.
(** all the tagged lines, if the last line is not one of them *)
Theorem C72_complete : forall (I : Type) (specs : feed_specs I) data arg tag df info front last all, dictionary (formats specs) -> dictionary (descriptions specs) ->
  feed_name arg tag -> good_template specs tag -> (forall c r, tag = r ++ [c] -> ~ space c) ->
  read_other_stuff specs data arg = Ok (df, info) -> file_lines data (front ++ [last]) -> ~ occurs tag last ->
  selected (occurs tag) (front ++ [last]) all -> table df (len all).
Proof.
  intros I specs data arg tag df info front last all Hf Hd Hn Hg Hs E Hl Ho Ha.
  assert (S : exists all', selected (occurs tag) front all' /\ len all' = len all).
  { exists all. split; [|reflexivity]. clear -Ha Ho. revert all Ha. induction front as [|x front IH]; intros all Ha; cbn [app] in Ha.
    - inversion Ha as [|? ? ? Hx Hr|? ? ? Hx Hr]; subst; [contradiction|]. inversion Hr; subst. constructor.
    - inversion Ha as [|? ? ? Hx Hr|? ? ? Hx Hr]; subst; constructor; try assumption; apply IH; assumption. }
  destruct S as [all' [Ha' El]]. rewrite <- El.
  assert (K : exists kept, selected (occurs tag) (map rstrip front) kept /\ len kept = len all').
  { clear -Ha' Hs. induction Ha' as [|x l l' Hx _ [kept [IH El]]|x l l' Hx _ [kept [IH El]]].
    - exists []. split; [constructor|reflexivity].
    - exists (rstrip x :: kept). split; [|cbn [len]; rewrite El; reflexivity]. cbn [map]. constructor; [|exact IH].
      apply (occurs_stripped tag x (rstrip x) Hs); [apply rstrip_spec; reflexivity|exact Hx].
    - exists kept. split; [|exact El]. cbn [map]. constructor; [|exact IH]. intros K. apply Hx.
      apply (occurs_stripped tag x (rstrip x) Hs); [apply rstrip_spec; reflexivity|exact K]. }
  destruct K as [kept [Hk Ek]]. rewrite <- Ek. apply (C72_rows I specs data arg tag df info kept Hf Hd Hn Hg E).
  exists front, last, (map rstrip front). split; [exact Hl|]. split; [|exact Hk]. apply Forall2_map_r. intros a _. apply rstrip_spec. reflexivity.
Qed.
Print Assumptions C72_complete.
Example C72_case : exists df, read_other_stuff pashr_specs pashr_data (lit "$PASHR") = Ok (df, [(lit "roll:f", lit "degrees"); (lit "pitch", lit "deg")]) /\
  df = [(lit "hour:d", [Num 1; Num 2]); (lit "roll:f", [Num (25 # 10); NaN]); (lit "pitch", [Num (-3); Txt (lit "x")]); (lit "mystery", [Txt (lit "12:00 "); NaN])].
Proof. eexists. split; [vm_compute; reflexivity|reflexivity]. Qed.
Example C72_case_errors :
  read_other_stuff pashr_specs pashr_data (lit "$GPGGA") = Raise AssertionError /\
  read_other_stuff pashr_specs [] (lit "PASHR") = Raise ValueError /\
  read_other_stuff pashr_specs (lit "$OTHER,7") (lit "PASHR") = Raise AssertionError /\
  read_other_stuff pashr_specs (lit "PASHR,1,2,3" ++ [nl] ++ lit "x") (lit "PASHR") = Raise IndexError /\
  read_other_stuff pashr_specs (lit "$PASHR,1,2" ++ [nl] ++ lit "x") (lit "PASHR") = Raise ValueError /\
  read_other_stuff pashr_specs (lit "$PASHR,1,2,3" ++ [nl; ascii_of_nat 200]) (lit "PASHR") = Raise ValueError.
Proof. repeat split; vm_compute; reflexivity. Qed.
(** one line only: an empty table *)
Example C72_case_one : read_other_stuff pashr_specs (lit "$PASHR,1,2,3" ++ [nl]) (lit "PASHR") =
  Ok ([(lit "hour:d", []); (lit "roll:f", []); (lit "pitch", []); (lit "mystery", [])], [(lit "roll:f", lit "degrees"); (lit "pitch", lit "deg")]).
Proof. vm_compute. reflexivity. Qed.

(** * C73: the fields of a line. *)
(** an empty field after the tag is lost and the others move up *)
Theorem C73_refuted : exists (specs : feed_specs str) data template names df info pre fields rest,
  dictionary (formats specs) /\ In (lit "T", template) (formats specs) /\ template_names template names /\ read_other_stuff specs data (lit "T") = Ok (df, info) /\
  data = pre ++ lit "$T," ++ join (lit ",") fields ++ [nl] ++ rest /\ Forall (fun f => ~ In ","%char f) fields /\ len fields = len names /\
  exists k c s x, nth_error names k = Some c /\ nth_error fields k = Some s /\ has_cell df c 0 x /\ ~ feed_cell s x.
Proof.
  exists (mk_specs str [(lit "T", lit "$T,{a},{b}")] []), (lit "$T,,5" ++ [nl] ++ lit "$T,1,2" ++ [nl] ++ lit "end"), (lit "$T,{a},{b}"), [lit "a"; lit "b"]. do 2 eexists.
  exists [], [[]; lit "5"], (lit "$T,1,2" ++ [nl] ++ lit "end"). split; [repeat constructor; intros []|]. split; [left; reflexivity|].
  split; [apply template_exists|]. split; [vm_compute; reflexivity|]. split; [reflexivity|]. split; [repeat constructor; cbn; intuition discriminate|]. split; [reflexivity|].
  exists 0%nat, (lit "a"), [], (Num 5). split; [reflexivity|]. split; [reflexivity|]. split; [eexists; split; [left; reflexivity|reflexivity]|].
  intros H. inversion H; subst; congruence.
Qed.
Print Assumptions C73_refuted.
(** Fields in order under their names, if no line has an empty field right after the tag; fields missing at the end may be empty. *)
Theorem C73_fields : forall (I : Type) (specs : feed_specs I) data arg tag template names kept rows, dictionary (formats specs) -> dictionary (descriptions specs) ->
  feed_name arg tag -> good_template specs tag -> plain_ascii tag -> plain_ascii data -> occurs tag data ->
  In (tag, template) (formats specs) -> template_names template names -> tagged tag data kept ->
  Forall2 (fun ln (r : str * list str) => ln = fst r ++ lit "$" ++ tag ++ lit "," ++ join (lit ",") (snd r) /\
    none_before (lit "$" ++ tag) ln (len (fst r)) /\ ~ occurs (lit "$" ++ tag) (lit "," ++ join (lit ",") (snd r)) /\
    len (snd r) = len names /\ Forall (fun f => ~ In ","%char f) (snd r) /\ exists f fs, snd r = f :: fs /\ f <> []) kept rows ->
  (exists r fs f, In r rows /\ snd r = fs ++ [f] /\ f <> []) ->
  exists df info base mystery, read_other_stuff specs data arg = Ok (df, info) /\ feed_table names (map snd rows) base /\
    Forall2 feed_cell (map fst rows) mystery /\ with_column (lit "mystery") mystery base df /\ infos (descriptions specs) names info.
Proof.
  intros I specs data arg tag template names kept rows Hf Hd Hn Hg Ha1 Ha2 Ho Hi Ht Hk Hr Hfull.
  (* the rows as they are read *)
  assert (R : exists rows' : list (str * list str), Forall2 (feed_row tag) kept rows' /\ map fst rows' = map fst rows /\
    Forall2 (fun (r r' : str * list str) => exists k, snd r = snd r' ++ repeat ([] : str) k /\ forall (l : str) q, snd r' = q ++ [l] -> l <> []) rows rows').
  { clear -Hr. induction Hr as [|ln r kept rows [E [Hb [Hoc [Hl [Hc [f [fs [Ef Hne]]]]]]]] _ [rows' [I1 [I2 I3]]]]; [exists []; repeat split; constructor|].
    destruct r as [pre fields]. cbn [fst snd] in *. destruct (trailing_empty fields) as [gs [k [Eg Hgs]]].
    assert (Hg0 : gs <> []).
    { intros ->. cbn [app] in Eg. rewrite Eg in Ef. destruct k as [|k]; [discriminate|]. cbn [repeat] in Ef. congruence. }
    exists ((pre, gs) :: rows'). split; [|split].
    - constructor; [|exact I1]. rewrite E. apply (fields_row tag pre fields gs k); try assumption.
      + intros x q Eq. rewrite Eq in Eg. rewrite Eg in Ef. cbn [app] in Ef. congruence.
      + rewrite Eg in Hc. apply Forall_app in Hc. exact (proj1 Hc).
      + rewrite <- E. exact Hb.
    - cbn [map fst]. rewrite I2. reflexivity.
    - constructor; [exists k; split; [exact Eg|exact Hgs]|exact I3]. }
  destruct R as [rows' [R1 [R2 R3]]].
  assert (Fit : fits names (map snd rows')).
  { assert (Lr : Forall (fun r => len (snd r) = len names) rows) by (clear -Hr; induction Hr as [|ln r kept rows [_ [_ [_ [Hl _]]]] _ IH]; constructor; assumption).
    split.
    - clear -R3 Lr. induction R3 as [|r r' rows rows' [k [E _]] _ IH]; [constructor|]. inversion Lr as [|? ? H1 H2]; subst. cbn [map]. constructor; [|apply IH; assumption].
      assert (H1' : len (snd r' ++ repeat ([] : str) k) = len names) by (rewrite <- E; exact H1). rewrite app_length in H1'. unfold str in *. lia.
    - right. destruct Hfull as [r [fs [f [Hin [Ef Hne]]]]]. clear -R3 Lr Hin Ef Hne. induction R3 as [|r0 r' rows rows' [k [E Hl]] _ IH]; [destruct Hin|]. inversion Lr as [|? ? H1 H2]; subst.
      destruct Hin as [->|Hin].
      + exists (snd r'). split; [left; reflexivity|]. rewrite <- H1. destruct k as [|k]; [f_equal; symmetry; rewrite <- (app_nil_r (snd r')); exact E|]. exfalso. apply Hne.
        assert (E2 : fs ++ [f] = (snd r' ++ repeat [] k) ++ [[]]).
        { transitivity (snd r); [symmetry; exact Ef|]. rewrite <- app_assoc. etransitivity; [exact E|]. f_equal. apply (repeat_cons k []). }
        apply app_inj_tail in E2. exact (proj2 E2).
      + destruct (IH Hin H2) as [x [Hx Ex]]. exists x. split; [right; exact Hx|exact Ex]. }
  pose proof (feed_cases I specs data arg tag Hf Hd Hn Hg) as C. destruct (read_other_stuff specs data arg) as [[df info]|e].
  - destruct C as [template' names' kept' rows'' base mystery df info Hi' Hn' Hk' Hr' Hf' Hb' Hm' Hw' Hinfo].
    assert (template' = template) as -> by (apply (assoc_in _ _ _ _ Hf) in Hi; apply (assoc_in _ _ _ _ Hf) in Hi'; congruence).
    assert (names' = names) as -> by (apply template_spec in Ht; apply template_spec in Hn'; congruence).
    assert (kept' = kept) as -> by (apply tagged_fun in Hk; apply tagged_fun in Hk'; congruence).
    assert (rows'' = rows') as -> by (exact (feed_rows_fun _ _ _ _ R1 Hr')).
    exists df, info, base, mystery. split; [reflexivity|]. rewrite <- R2. split; [|split; [exact Hm'|split; [exact Hw'|exact Hinfo]]].
    assert (Lr : Forall (fun r => len (snd r) = len names) rows) by (clear -Hr; induction Hr as [|ln r kept rows [_ [_ [_ [Hl _]]]] _ IH]; constructor; assumption).
    unfold feed_table in *. eapply Forall2_weaken; [|exact Hb']. intros [c k] col [E Hc]. cbn [fst snd] in *. split; [exact E|]. clear -R3 Hc.
    revert R3 Hc. generalize (snd col). intros cells R3. revert cells. induction R3 as [|r r' rows rows' [n [En _]] _ IH]; intros cells Hc; cbn [map] in *; inversion Hc as [|? x ? xs Hx Hxs]; subst; constructor; [|apply IH; exact Hxs].
    destruct Hx as [[s [Es Hs]]|[Hl ->]].
    + left. exists s. split; [|exact Hs]. rewrite En, nth_error_app1; [exact Es|]. apply nth_error_Some. congruence.
    + destruct (Nat.lt_ge_cases k (len (snd r))) as [K|K]; [left|right; split; [exact K|reflexivity]]. exists []. split; [|constructor].
      rewrite En, nth_error_app2 by exact Hl. rewrite En, app_length, repeat_length in K.
      apply (nth_error_repeat ([] : str)). lia.
  - exfalso. pose proof (in_map fst _ _ Hi) as Hi'. cbn [fst] in Hi'.
    destruct C as [C|C1 C2|C1 C2|C1 C2 C3 C4|C1 C2 C3|kept' ln C1 C2 C3 C4 C5 C6|template' names' kept' rows'' C1 C2 C3 C4 C5 C6 C7]; try contradiction.
    + subst data. destruct Hk as [front [last [stripped [Hl _]]]]. apply readlines_lines in Hl. cbn in Hl. exact (app_cons_not_nil _ _ _ Hl).
    + assert (kept' = kept) as -> by (apply tagged_fun in Hk; apply tagged_fun in C4; congruence). clear -C5 C6 R1. induction R1 as [|l r kept rows Hr _ IH]; [destruct C5|].
      destruct C5 as [->|C5]; [|exact (IH C5)]. destruct Hr as [post [more [t [Hp _]]]]. inversion Hp; subst. apply C6. eexists; eexists; reflexivity.
    + assert (template' = template) as -> by (apply (assoc_in _ _ _ _ Hf) in Hi; apply (assoc_in _ _ _ _ Hf) in C1; congruence).
      assert (names' = names) as -> by (apply template_spec in Ht; apply template_spec in C4; congruence).
      assert (kept' = kept) as -> by (apply tagged_fun in Hk; apply tagged_fun in C5; congruence).
      assert (rows'' = rows') as -> by (exact (feed_rows_fun _ _ _ _ R1 C6)). contradiction.
Qed.
Print Assumptions C73_fields.
(** the dollar sign may be left out *)
Theorem C73_dollar : forall (I : Type) (specs : feed_specs I) data tag, ~ starts_with (lit "$") tag ->
  read_other_stuff specs data (lit "$" ++ tag) = read_other_stuff specs data tag.
Proof.
  intros I specs data tag H. unfold read_other_stuff. rewrite prefixb_app. replace (prefixb (lit "$") tag) with false; [reflexivity|].
  symmetry. destruct (prefixb (lit "$") tag) eqn:E; [|reflexivity]. apply prefixb_spec in E. contradiction.
Qed.
Print Assumptions C73_dollar.
Example C73_case : exists info, read_other_stuff pashr_specs (lit "a $PASHR,1,2,3" ++ [nl] ++ lit "$PASHR,4,," ++ [nl] ++ lit "x") (lit "PASHR") =
  Ok ([(lit "hour:d", [Num 1; Num 4]); (lit "roll:f", [Num 2; NaN]); (lit "pitch", [Num 3; NaN]); (lit "mystery", [Txt (lit "a "); NaN])], info).
Proof. eexists. vm_compute. reflexivity. Qed.
