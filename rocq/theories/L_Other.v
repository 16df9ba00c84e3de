(** Lemmas for properties C72 and C73. *)
From Coq Require Import ZArith QArith Ascii String Bool Lia Sorted List.
From Verif Require Import M_Py M_Str M_Cal M_Ini M_Nmea M_ReadNav M_Table M_Bgm M_Dgs M_Other S_Str S_Cal S_Nmea S_ReadNav S_Table S_Bgm S_Dgs S_Other
  L_Base L_Str L_Cal L_Nmea L_Nav2 L_ReadNav L_Dateline L_Num L_Table L_Bgm L_Dgs L_DgsRaw.
Import ListNotations.
Open Scope Z_scope.
Local Notation len := List.length.

Lemma feed_name_spec arg tag : feed_name arg tag <-> (if prefixb (lit "$") arg then tl arg else arg) = tag.
Proof.
  split.
  - intros [t|t H]; [reflexivity|]. destruct (prefixb (lit "$") t) eqn:E; [|reflexivity]. apply prefixb_spec in E. contradiction.
  - intros <-. destruct (prefixb (lit "$") arg) eqn:E.
    + apply prefixb_spec in E. destruct E as [t ->]. apply (fn_dollar t).
    + apply fn_plain. intros K. apply prefixb_spec in K. exact (eq_true_false_abs _ K E).
Qed.
Lemma pieces_split sep s l : sep <> [] -> pieces sep s l -> split sep s = l.
Proof.
  intros Hs H. induction H as [s H|a b l H _ IH]; [apply split_none; assumption|]. rewrite split_first by assumption. rewrite IH. reflexivity.
Qed.
Lemma split_pieces sep s : sep <> [] -> pieces sep s (split sep s).
Proof.
  intros Hs. pattern s. apply (split_ind sep); [exact Hs| |].
  - intros t Ht. rewrite split_none by assumption. apply pi_none. exact Ht.
  - intros a b Hn IH. rewrite split_first by assumption. apply pi_more; assumption.
Qed.
Lemma rstrip_spec s t : right_stripped s t <-> rstrip s = t.
Proof.
  split.
  - intros [w [-> [Hw Ht]]]. unfold rstrip. rewrite rstrip_by_app by (eapply Forall_impl; [|exact Hw]; intros c; apply is_space_spec).
    apply rstrip_by_id. intros c r E. apply is_space_false. exact (Ht c r E).
  - intros <-. unfold rstrip, rstrip_by. destruct (drop_while_split is_space (rev s)) as [a [E [H1 H2]]].
    exists (rev a). split; [|split].
    + rewrite <- rev_app_distr, <- E, rev_involutive. reflexivity.
    + apply Forall_rev. eapply Forall_impl; [|exact H1]. intros c. apply is_space_spec.
    + intros c r K. apply is_space_false. apply (H2 c (rev r)). rewrite <- (rev_involutive (drop_while is_space (rev s))), K, rev_app_distr. reflexivity.
Qed.
Lemma comma_trimmed_spec s t : comma_trimmed s t <-> strip_by (Ascii.eqb ",") s = t.
Proof.
  assert (N : forall c, c <> ","%char <-> Ascii.eqb "," c = false).
  { intros c. rewrite Ascii.eqb_neq. split; intros H K; apply H; symmetry; exact K. }
  split.
  - intros [a [b [E [Ha [Hb [H1 H2]]]]]]. apply (strip_by_unique _ s a t b E).
    + eapply Forall_impl; [|exact Ha]. intros c <-. apply Ascii.eqb_refl.
    + eapply Forall_impl; [|exact Hb]. intros c <-. apply Ascii.eqb_refl.
    + intros c r K. apply N. exact (H1 c r K).
    + intros c r K. apply N. exact (H2 c r K).
  - intros <-. destruct (strip_by_spec (Ascii.eqb ",") s) as [a [b [E [Ha [Hb [H1 H2]]]]]]. exists a, b. split; [exact E|].
    split; [eapply Forall_impl; [|exact Ha]; intros c K; apply Ascii.eqb_eq; exact K|].
    split; [eapply Forall_impl; [|exact Hb]; intros c K; apply Ascii.eqb_eq; exact K|].
    split; [intros c r K; apply N; exact (H1 c r K)|intros c r K; apply N; exact (H2 c r K)].
Qed.
Lemma feed_cell_spec s : feed_cell s (numeric s).
Proof.
  unfold numeric. destruct s as [|c s]; [constructor|]. destruct (numeral (c :: s)) as [q|] eqn:E.
  - apply fc_number; [discriminate|]. apply numeral_some. exact E.
  - apply fc_text; [discriminate|]. apply numeral_none. exact E.
Qed.
(** ** Lines *)
Lemma tagged_front tag front last : tagged_lines tag (front ++ [last]) = filter (containsb tag) (map rstrip front).
Proof.
  induction front as [|l front IH]; [reflexivity|]. cbn [app map filter].
  assert (E : exists x y, front ++ [last] = x :: y) by (destruct front; eexists; eexists; reflexivity). destruct E as [x [y E]].
  rewrite <- IH, E. cbn [tagged_lines]. reflexivity.
Qed.
Lemma filter_containsb tag l : selected (occurs tag) l (filter (containsb tag) l).
Proof. apply filter_selected. intros a _. apply containsb_spec. Qed.
Lemma tagged_fun tag data kept : tagged tag data kept -> tagged_lines tag (readlines data) = kept.
Proof.
  intros [front [last [stripped [Hl [Hs Hk]]]]]. apply readlines_lines in Hl. rewrite Hl, tagged_front.
  assert (E : map rstrip front = stripped) by (apply (Forall2_map_same _ _ right_stripped); [intros a b; apply rstrip_spec|exact Hs]).
  rewrite E. exact (selected_fun _ _ _ _ _ (filter_containsb tag stripped) Hk).
Qed.
Lemma tagged_exists tag data : data <> [] -> tagged tag data (tagged_lines tag (readlines data)).
Proof.
  intros Hn. destruct (lines_exist data) as [ls [Hl E]]. rewrite E. clear E. destruct (exists_last (l := ls)) as [front [last El]].
  - intros ->. inversion Hl. congruence.
  - subst ls. exists front, last, (map rstrip front). split; [exact Hl|]. split; [|rewrite tagged_front; apply filter_containsb].
    apply Forall2_map_r. intros a _. apply rstrip_spec. reflexivity.
Qed.
Lemma dtag_nonnil tag : lit "$" ++ tag <> [].
Proof. discriminate. Qed.
(** one row *)
Definition row_read (dtag : str) (e : list str) : res (list str) :=
  do post <- getr e 1; Ok (split (lit ",") (strip_by (Ascii.eqb ",") post)).
Lemma row_read_spec tag ln r : feed_row tag ln r <->
  (exists l, row_read (lit "$" ++ tag) (split (lit "$" ++ tag) ln) = Ok l /\ r = (hd [] (split (lit "$" ++ tag) ln), l)).
Proof.
  unfold row_read. split.
  - intros [post [more [t [Hp [Ht Hf]]]]]. apply pieces_split in Hp; [|apply dtag_nonnil]. rewrite Hp. cbn [getr nth_error bind hd].
    apply comma_trimmed_spec in Ht. apply fields_split in Hf. eexists. split; [reflexivity|]. rewrite Ht. change (lit ",") with [","%char]. rewrite Hf. destruct r; reflexivity.
  - intros [l [E ->]]. pose proof (split_pieces (lit "$" ++ tag) ln (dtag_nonnil tag)) as Hp. destruct (split (lit "$" ++ tag) ln) as [|pre [|post more]]; try discriminate.
    cbn [getr nth_error bind] in E. injection E as <-. exists post, more, (strip_by (Ascii.eqb ",") post). split; [exact Hp|].
    split; [apply comma_trimmed_spec; reflexivity|apply split_fields].
Qed.
Lemma row_read_err tag ln e : row_read (lit "$" ++ tag) (split (lit "$" ++ tag) ln) = Raise e -> e = IndexError /\ ~ occurs (lit "$" ++ tag) ln.
Proof.
  unfold row_read. pose proof (split_pieces (lit "$" ++ tag) ln (dtag_nonnil tag)) as Hp.
  destruct Hp as [s H|a b l H Hl]; [|inversion Hl; subst; discriminate]. cbn [getr nth_error bind]. intros E. split; [congruence|exact H].
Qed.
(** ** Tables *)
Lemma max_width rows n : fold_right Nat.max 0%nat (map (@len str) rows) = n <->
  Forall (fun r : list str => (len r <= n)%nat) rows /\ (n = 0%nat \/ exists r, In r rows /\ len r = n).
Proof.
  split.
  - intros <-. split.
    + induction rows as [|r rows IH]; constructor; [cbn [map fold_right]; lia|]. eapply Forall_impl; [|exact IH]. intros a Ha. cbn [map fold_right]. cbn beta in Ha. lia.
    + induction rows as [|r rows IH]; [left; reflexivity|]. cbn [map fold_right]. destruct (Nat.le_ge_cases (len r) (fold_right Nat.max 0%nat (map (@len str) rows))) as [K|K].
      * rewrite Nat.max_r by exact K. destruct IH as [IH|[x [Hx E]]]; [left; exact IH|]. right. exists x. split; [right; exact Hx|exact E].
      * rewrite Nat.max_l by exact K. right. exists r. split; [left; reflexivity|reflexivity].
  - intros [H K]. apply Nat.le_antisymm.
    + clear K. induction H as [|r rows Hr _ IH]; [apply Nat.le_0_l|]. cbn [map fold_right]. apply Nat.max_lub; assumption.
    + destruct K as [->|[r [Hr <-]]]; [lia|]. clear H. revert r Hr. induction rows as [|x rows IH]; intros r Hr; [destruct Hr|]. cbn [map fold_right]. destruct Hr as [->|Hr]; [apply Nat.le_max_l|]. eapply Nat.le_trans; [exact (IH _ Hr)|apply Nat.le_max_r].
Qed.
Lemma split_pos d s : (1 <= len (split d s))%nat.
Proof. pose proof (split_nonnil d s). destruct (split d s); [congruence|cbn; lia]. Qed.
Lemma frame_rows_cases names rows : Forall (fun r : list str => r <> []) rows ->
  match frame_of_rows names rows with Ok f => fits names rows /\ feed_table names rows f | Raise e => e = ValueError /\ ~ fits names rows end.
Proof.
  intros Hne. unfold frame_of_rows. set (cells := fun ck : str * nat => _).
  assert (T : feed_table names rows (map cells (combine names (seq 0 (len names))))).
  { apply Forall2_map_r. intros c _. split; [reflexivity|]. unfold cells. cbn [snd]. apply Forall2_map_r. intros r _.
    destruct (nth_error r (snd c)) as [s|] eqn:E; [left; exists s; split; [reflexivity|apply feed_cell_spec]|right; split; [apply nth_error_None; exact E|reflexivity]]. }
  destruct rows as [|r rows].
  - split; [split; [constructor|left; reflexivity]|]. replace (map (fun c => (c, [])) names) with (map cells (combine names (seq 0 (len names)))); [exact T|].
    unfold cells. cbn [map]. generalize 0%nat. clear. induction names as [|c names IH]; intros n; [reflexivity|]. cbn [len seq combine map fst]. rewrite IH. reflexivity.
  - destruct (_ =? len names)%nat eqn:E.
    + apply Nat.eqb_eq in E. split; [|exact T]. apply max_width in E. destruct E as [E1 E2]. split; [exact E1|]. right.
      destruct E2 as [E2|E2]; [|exact E2]. inversion Hne; subst. inversion E1; subst. destruct r; [congruence|]. cbn [len] in *. lia.
    + split; [reflexivity|]. intros [K1 K2]. apply Nat.eqb_neq in E. apply E. apply max_width. split; [exact K1|]. right. destruct K2 as [K2|K2]; [discriminate|exact K2].
Qed.
Lemma feed_table_names names rows f : feed_table names rows f -> map fst f = names.
Proof.
  unfold feed_table. generalize 0%nat. revert f. induction names as [|c names IH]; intros f n H; cbn [len seq combine] in H; inversion H as [|? col ? f' [E _] H']; subst; [reflexivity|].
  cbn [map]. rewrite (IH _ _ H'), E. reflexivity.
Qed.
Lemma filter_selected_iff (A : Type) (f : A -> bool) (P : A -> Prop) l l' : (forall a, f a = true <-> P a) -> (selected P l l' <-> filter f l = l').
Proof.
  intros H. split.
  - intros K. apply (selected_fun _ _ _ _ _ (filter_selected _ P f l (fun a _ => H a)) K).
  - intros <-. apply filter_selected. intros a _. apply H.
Qed.
Lemma template_spec template names : template_names template names -> colnames template = names.
Proof.
  intros [t [h [Ht Hf]]]. unfold colnames, without_braces.
  assert (E : filter (fun c => negb (Ascii.eqb c "{" || Ascii.eqb c "}")) template = t).
  { revert Ht. apply filter_selected_iff. intros c. rewrite negb_true_iff, orb_false_iff, !Ascii.eqb_neq. tauto. }
  rewrite E. change (lit ",") with [","%char]. rewrite (fields_split _ _ _ Hf). reflexivity.
Qed.
Lemma template_exists template : template_names template (colnames template).
Proof.
  unfold colnames. set (t := without_braces template). exists t, (hd [] (split (lit ",") t)). split.
  - apply (filter_selected_iff _ (fun c => negb (Ascii.eqb c "{" || Ascii.eqb c "}"))); [|reflexivity]. intros c. rewrite negb_true_iff, orb_false_iff, !Ascii.eqb_neq. tauto.
  - pose proof (split_fields "," t) as F. change [","%char] with (lit ",") in F. pose proof (split_nonnil (lit ",") t) as N. destruct (split (lit ",") t); [congruence|exact F].
Qed.
Lemma assoc_in (A : Type) k (l : list (str * A)) v : dictionary l -> (assoc k l = Some v <-> In (k, v) l).
Proof.
  unfold dictionary. induction l as [|[k' v'] l IH]; cbn [assoc map fst]; intros Hn; [split; [discriminate|intros []]|]. inversion Hn; subst.
  destruct (str_eqb k k') eqn:E.
  - apply str_eqb_eq in E. subst k'. split; [intros K; left; congruence|]. intros [K|K]; [congruence|]. exfalso. apply H1. exact (in_map fst _ _ K).
  - apply str_eqb_neq in E. rewrite (IH H2). split; [intros K; right; exact K|]. intros [K|K]; [exfalso; apply E; congruence|exact K].
Qed.
Lemma assoc_not_in (A : Type) k (l : list (str * A)) : assoc k l = None <-> ~ In k (map fst l).
Proof.
  induction l as [|[k' v'] l IH]; cbn [assoc map fst In]; [tauto|]. destruct (str_eqb k k') eqn:E.
  - apply str_eqb_eq in E. subst k'. split; [discriminate|]. intros K. exfalso. apply K. left. reflexivity.
  - apply str_eqb_neq in E. rewrite IH. split; [intros K [K'|K']; [apply E; symmetry; exact K'|exact (K K')]|]. intros K K'. apply K. right. exact K'.
Qed.
Lemma infos_spec (I : Type) (descs : list (str * I)) names : dictionary descs ->
  infos descs names (flat_map (fun c => match assoc (hd [] (split (lit ":") c)) descs with Some i => [(c, i)] | None => [] end) names).
Proof.
  intros Hd. induction names as [|c names IH]; [constructor|]. cbn [flat_map]. pose proof (split_before_first ":" c) as B. change [":"%char] with (lit ":") in B.
  destruct (assoc (hd [] (split (lit ":") c)) descs) as [i|] eqn:E.
  - eapply in_some; [exact B| |exact IH]. apply assoc_in; assumption.
  - eapply in_none; [exact B| |exact IH]. apply assoc_not_in. exact E.
Qed.
Lemma infos_fun (I : Type) (descs : list (str * I)) names l l' : dictionary descs -> infos descs names l -> infos descs names l' -> l' = l.
Proof.
  intros Hd H. revert l'. assert (B : forall c k k', before_first ":" c k -> before_first ":" c k' -> k' = k)
    by (intros c k k' H1 H2; apply before_first_split in H1; apply before_first_split in H2; congruence).
  induction H as [|c k i cs l Hk Hi _ IH|c k cs l Hk Hi _ IH]; intros l' H'; inversion H' as [|? k' i' ? l'' Hk' Hi' Hl'|? k' ? l'' Hk' Hi' Hl']; subst.
  - reflexivity.
  - pose proof (B _ _ _ Hk Hk') as ->. rewrite (IH _ Hl'). apply (assoc_in _ _ _ _ Hd) in Hi. apply (assoc_in _ _ _ _ Hd) in Hi'. congruence.
  - pose proof (B _ _ _ Hk Hk') as ->. exfalso. apply Hi'. exact (in_map fst _ _ Hi).
  - pose proof (B _ _ _ Hk Hk') as ->. exfalso. apply Hi. exact (in_map fst _ _ Hi').
  - apply IH. exact Hl'.
Qed.
Lemma ascii_spec s : forallb is_ascii s = true <-> plain_ascii s.
Proof.
  unfold plain_ascii. rewrite forallb_Forall. assert (C : forall c, is_ascii c = true <-> (nat_of_ascii c < 128)%nat).
  { intros c. unfold is_ascii, nat_of_ascii. rewrite N.ltb_lt. lia. }
  split; apply Forall_impl; intros c; apply C.
Qed.
Lemma ascii_false s : forallb is_ascii s = false <-> ~ plain_ascii s.
Proof. rewrite <- ascii_spec. destruct (forallb is_ascii s); split; intros H; try congruence; exfalso; apply H; reflexivity. Qed.

(** ** The whole reader *)
Lemma mapM_rows tag kept :
  match mapM (row_read (lit "$" ++ tag)) (map (split (lit "$" ++ tag)) kept) with
  | Ok ls => exists rows, Forall2 (feed_row tag) kept rows /\ map snd rows = ls /\ map fst rows = map (fun ln => hd [] (split (lit "$" ++ tag) ln)) kept
  | Raise e => e = IndexError /\ exists ln, In ln kept /\ ~ occurs (lit "$" ++ tag) ln
  end.
Proof.
  induction kept as [|ln kept IH]; cbn [map mapM]; [exists []; repeat split; constructor|].
  destruct (row_read (lit "$" ++ tag) (split (lit "$" ++ tag) ln)) as [l|e] eqn:E; cbn [bind].
  - destruct (mapM _ _) as [ls|e]; cbn [bind].
    + destruct IH as [rows [H1 [H2 H3]]]. exists ((hd [] (split (lit "$" ++ tag) ln), l) :: rows). split; [constructor; [|exact H1]|].
      * apply row_read_spec. exists l. split; [exact E|reflexivity].
      * cbn [map fst snd]. rewrite H2, H3. split; reflexivity.
    + destruct IH as [-> [x [Hx H]]]. split; [reflexivity|]. exists x. split; [right; exact Hx|exact H].
  - apply row_read_err in E. destruct E as [-> E]. split; [reflexivity|]. exists ln. split; [left; reflexivity|exact E].
Qed.
Lemma feed_rows_fields tag kept rows : Forall2 (feed_row tag) kept rows -> Forall (fun r : list str => r <> []) (map snd rows).
Proof. induction 1 as [|ln r kept rows [post [more [t [_ [_ [Hf _]]]]]] _ IH]; constructor; assumption. Qed.
Definition good_template {I : Type} (specs : feed_specs I) (tag : str) : Prop :=
  forall template names, In (tag, template) (formats specs) -> template_names template names -> NoDup names.
Lemma feed_cases (I : Type) (specs : feed_specs I) data arg tag : dictionary (formats specs) -> dictionary (descriptions specs) -> feed_name arg tag -> good_template specs tag ->
  match read_other_stuff specs data arg with Ok (df, info) => feed_result specs data tag df info | Raise e => feed_error specs data tag e end.
Proof.
  intros Hf Hd Ht Hg. apply feed_name_spec in Ht. unfold read_other_stuff. rewrite Ht. clear Ht arg. cbv zeta.
  destruct (assoc tag (formats specs)) as [template|] eqn:Ea; [|apply fe_format; apply assoc_not_in; exact Ea].
  apply (assoc_in _ _ _ _ Hf) in Ea. pose proof (in_map fst _ _ Ea) as Hi. cbn [fst] in Hi.
  destruct data as [|d0 data0]; [apply fe_empty; [exact Hi|reflexivity]|]. set (data := d0 :: data0) in *.
  destruct (forallb is_ascii tag) eqn:E1; cbn [negb]; [|apply fe_tag; [exact Hi|apply ascii_false; exact E1]]. apply ascii_spec in E1.
  destruct (containsb tag data) eqn:E2; cbn [negb]; [|apply fe_absent; [exact Hi|discriminate|exact E1|apply containsb_false; exact E2]]. apply containsb_spec in E2.
  destruct (forallb is_ascii data) eqn:E3; cbn [negb]; [|apply fe_decode; [exact Hi|exact E2|apply ascii_false; exact E3]]. apply ascii_spec in E3.
  pose proof (tagged_exists tag data ltac:(discriminate)) as Hk. set (kept := tagged_lines tag (readlines data)) in *. clearbody kept.
  pose proof (mapM_rows tag kept) as M. change (fun e => do post <- getr e 1; Ok (split (lit ",") (strip_by (Ascii.eqb ",") post))) with (row_read (lit "$" ++ tag)).
  destruct (mapM (row_read (lit "$" ++ tag)) (map (split (lit "$" ++ tag)) kept)) as [ls|e]; cbn [bind].
  2: { destruct M as [-> [ln [Hl Ho]]]. eapply fe_dollar; eassumption. }
  destruct M as [rows [Hr [<- Hp]]]. pose proof (template_exists template) as Hn. set (names := colnames template) in *. clearbody names.
  pose proof (frame_rows_cases names (map snd rows) (feed_rows_fields _ _ _ Hr)) as F. destruct (frame_of_rows names (map snd rows)) as [base|e]; cbn [bind].
  - destruct F as [F1 F2]. apply (fr_intro specs data tag template names kept rows base (map (fun e => numeric (hd [] e)) (map (split (lit "$" ++ tag)) kept))); try assumption.
    + rewrite map_map, <- (map_map (fun ln => hd [] (split (lit "$" ++ tag) ln)) numeric), <- Hp. apply Forall2_map_r. intros s _. apply feed_cell_spec.
    + apply set_column_with. rewrite (feed_table_names _ _ _ F2). exact (Hg _ _ Ea Hn).
    + apply infos_spec. exact Hd.
  - destruct F as [-> F]. eapply fe_width; eassumption.
Qed.

(** ** Uniqueness *)
Lemma feed_row_fun tag ln r r' : feed_row tag ln r -> feed_row tag ln r' -> r' = r.
Proof. rewrite !row_read_spec. intros [l [E ->]] [l' [E' ->]]. rewrite E in E'. injection E' as ->. reflexivity. Qed.
Lemma feed_rows_fun tag kept rows rows' : Forall2 (feed_row tag) kept rows -> Forall2 (feed_row tag) kept rows' -> rows' = rows.
Proof.
  intros H. revert rows'. induction H as [|ln r kept rows Hr _ IH]; intros rows' H'; inversion H' as [|? r' ? rows'' Hr' H'']; subst; [reflexivity|].
  rewrite (IH _ H''), (feed_row_fun _ _ _ _ Hr Hr'). reflexivity.
Qed.
Lemma feed_table_length names rows f : feed_table names rows f -> Forall (fun col => len (snd col) = len rows) f.
Proof. unfold feed_table. induction 1 as [|c col cols f [_ H] _ IH]; constructor; [symmetry; exact (Forall2_len _ _ _ _ _ H)|exact IH]. Qed.
Lemma feed_result_table (I : Type) (specs : feed_specs I) data tag df info kept : good_template specs tag -> feed_result specs data tag df info -> tagged tag data kept -> table df (len kept).
Proof.
  intros Hg [template names kept' rows base mystery df' info' Hi Hn Hk Hr Hf Hb Hm Hw _] Hk'. apply tagged_fun in Hk. apply tagged_fun in Hk'.
  assert (kept' = kept) as -> by congruence. pose proof (feed_table_length _ _ _ Hb) as L. rewrite map_length in L.
  assert (Er : len rows = len kept) by (symmetry; exact (Forall2_len _ _ _ _ _ Hr)). rewrite Er in L.
  assert (Lm : len mystery = len kept) by (apply Forall2_len in Hm; rewrite map_length in Hm; unfold str in *; lia).
  pose proof (Hg _ _ Hi Hn) as Nd. rewrite <- (feed_table_names _ _ _ Hb) in Nd.
  destruct Hw as [f Hx|a w b Hx].
  - split; [rewrite map_app; apply NoDup_snoc; assumption|]. split; [destruct f; discriminate|]. apply Forall_app. split; [exact L|constructor; [exact Lm|constructor]].
  - split; [rewrite map_app in *; exact Nd|]. split; [destruct a; discriminate|]. apply Forall_app in L. destruct L as [L1 L2]. inversion L2; subst.
    apply Forall_app. split; [exact L1|constructor; [exact Lm|assumption]].
Qed.
(** trailing white space does not matter to a tag that does not end in it *)
Lemma occurs_stripped tag s t : (forall c r, tag = r ++ [c] -> ~ space c) -> right_stripped s t -> (occurs tag s <-> occurs tag t).
Proof.
  intros Hc [w [-> [Hw _]]]. split; [|intros [a [b ->]]; exists a, (b ++ w); rewrite <- !app_assoc; reflexivity].
  intros [a [b E]]. destruct tag as [|c0 tag0] using rev_ind; [exists [], t; reflexivity|]. clear IHtag0. rename tag0 into r. specialize (Hc c0 r eq_refl).
  destruct (Nat.le_gt_cases (len (a ++ r ++ [c0])) (len t)) as [K|K].
  - exists a, (skipn (len (a ++ r ++ [c0])) t). rewrite !app_assoc in *. rewrite <- (firstn_skipn (len ((a ++ r) ++ [c0])) t) at 1. f_equal.
    transitivity (firstn (len ((a ++ r) ++ [c0])) (t ++ w)); [rewrite firstn_app; replace (len ((a ++ r) ++ [c0]) - len t)%nat with 0%nat by lia; cbn [firstn]; symmetry; apply app_nil_r|]. rewrite E. rewrite firstn_app, Nat.sub_diag, firstn_all. cbn [firstn]. apply app_nil_r.
  - exfalso. apply Hc. rewrite Forall_forall in Hw. apply Hw. apply (nth_error_In w (len (a ++ r) - len t)).
    assert (N : nth_error (t ++ w) (len (a ++ r)) = Some c0).
    { rewrite E. rewrite <- !app_assoc. rewrite app_assoc. rewrite nth_error_app2 by lia. rewrite Nat.sub_diag. reflexivity. }
    rewrite nth_error_app2 in N; [exact N|]. rewrite !app_length in K. cbn [len] in K. rewrite app_length. lia.
Qed.

(** ** Fields after the tag *)
(** without the empty fields at the end *)
Lemma trailing_empty (fs : list str) : exists gs k, fs = gs ++ repeat [] k /\ forall l r, gs = r ++ [l] -> l <> [].
Proof.
  induction fs as [|x fs IH] using rev_ind; [exists [], 0%nat; split; [reflexivity|intros l r E; destruct r; discriminate]|].
  destruct x as [|c x].
  - destruct IH as [gs [k [-> H]]]. exists gs, (S k). split; [|exact H]. rewrite <- app_assoc. f_equal. cbn [repeat]. symmetry. apply (repeat_cons k []).
  - exists (fs ++ [c :: x]), 0%nat. split; [rewrite app_nil_r; reflexivity|]. intros l r E. apply app_inj_tail in E. destruct E as [_ <-]. discriminate.
Qed.
Lemma join_empty gs k : gs <> [] -> join (lit ",") (gs ++ repeat [] k) = join (lit ",") gs ++ repeat ","%char k.
Proof.
  intros Hg. induction gs as [|g gs IH]; [congruence|]. destruct gs as [|g' gs].
  - cbn [app]. clear. destruct k as [|k]; [cbn [repeat join]; symmetry; apply app_nil_r|]. cbn [repeat]. change (join (lit ",") (g :: [] :: repeat [] k)) with (g ++ lit "," ++ join (lit ",") ([] :: repeat [] k)).
    f_equal. change (lit ",") with [","%char]. cbn [app]. f_equal. induction k as [|k IH]; [reflexivity|]. cbn [repeat].
    change (join [","%char] ([] :: [] :: repeat [] k)) with (","%char :: join [","%char] ([] :: repeat [] k)). rewrite IH. reflexivity.
  - change ((g :: g' :: gs) ++ repeat [] k) with (g :: (g' :: gs) ++ repeat [] k).
    change (join (lit ",") (g :: (g' :: gs) ++ repeat [] k)) with (g ++ lit "," ++ join (lit ",") ((g' :: gs) ++ repeat [] k)).
    rewrite (IH ltac:(discriminate)). change (join (lit ",") (g :: g' :: gs)) with (g ++ lit "," ++ join (lit ",") (g' :: gs)). rewrite <- !app_assoc. reflexivity.
Qed.
Lemma join_last d gs l : exists r, join d (gs ++ [l]) = r ++ l.
Proof.
  induction gs as [|g gs [r IH]]; [exists []; reflexivity|]. destruct gs as [|g' gs]; [exists (g ++ d); cbn [app join]; rewrite app_assoc; reflexivity|].
  exists (g ++ d ++ r). change (join d ((g :: g' :: gs) ++ [l])) with (g ++ d ++ join d ((g' :: gs) ++ [l])). rewrite IH, <- !app_assoc. reflexivity.
Qed.
Lemma fields_row tag pre fs gs k : gs <> [] -> fs = gs ++ repeat [] k -> (forall l r, gs = r ++ [l] -> l <> []) -> (forall x r, gs = x :: r -> x <> []) ->
  Forall (fun f => ~ In ","%char f) gs -> none_before (lit "$" ++ tag) (pre ++ lit "$" ++ tag ++ lit "," ++ join (lit ",") fs) (len pre) ->
  ~ occurs (lit "$" ++ tag) (lit "," ++ join (lit ",") fs) ->
  feed_row tag (pre ++ lit "$" ++ tag ++ lit "," ++ join (lit ",") fs) (pre, gs).
Proof.
  intros Hg -> Hl Hh Hc Hb Ho. exists (lit "," ++ join (lit ",") (gs ++ repeat [] k)), [], (join (lit ",") gs). cbn [fst snd]. split; [|split].
  - rewrite (app_assoc (lit "$") tag) in *. apply pi_more; [exact Hb|]. apply pi_none. exact Ho.
  - exists (lit ","), (repeat ","%char k). split; [rewrite join_empty by exact Hg; reflexivity|]. split; [constructor; [reflexivity|constructor]|].
    split; [clear; induction k; constructor; [reflexivity|assumption]|]. split.
    + intros c r E. destruct gs as [|x gs]; [congruence|]. specialize (Hh x gs eq_refl). inversion Hc; subst. destruct x as [|y x]; [congruence|].
      assert (y = c) as -> by (destruct gs; cbn [join app] in E; congruence). intros ->. match goal with H : ~ In _ _ |- _ => apply H; left; reflexivity end.
    + intros c r E. destruct (exists_last Hg) as [gs' [l ->]]. specialize (Hl l gs' eq_refl). apply Forall_app in Hc. destruct Hc as [_ Hc]. inversion Hc; subst.
      destruct (join_last (lit ",") gs' l) as [r' Er]. assert (E' : r' ++ l = r ++ [c]) by (rewrite <- Er; exact E). clear E Er. rename E' into E. destruct (exists_last Hl) as [l' [c' ->]]. rewrite app_assoc in E. apply app_inj_tail in E. destruct E as [_ <-].
      intros ->. match goal with H : ~ In _ _ |- _ => apply H; apply in_or_app; right; left; reflexivity end.
  - split; [exact Hg|]. split; [exact Hc|reflexivity].
Qed.
