(** Lemmas: csv files, columns and tables. *)
From Coq Require Import ZArith QArith Ascii String Bool Lia List.
From Verif Require Import M_Py M_Str M_Cal M_Ini M_Table S_Str S_Cal S_Nmea S_ReadNav S_Table L_Base L_Str L_Cal L_Nmea L_ReadNav L_Dateline L_Num.
Import ListNotations.
Open Scope Z_scope.
Local Notation len := List.length.

(** ** Cells *)
Lemma is_na_spec s : is_na s = true <-> missing s.
Proof.
  unfold is_na, missing. rewrite existsb_exists. split.
  - intros [x [Hx E]]. apply str_eqb_eq in E. subst. exact Hx.
  - intros H. exists s. split; [exact H|apply str_eqb_eq; reflexivity].
Qed.
Lemma is_na_false s : is_na s = false <-> ~ missing s.
Proof. rewrite <- is_na_spec. destruct (is_na s); split; intros H; try congruence; try (exfalso; apply H; reflexivity). Qed.

Lemma Forall2_map_r (A B : Type) (P : A -> B -> Prop) (f : A -> B) l : (forall a, In a l -> P a (f a)) -> Forall2 P l (map f l).
Proof. induction l as [|a l IH]; intros H; constructor; [apply H; left; reflexivity|]. apply IH. intros b Hb. apply H. right. exact Hb. Qed.

Lemma infer_read l : column_read l (infer_column l).
Proof.
  unfold infer_column. destruct (forallb (fun s => is_na s || is_some (numeral s)) l) eqn:E.
  - apply cr_numeric. apply Forall2_map_r. intros s Hs. rewrite forallb_forall in E. specialize (E s Hs).
    destruct (is_na s) eqn:En; [apply nc_missing; apply is_na_spec; exact En|].
    destruct (numeral s) as [q|] eqn:Eq; [|discriminate]. apply nc_number; [apply is_na_false; exact En|apply numeral_some; exact Eq].
  - assert (H : exists s, In s l /\ is_na s || is_some (numeral s) = false).
    { clear -E. induction l as [|a l IH]; [discriminate|]. cbn [forallb] in E. apply andb_false_iff in E. destruct E as [E|E].
      - exists a. split; [left; reflexivity|exact E].
      - destruct (IH E) as [s [H1 H2]]. exists s. split; [right; exact H1|exact H2]. }
    destruct H as [s [Hs Hf]]. apply orb_false_iff in Hf. destruct Hf as [H1 H2].
    apply (cr_text _ _ s Hs); [apply is_na_false; exact H1| |].
    + intros Hn. apply numeral_is_some in Hn. congruence.
    + apply Forall2_map_r. intros x _. destruct (is_na x) eqn:Ex; [apply tc_missing; apply is_na_spec; exact Ex|apply tc_text; apply is_na_false; exact Ex].
Qed.
Lemma infer_length l : len (infer_column l) = len l.
Proof. unfold infer_column. destruct (forallb _ _); apply map_length. Qed.
Lemma text_cells_fun l cs : Forall2 text_cell l cs -> map (fun s => if is_na s then NaN else Txt s) l = cs.
Proof.
  induction 1 as [|s c l cs Hc _ IH]; [reflexivity|]. cbn [map]. rewrite IH. f_equal. destruct Hc as [H|H].
  - rewrite (proj2 (is_na_spec s) H). reflexivity.
  - rewrite (proj2 (is_na_false s) H). reflexivity.
Qed.
Lemma infer_text l cs : text_column l cs -> infer_column l = cs.
Proof.
  intros [Hn Hc]. unfold infer_column. destruct Hn as [->|[s [Hs [Hm Hn]]]]; [inversion Hc; reflexivity|].
  destruct (forallb (fun s => is_na s || is_some (numeral s)) l) eqn:E; [|apply text_cells_fun; exact Hc].
  exfalso. rewrite forallb_forall in E. specialize (E s Hs). apply orb_true_iff in E. destruct E as [E|E].
  - apply is_na_spec in E. contradiction.
  - apply numeral_is_some in E. contradiction.
Qed.
Lemma textual_text l cs : text_column l cs -> textual cs = true.
Proof.
  intros [[->|[s [Hs [Hm _]]]] Hc]; [inversion Hc; reflexivity|]. unfold textual.
  assert (H : existsb (fun c => match c with Txt _ => true | _ => false end) cs = true).
  { clear -Hs Hm Hc. induction Hc as [|x c l cs Hx _ IH]; [destruct Hs|]. cbn [existsb]. destruct Hs as [->|Hs]; [|rewrite (IH Hs); apply orb_true_r].
    destruct Hx; [contradiction|reflexivity]. }
  rewrite H. destruct cs; reflexivity.
Qed.
Lemma text_only l cs : text_column l cs -> Forall (fun c => c = NaN \/ exists x, c = Txt x) cs.
Proof. intros [_ H]. induction H as [|x c l cs Hx _ IH]; constructor; [|exact IH]. destruct Hx; [left; reflexivity|right; eexists; reflexivity]. Qed.
Lemma glue_joined a b c : (a = NaN \/ exists x, a = Txt x) -> (b = NaN \/ exists x, b = Txt x) -> joined a b c -> glue (lit " ") (a, b) = Ok c.
Proof.
  intros Ha Hb H. revert Ha Hb. destruct H; intros Ha Hb; [reflexivity| |].
  - destruct Hb as [->|[x ->]]; reflexivity.
  - destruct Ha as [->|[x ->]]; reflexivity.
Qed.
Lemma number_not_textual l : number_column l -> textual (infer_column l) = false.
Proof.
  intros [Hn Hf]. unfold infer_column.
  assert (E : forallb (fun s => is_na s || is_some (numeral s)) l = true).
  { apply forallb_forall. intros s Hs. rewrite Forall_forall in Hf. destruct (Hf s Hs) as [H|H].
    - rewrite (proj2 (is_na_spec s) H). reflexivity.
    - rewrite (proj2 (numeral_is_some s) H). apply orb_true_r. }
  rewrite E. destruct l as [|s l]; [congruence|]. unfold textual.
  set (m := map _ _). assert (K : existsb (fun c => match c with Txt _ => true | _ => false end) m = false).
  { destruct (existsb _ m) eqn:X; [exfalso|reflexivity]. apply existsb_exists in X. destruct X as [c [Hc Hx]]. apply in_map_iff in Hc. destruct Hc as [x [<- _]].
  destruct (is_na x); [discriminate|]. destruct (numeral x); discriminate. }
  unfold m in *. cbn [map] in *. exact K.
Qed.
Lemma coerce_spec s : coerced s (coerce s).
Proof.
  unfold coerce. destruct (numeral s) as [q|] eqn:E; [apply co_number; apply numeral_some; exact E|apply co_other; apply numeral_none; exact E].
Qed.

(** ** Csv files *)
Lemma chomp_body l body : body_of l body -> chomp l = body.
Proof.
  intros [Hn H]. unfold chomp. assert (Hb : rstrip_by (Ascii.eqb nl) body = body).
  { apply rstrip_by_id. intros c r E. destruct (Ascii.eqb_spec nl c) as [<-|]; [|reflexivity]. exfalso. apply Hn. rewrite E. apply in_or_app. right. left. reflexivity. }
  destruct H as [->| ->]; [exact Hb|]. rewrite rstrip_by_app; [exact Hb|]. constructor; [reflexivity|constructor].
Qed.
Lemma lines_bodies text ls : file_lines text ls -> Forall2 body_of ls (map chomp ls).
Proof.
  induction 1 as [|l Hn Hl|l t ls Hl _ IH].
  - constructor.
  - constructor; [|constructor]. assert (B : body_of l l) by (split; [exact Hl|left; reflexivity]). rewrite (chomp_body _ _ B). exact B.
  - cbn [map]. constructor; [|exact IH]. assert (B : body_of (l ++ [nl]) l) by (split; [exact Hl|right; reflexivity]). rewrite (chomp_body _ _ B). exact B.
Qed.
Lemma blank_spec d b : blank d b = true <-> blank_line d b.
Proof.
  unfold blank, blank_line. rewrite forallb_forall, Forall_forall. split; intros H c Hc; specialize (H c Hc).
  - apply andb_true_iff in H. destruct H as [H1 H2]. apply orb_true_iff in H1. apply negb_true_iff in H2. split.
    + destruct H1 as [H1|H1]; apply Ascii.eqb_eq in H1; auto.
    + intros ->. rewrite ascii_eqb_refl in H2. discriminate.
  - destruct H as [H1 H2]. apply andb_true_iff. split.
    + apply orb_true_iff. destruct H1 as [->| ->]; [left|right]; reflexivity.
    + apply negb_true_iff. destruct (Ascii.eqb_spec c d); [contradiction|reflexivity].
Qed.
Lemma filter_selected (A : Type) (P : A -> Prop) (f : A -> bool) l : (forall a, In a l -> (f a = true <-> P a)) -> selected P l (filter f l).
Proof.
  induction l as [|a l IH]; intros H; [constructor|]. cbn [filter].
  assert (IH' := IH (fun b Hb => H b (or_intror Hb))). pose proof (H a (or_introl eq_refl)) as Ha.
  destruct (f a); constructor; try exact IH'; [apply Ha; reflexivity|]. intros Hp. apply Ha in Hp. discriminate.
Qed.
Lemma blank_false d b : negb (blank d b) = true <-> ~ blank_line d b.
Proof. rewrite negb_true_iff, <- blank_spec. destruct (blank d b); split; intros H; try congruence; exfalso; apply H; reflexivity. Qed.
Lemma split_fields d b : fields_of d b (split [d] b).
Proof. split; [apply split_nonnil|]. split; [apply split_char_clean|]. symmetry. apply join_split. discriminate. Qed.
Lemma fields_split d b r : fields_of d b r -> split [d] b = r.
Proof. intros [H1 [H2 ->]]. apply split_char_join; assumption. Qed.

Lemma firstn_skip_length (A : Type) n (l : list A) : len (firstn n l) = n \/ (len (firstn n l) < n)%nat /\ skipn n l = [].
Proof.
  destruct (le_lt_dec n (len l)) as [H|H]; [left; apply firstn_length_le; exact H|right].
  rewrite firstn_all2 by lia. split; [exact H|]. apply skipn_all2. lia.
Qed.
Lemma skipn_head (A : Type) n (h r : list A) : len h = n \/ (len h < n)%nat /\ r = [] -> skipn n (h ++ r) = r.
Proof.
  intros [H|[H ->]].
  - rewrite skipn_app, <- H, skipn_all, Nat.sub_diag. reflexivity.
  - rewrite app_nil_r. apply skipn_all2. lia.
Qed.

Lemma Forall2_map_same (A B : Type) (P : A -> B -> Prop) (f : A -> B) l l' : (forall a b, P a b -> f a = b) -> Forall2 P l l' -> map f l = l'.
Proof. intros H. induction 1 as [|a b l l' Hab _ IH]; [reflexivity|]. cbn [map]. rewrite IH, (H a b Hab). reflexivity. Qed.
Lemma Forall2_skipn (A B : Type) (P : A -> B -> Prop) n : forall l l', Forall2 P l l' -> Forall2 P (skipn n l) (skipn n l').
Proof. induction n as [|n IH]; intros l l' H; [exact H|]. destruct H as [|a b l l' Hab H]; [constructor|]. apply IH. exact H. Qed.

Lemma csv_rows_file d skip text rows : csv_file d skip text rows <-> csv_rows d skip text = rows.
Proof.
  unfold csv_file, csv_rows. split.
  - intros [lines [head [rest [bodies [kept [Hl [-> [Hh [Hb [Hs Hf]]]]]]]]]].
    rewrite (readlines_lines _ _ Hl), (skipn_head _ _ _ _ Hh).
    rewrite (Forall2_map_same _ _ _ chomp _ _ (fun a b => chomp_body a b) Hb).
    assert (Hk : filter (fun l => negb (blank d l)) bodies = kept).
    { apply (selected_fun _ (fun b => ~ blank_line d b) bodies); [|exact Hs]. apply filter_selected. intros a _. apply blank_false. }
    rewrite Hk. apply (Forall2_map_same _ _ _ _ _ _ (fun a b => fields_split d a b) Hf).
  - intros <-. destruct (lines_exist text) as [ls [Hl ->]].
    exists ls, (firstn skip ls), (skipn skip ls), (map chomp (skipn skip ls)), (filter (fun l => negb (blank d l)) (map chomp (skipn skip ls))).
    split; [exact Hl|]. split; [symmetry; apply firstn_skipn|]. split; [apply firstn_skip_length|].
    split; [rewrite <- skipn_map; apply Forall2_skipn; apply (lines_bodies text); exact Hl|].
    split; [apply filter_selected; intros a _; apply blank_false|]. apply Forall2_map_r. intros b _. apply split_fields.
Qed.

Lemma field_at_nth k r : field_at k r (nth k r []).
Proof.
  destruct (nth_error r k) as [s|] eqn:E.
  - rewrite (nth_error_nth _ _ _ E). apply fa_some. exact E.
  - apply nth_error_None in E. rewrite nth_overflow by exact E. apply fa_none. exact E.
Qed.
Lemma field_at_fun k r s : field_at k r s -> nth k r [] = s.
Proof. intros [s' E|H]; [apply nth_error_nth; exact E|apply nth_overflow; exact H]. Qed.
Lemma field_column_at k rows texts : Forall2 (field_at k) rows texts <-> field_column k rows = texts.
Proof.
  unfold field_column. split.
  - apply Forall2_map_same. apply field_at_fun.
  - intros <-. apply Forall2_map_r. intros r _. apply field_at_nth.
Qed.
Lemma csv_frame_table cols rows : csv_table cols rows (csv_frame cols rows).
Proof.
  unfold csv_table, csv_frame. apply Forall2_map_r. intros c _. cbn [fst snd]. split; [reflexivity|].
  exists (field_column (snd c) rows). split; [apply field_column_at; reflexivity|apply infer_read].
Qed.
Lemma check_columns_ok ks rows : wide_enough ks rows -> check_columns ks rows = Ok tt.
Proof.
  unfold wide_enough, check_columns. intros [->|H]; [reflexivity|]. destruct rows as [|r0 rows]; [reflexivity|].
  replace (forallb _ ks) with true; [reflexivity|]. symmetry. apply forallb_forall. intros k Hk.
  destruct (H k Hk) as [r [Hr Hl]]. apply existsb_exists. exists r. split; [exact Hr|apply Nat.ltb_lt; exact Hl].
Qed.
Lemma check_columns_bad ks rows : ~ wide_enough ks rows -> check_columns ks rows = Raise ValueError.
Proof.
  unfold wide_enough, check_columns. intros H. destruct rows as [|r0 rows]; [exfalso; apply H; left; reflexivity|].
  destruct (forallb _ ks) eqn:E; [|reflexivity]. exfalso. apply H. right. intros k Hk. rewrite forallb_forall in E. specialize (E k Hk).
  apply existsb_exists in E. destruct E as [r [Hr Hl]]. exists r. split; [exact Hr|apply Nat.ltb_lt; exact Hl].
Qed.

(** ** Tables *)
Lemma has_spec l c : has l c = true <-> In c l.
Proof.
  unfold has. rewrite existsb_exists. split.
  - intros [x [Hx E]]. apply str_eqb_eq in E. subst. exact Hx.
  - intros H. exists c. split; [exact H|apply str_eqb_eq; reflexivity].
Qed.
Lemma has_false l c : has l c = false <-> ~ In c l.
Proof. rewrite <- has_spec. destruct (has l c); split; intros H; try congruence; exfalso; apply H; reflexivity. Qed.

Lemma column_some f c v : column f c = Some v -> has_column f c v.
Proof.
  unfold has_column. induction f as [|[k w] f IH]; [discriminate|]. cbn [column]. destruct (str_eqb k c) eqn:E.
  - intros H. injection H as <-. apply str_eqb_eq in E. subst. left. reflexivity.
  - intros H. right. apply IH. exact H.
Qed.
Lemma column_none f c : column f c = None <-> ~ In c (map fst f).
Proof.
  induction f as [|[k w] f IH]; cbn [column map fst In]; [tauto|]. destruct (str_eqb k c) eqn:E.
  - apply str_eqb_eq in E. split; [discriminate|]. intros H. exfalso. apply H. left. exact E.
  - apply str_eqb_neq in E. rewrite IH. tauto.
Qed.
Lemma column_has f c v : NoDup (map fst f) -> has_column f c v -> column f c = Some v.
Proof.
  unfold has_column. induction f as [|[k w] f IH]; intros Hd Hv; [destruct Hv|]. cbn [column]. cbn [map fst] in Hd. inversion Hd; subst.
  destruct Hv as [Hv|Hv].
  - injection Hv as -> ->. rewrite (proj2 (str_eqb_eq c c) eq_refl). reflexivity.
  - replace (str_eqb k c) with false; [apply IH; assumption|]. symmetry. apply str_eqb_neq. intros ->.
    apply H1. apply in_map_iff. exists (c, v). split; [reflexivity|exact Hv].
Qed.
Lemma nrows_table f n : table f n -> nrows f = n.
Proof. intros [_ [H1 H2]]. destruct f as [|[c v] f]; [congruence|]. inversion H2; subst. reflexivity. Qed.

Lemma set_column_with f c v : NoDup (map fst f) -> with_column c v f (set_column f c v).
Proof.
  intros Hd. assert (G : forall a f', ~ In c (map fst a) -> with_column c v (a ++ f') (a ++ set_column f' c v)).
  { intros a f'. revert a. induction f' as [|[k w] f' IH]; intros a Ha.
    - cbn [set_column]. rewrite app_nil_r. apply wc_add. exact Ha.
    - cbn [set_column]. destruct (str_eqb k c) eqn:E.
      + apply str_eqb_eq in E. subst k. apply wc_replace. exact Ha.
      + apply str_eqb_neq in E. specialize (IH (a ++ [(k, w)])). rewrite <- !app_assoc in IH. apply IH.
        rewrite map_app, in_app_iff. cbn [map fst In]. tauto. }
  exact (G [] f (fun H => H)).
Qed.
Lemma set_column_names f c v : map fst (set_column f c v) = if has (map fst f) c then map fst f else map fst f ++ [c].
Proof.
  induction f as [|[k w] f IH]; [reflexivity|]. cbn [set_column map fst]. unfold has. cbn [existsb].
  destruct (str_eqb k c) eqn:E.
  - replace (str_eqb c k) with true by (symmetry; apply str_eqb_eq; apply str_eqb_eq in E; congruence). reflexivity.
  - replace (str_eqb c k) with false by (symmetry; apply str_eqb_neq; apply str_eqb_neq in E; congruence). cbn [orb map fst]. rewrite IH. unfold has.
    destruct (existsb (str_eqb c) (map fst f)); reflexivity.
Qed.
Lemma NoDup_snoc (A : Type) (l : list A) c : NoDup l -> ~ In c l -> NoDup (l ++ [c]).
Proof.
  induction l as [|x l IH]; intros H1 E; [constructor; [intros []|constructor]|]. inversion H1; subst. cbn [app]. constructor.
  - rewrite in_app_iff. cbn [In] in *. intros [H|[H|[]]]; [contradiction|]. apply E. left. congruence.
  - apply IH; [assumption|intros H; apply E; right; exact H].
Qed.
Lemma set_column_table f n c v : table f n -> len v = n -> table (set_column f c v) n.
Proof.
  intros [H1 [H2 H3]] Hv. split; [|split].
  - rewrite set_column_names. destruct (has (map fst f) c) eqn:E; [exact H1|]. apply has_false in E.
    apply NoDup_snoc; assumption.
  - destruct f as [|[k w] f]; [congruence|]. cbn [set_column]. destruct (str_eqb k c); discriminate.
  - clear H1 H2. induction H3 as [|[k w] f Hw H3 IH]; cbn [set_column]; [constructor; [exact Hv|constructor]|].
    destruct (str_eqb k c); constructor; try assumption. 
Qed.

Lemma all_names_distinct l : forall acc, NoDup acc ->
  exists d, fold_left add_name l acc = acc ++ d /\ distinct (filter (fun c => negb (has acc c)) l) d.
Proof.
  induction l as [|c l IH]; intros acc Ha.
  - exists []. rewrite app_nil_r. split; [reflexivity|constructor].
  - cbn [fold_left filter]. unfold add_name at 2. destruct (has acc c) eqn:E; cbn [negb].
    + apply IH. exact Ha.
    + apply has_false in E. assert (Ha' : NoDup (acc ++ [c])).
      { apply NoDup_snoc; assumption. }
      destruct (IH _ Ha') as [d [E1 E2]]. exists (c :: d). split; [rewrite E1, <- app_assoc; reflexivity|].
      apply (di_cons c _ (filter (fun x => negb (has (acc ++ [c]) x)) l)); [|exact E2].
      clear -acc. induction l as [|x l IH]; [constructor|]. cbn [filter]. unfold has in *. rewrite existsb_app. cbn [existsb]. rewrite orb_false_r.
      destruct (existsb (str_eqb x) acc) eqn:E1; cbn [negb orb]; [exact IH|].
      destruct (str_eqb x c) eqn:E2; cbn [negb].
      * apply sel_no; [|exact IH]. apply str_eqb_eq in E2. tauto.
      * apply sel_yes; [apply str_eqb_neq in E2; exact E2|exact IH].
Qed.
Lemma all_names_spec fs : distinct (concat (map (map fst) fs)) (all_names fs).
Proof.
  destruct (all_names_distinct (concat (map (map fst) fs)) [] (NoDup_nil _)) as [d [E1 E2]].
  unfold all_names. rewrite E1. cbn [app]. replace (concat (map (map fst) fs)) with (filter (fun c => negb (has [] c)) (concat (map (map fst) fs))); [exact E2|].
  clear. induction (concat (map (map fst) fs)) as [|x l IH]; [reflexivity|]. cbn [filter has existsb negb]. f_equal. exact IH.
Qed.
Lemma selected_In (A : Type) (P : A -> Prop) l l' a : selected P l l' -> (In a l' <-> In a l /\ P a).
Proof.
  induction 1 as [|x l l' Hx _ IH|x l l' Hx _ IH]; cbn [In]; [tauto| |].
  - rewrite IH. split; [intros [->|]; tauto|tauto].
  - rewrite IH. split; [tauto|]. intros [[->|] Hp]; [contradiction|tauto].
Qed.
Lemma distinct_In l d c : distinct l d -> (In c d <-> In c l).
Proof.
  induction 1 as [|x l r d Hs _ IH]; [tauto|]. cbn [In]. rewrite IH, (selected_In _ _ _ _ c Hs).
  split; [intros [->|[H _]]; auto|]. intros [->|H]; [auto|]. destruct (list_eq_dec ascii_dec c x) as [->|]; auto.
Qed.
Lemma distinct_NoDup l d : distinct l d -> NoDup d.
Proof.
  induction 1 as [|x l r d Hs Hd IH]; constructor; [|exact IH]. rewrite (distinct_In _ _ _ Hd), (selected_In _ _ _ _ x Hs). tauto.
Qed.

Lemma concat_frames_stacked fs : fs <> [] -> Forall (fun f => exists n, table f n) fs ->
  exists T, concat_frames fs = Ok T /\ stacked fs T.
Proof.
  intros Hn Ht. unfold concat_frames. destruct fs as [|f0 fs]; [congruence|]. eexists. split; [reflexivity|].
  split; [rewrite map_map; cbn [fst]; rewrite map_id; apply all_names_spec|].
  intros c v Hv. unfold has_column in Hv. apply in_map_iff in Hv. destruct Hv as [c' [E _]]. injection E as -> <-.
  exists (map (fun f => match column f c with Some v => v | None => repeat NaN (nrows f) end) (f0 :: fs)).
  split; [reflexivity|]. apply Forall2_map_r. intros f Hf. rewrite Forall_forall in Ht. destruct (Ht f Hf) as [n Hfn].
  destruct (column f c) as [v|] eqn:Ec; [left; apply column_some; exact Ec|right].
  split; [apply column_none; exact Ec|]. exists n. split; [exact Hfn|]. rewrite (nrows_table _ _ Hfn). reflexivity.
Qed.

(** ** Dates *)
Lemma stamps_time td kd kt rows stamps : stamps_of kd kt rows stamps ->
  date_time td (infer_column (field_column kd rows)) (infer_column (field_column kt rows)) = td stamps.
Proof.
  intros [dates [times [ds [ts [Hd [Ht [Td [Tt Hj]]]]]]]]. apply field_column_at in Hd. apply field_column_at in Ht. rewrite Hd, Ht.
  rewrite (infer_text _ _ Td), (infer_text _ _ Tt). unfold date_time. rewrite (textual_text _ _ Td), (textual_text _ _ Tt). cbn [andb].
  rewrite (mapM_Forall2 _ _ (glue (lit " ")) (combine ds ts) stamps); [reflexivity|].
  apply text_only in Td. apply text_only in Tt. clear -Td Tt Hj. revert ts stamps Tt Hj.
  induction Td as [|a ds Ha _ IH]; intros ts stamps Tt Hj; [cbn [combine] in *; inversion Hj; constructor|].
  destruct Tt as [|b ts Hb Tt]; [cbn [combine] in *; inversion Hj; constructor|]. cbn [combine] in *. inversion Hj; subst. constructor.
  - apply glue_joined; assumption.
  - apply IH; assumption.
Qed.
Lemma stamps_length kd kt rows stamps : stamps_of kd kt rows stamps -> len stamps = len rows.
Proof.
  intros [dates [times [ds [ts [Hd [Ht [[_ Td] [[_ Tt] Hj]]]]]]]]. apply Forall2_len in Hj. rewrite combine_length in Hj.
  apply Forall2_len in Hd. apply Forall2_len in Ht. apply Forall2_len in Td. apply Forall2_len in Tt. lia.
Qed.
Lemma stamps_numeric td kd kt rows : numeric_stamps kd kt rows ->
  date_time td (infer_column (field_column kd rows)) (infer_column (field_column kt rows)) = Raise TypeError.
Proof.
  intros [dates [times [Hd [Ht H]]]]. apply field_column_at in Hd. apply field_column_at in Ht. rewrite Hd, Ht. unfold date_time.
  destruct H as [H|H]; rewrite (number_not_textual _ H); [reflexivity|]. rewrite andb_false_r. reflexivity.
Qed.

Lemma Q_int_spec q n : Q_int q = Some n <-> (q == inject_Z n)%Q.
Proof.
  unfold Q_int, Qeq. cbn [Qnum Qden inject_Z]. destruct q as [a b]. cbn [Qnum Qden].
  destruct (Z.eqb_spec (a mod Zpos b) 0) as [E|E].
  - split.
    + intros H. injection H as <-. pose proof (Z.div_mod a (Zpos b) ltac:(lia)). lia.
    + intros H. f_equal. rewrite Z.mul_1_r in H. subst a. apply Z.div_mul. lia.
  - split; [discriminate|]. intros H. exfalso. apply E. rewrite Z.mul_1_r in H. subst a. apply Z.mod_mul. lia.
Qed.
Lemma ymd_digits y m d : 0 <= m < 100 -> 0 <= d < 100 -> let n := y * 10000 + m * 100 + d in n / 10000 = y /\ (n / 100) mod 100 = m /\ n mod 100 = d.
Proof.
  intros Hm Hd n. unfold n. split; [|split].
  - symmetry. apply (Z.div_unique _ 10000 y (m * 100 + d)); lia.
  - replace ((y * 10000 + m * 100 + d) / 100) with (y * 100 + m).
    + rewrite Z.add_comm, Z.mod_add by lia. apply Z.mod_small. lia.
    + apply (Z.div_unique _ 100 (y * 100 + m) d); lia.
  - replace (y * 10000 + m * 100 + d) with (d + (y * 100 + m) * 100) by lia. rewrite Z.mod_add by lia. apply Z.mod_small. lia.
Qed.
Lemma parts_time_ok l x : parts_read l x -> exists x', parts_time l = Ok x' /\ parts_read l x'.
Proof.
  intros H. destruct H as [y m d n t yq mq dq h mi s Hy Hd Hn Hq Ht|l Hl Hin Hall].
  - unfold parts_time. apply Q_int_spec in Hq as Hq'. rewrite Hq'.
    pose proof (proj1 (valid_date_iff _ _ _) Hd) as [Hm1 Hd1]. pose proof (month_days_range y m _ (month_days_total y m Hm1)) as [_ Hd2].
    destruct (ymd_digits y m d ltac:(lia) ltac:(lia)) as [-> [-> ->]].
    replace ((y <? 1000) || (9999 <? y)) with false by (symmetry; apply orb_false_iff; split; apply Z.ltb_ge; lia).
    rewrite datetime_new_ok by (assumption || lia). cbn [bind]. eexists. split; [reflexivity|].
    eapply pr_time; try eassumption. rewrite (day_number_unique _ _ Hn). cbn [ord]. rewrite inject_Z_mult. reflexivity.
  - exists NaN. split; [|apply pr_missing; assumption].
    assert (E : existsb (fun x => match x with Txt _ | Time _ => true | _ => false end) l = false).
    { clear -Hall. induction Hall as [|c l [->|[q ->]] _ IH]; [reflexivity|exact IH|exact IH]. }
    unfold parts_time. destruct l as [|c1 [|c2 [|c3 [|c4 [|c5 [|c6 [|c7 l]]]]]]]; try discriminate.
    destruct c1; try (rewrite E; reflexivity). destruct c2; try (rewrite E; reflexivity). destruct c3; try (rewrite E; reflexivity).
    destruct c4; try (rewrite E; reflexivity). destruct c5; try (rewrite E; reflexivity). destruct c6; try (rewrite E; reflexivity).
    exfalso. cbn [In] in Hin. intuition discriminate.
Qed.
Lemma parts_time_sound l x : len l = 6%nat -> parts_time l = Ok x -> parts_read l x.
Proof.
  intros Hl H.
  assert (G : (exists y mo d h mi s, l = [Num y; Num mo; Num d; Num h; Num mi; Num s]) \/
    (In NaN l \/ exists c, In c l /\ match c with Txt _ | Time _ => True | _ => False end) /\
    parts_time l = if existsb (fun x => match x with Txt _ | Time _ => true | _ => false end) l then Raise ValueError else Ok NaN).
  { clear x H. destruct l as [|c1 [|c2 [|c3 [|c4 [|c5 [|c6 [|c7 l]]]]]]]; try discriminate.
    destruct (Forall_Exists_dec (fun c => exists q, c = Num q) ltac:(intros [q| |s|t]; [left; eexists; reflexivity|right; intros [q E]; discriminate..]) [c1; c2; c3; c4; c5; c6]) as [F|F].
    - left. repeat match goal with F : Forall _ (_ :: _) |- _ => inversion F as [|? ? [? ->] ?]; clear F; subst end. repeat eexists.
    - right. split.
      + apply Exists_exists in F. destruct F as [c [Hc Hn]]. destruct c as [q| |s|t]; [exfalso; apply Hn; eexists; reflexivity|left; exact Hc|right; eexists; split; [exact Hc|exact I]..].
      + unfold parts_time. destruct c1; try reflexivity. destruct c2; try reflexivity. destruct c3; try reflexivity.
        destruct c4; try reflexivity. destruct c5; try reflexivity. destruct c6; try reflexivity.
        exfalso. apply Exists_exists in F. destruct F as [c [Hc Hn]]. apply Hn. cbn [In] in Hc.
        repeat (destruct Hc as [<-|Hc]; [eexists; reflexivity|]). destruct Hc. }
  destruct G as [[y [mo [d [h [mi [s ->]]]]]]|[G E]].
  - unfold parts_time in H. destruct (Q_int _) as [n|] eqn:Eq; [|discriminate]. apply Q_int_spec in Eq.
    destruct ((n / 10000 <? 1000) || (9999 <? n / 10000)) eqn:Ey; [discriminate|]. apply orb_false_iff in Ey. destruct Ey as [Ey1 Ey2].
    apply Z.ltb_ge in Ey1. apply Z.ltb_ge in Ey2.
    destruct (datetime_new (n / 10000) ((n / 100) mod 100) (n mod 100) 0 0 0 0 (Some 0)) as [dt|] eqn:Ed; [|discriminate].
    apply datetime_new_inv in Ed. destruct Ed as [_ [_ [Hd _]]]. cbn [bind] in H. injection H as <-.
    eapply (pr_time (n / 10000) ((n / 100) mod 100) (n mod 100)); [lia|exact Hd|apply day_number_ord; exact Hd| |].
    + rewrite Eq. replace (n / 10000 * 10000 + (n / 100) mod 100 * 100 + n mod 100) with n; [reflexivity|].
      change 10000 with (100 * 100). rewrite <- Z.div_div by lia.
      pose proof (Z.div_mod n 100 ltac:(lia)). pose proof (Z.div_mod (n / 100) 100 ltac:(lia)). lia.
    + cbn [ord]. rewrite inject_Z_mult. reflexivity.
  - rewrite E in H. destruct (existsb _ l) eqn:Ex; [discriminate|]. injection H as <-.
    assert (F : Forall (fun c => c = NaN \/ exists q, c = Num q) l).
    { apply Forall_forall. intros c Hc. destruct c as [q| |s|t]; [right; eexists; reflexivity|left; reflexivity|exfalso|exfalso];
        (assert (K : existsb (fun x => match x with Txt _ | Time _ => true | _ => false end) l = true) by (apply existsb_exists; eexists; split; [exact Hc|reflexivity]); congruence). }
    apply pr_missing; [exact Hl| |exact F]. destruct G as [G|[c [Hc Hx]]]; [exact G|]. rewrite Forall_forall in F. destruct (F c Hc) as [->|[q ->]]; destruct Hx.
Qed.
Lemma datetime_new_err y m d h mi s us off e : datetime_new y m d h mi s us off = Raise e -> e = ValueError.
Proof. unfold datetime_new. destruct (_ && _); congruence. Qed.
Lemma parts_time_err l e : parts_time l = Raise e -> e = ValueError.
Proof.
  unfold parts_time. intros H.
  repeat match goal with
         | H : (match ?x with _ => _ end) = Raise _ |- _ => let E := fresh "E" in destruct x eqn:E; try congruence
         | H : (if ?x then _ else _) = Raise _ |- _ => let E := fresh "E" in destruct x eqn:E; try congruence
         end.
  all: match goal with H : bind ?r _ = Raise _ |- _ => destruct r eqn:Er; cbn [bind] in H; [discriminate|]; apply datetime_new_err in Er; congruence end.
Qed.
