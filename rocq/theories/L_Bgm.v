(** Lemmas for properties C66-C68. *)
From Coq Require Import ZArith QArith Qabs Ascii String Bool Lia Sorted List.
From Verif Require Import M_Py M_Str M_Cal M_Ini M_Nmea M_ReadNav M_Table M_Bgm S_Str S_Cal S_Nmea S_ReadNav S_Table S_Bgm
  L_Base L_Str L_Cal L_Nmea L_Nav2 L_ReadNav L_Dateline L_Num L_Table.
Import ListNotations.
Open Scope Z_scope.
Local Notation len := List.length.

(** ** Counts *)
Lemma usable_char c : usable [c].
Proof.
  split; [discriminate|]. intros p q r E1 E2. destruct p as [|x p]; [left; reflexivity|right].
  destruct p; [injection E1 as _ <-; reflexivity|destruct q; discriminate].
Qed.
Lemma after_last_split c s r : after_last c s r -> last (split [c] s) [] = r.
Proof.
  intros [Hn [->|[p ->]]].
  - rewrite split_char_none by exact Hn. reflexivity.
  - apply (split_last [c] r (usable_char c)). rewrite occurs_char. exact Hn.
Qed.
Lemma split_after_last c s : after_last c s (last (split [c] s) []).
Proof.
  assert (H : exists r, after_last c s r).
  { destruct (in_dec ascii_dec c s) as [Hi|Hi]; [|exists s; split; [exact Hi|left; reflexivity]].
    assert (Hr : In c (rev s)) by (apply in_rev in Hi; exact Hi).
    destruct (in_split _ _ Hr) as [a0 [b0 _]]. clear a0 b0.
    assert (G : forall t, In c t -> exists a b, t = a ++ c :: b /\ ~ In c a).
    { induction t as [|x t IH]; intros Ht; [destruct Ht|]. destruct (ascii_dec x c) as [->|Hx].
      - exists [], t. split; [reflexivity|intros []].
      - destruct IH as [a [b [-> Ha]]]; [destruct Ht; [congruence|assumption]|]. exists (x :: a), b. split; [reflexivity|]. intros [|]; contradiction. }
    destruct (G _ Hr) as [a [b [E Ha]]]. exists (rev a). split; [intros K; apply Ha; apply in_rev; exact K|right].
    exists (rev b). rewrite <- (rev_involutive s), E, rev_app_distr. cbn [rev]. rewrite <- app_assoc. reflexivity. }
  destruct H as [r Hr]. rewrite (after_last_split c s r Hr). exact Hr.
Qed.
Lemma before_first_split c s r : before_first c s r -> hd [] (split [c] s) = r.
Proof.
  intros [Hn [->|[p ->]]].
  - rewrite split_char_none by exact Hn. reflexivity.
  - rewrite split_char_cons by exact Hn. reflexivity.
Qed.
Lemma split_before_first c s : before_first c s (hd [] (split [c] s)).
Proof.
  pose proof (split_char_clean c s) as H. pose proof (join_split [c] s ltac:(discriminate)) as E. pose proof (split_nonnil [c] s) as N.
  destruct (split [c] s) as [|a l]; [congruence|]. cbn [hd]. inversion H; subst. split; [assumption|].
  destruct l as [|b l]; [left; reflexivity|]. right. exists (join [c] (b :: l)). reflexivity.
Qed.
Lemma count_last_spec s z : count_last s = Ok z <-> count_text s z.
Proof.
  unfold count_last, count_text. rewrite py_int_value. split.
  - intros H. exists (last (split (lit ":") s) []). split; [apply (split_after_last ":")|exact H].
  - intros [r [Hr Hz]]. rewrite (after_last_split ":" s r Hr : last (split (lit ":") s) [] = r). exact Hz.
Qed.
Lemma count_first_spec s z : count_first s = Ok z <-> count_word s z.
Proof.
  unfold count_first, count_word. rewrite count_last_spec. split.
  - intros H. exists (hd [] (split (lit " ") s)). split; [apply (split_before_first " ")|exact H].
  - intros [w [Hw Hz]]. rewrite (before_first_split " " s w Hw : hd [] (split (lit " ") s) = w). exact Hz.
Qed.
Lemma py_int_err s e : py_int s = Raise e -> e = ValueError.
Proof.
  unfold py_int. destruct (negb _); [congruence|]. destruct (take_sign _) as [n [|c d]]; [congruence|]. destruct (forallb _ _); congruence.
Qed.
Lemma mapM_counts f (R : str -> Z -> Prop) texts ns : (forall s z, f s = Ok z <-> R s z) -> Forall2 R texts ns -> mapM f texts = Ok ns.
Proof. intros H F. apply mapM_Forall2. eapply Forall2_weaken; [|exact F]. intros a b Hab. apply H. exact Hab. Qed.
Lemma mapM_err (A B : Type) (f : A -> res B) e l : (forall a e', f a = Raise e' -> e' = e) -> (exists a, In a l /\ forall b, f a <> Ok b) -> mapM f l = Raise e.
Proof.
  intros He [a [Ha Hn]]. induction l as [|x l IH]; [destruct Ha|]. cbn [mapM]. destruct (f x) as [b|e'] eqn:E; cbn [bind].
  - destruct Ha as [->|Ha]; [exfalso; apply (Hn b); exact E|]. rewrite (IH Ha). reflexivity.
  - rewrite (He x e' E). reflexivity.
Qed.

(** ** Words *)
Lemma words_go_spaces ws : Forall space ws -> forall s, words_go (ws ++ s) [] = words_go s [].
Proof. induction 1 as [|c ws Hc _ IH]; intros s; [reflexivity|]. cbn [app words_go]. rewrite (proj2 (is_space_spec c) Hc). apply IH. Qed.
Lemma words_go_word w : Forall (fun c => ~ space c) w -> forall s cur, words_go (w ++ s) cur = words_go s (rev w ++ cur).
Proof.
  induction 1 as [|c w Hc _ IH]; intros s cur; [reflexivity|]. cbn [app words_go rev]. rewrite (proj2 (is_space_false c) Hc), IH, <- app_assoc. reflexivity.
Qed.
Lemma words_spec s l : words_of s l -> words s = l.
Proof.
  unfold words. induction 1 as [ws Hw|ws w Hw Hn Hs|ws w c s l Hw Hn Hs Hc _ IH].
  - rewrite <- (app_nil_r ws), words_go_spaces by exact Hw. reflexivity.
  - rewrite words_go_spaces by exact Hw. rewrite <- (app_nil_r w) at 1. rewrite words_go_word by exact Hs. rewrite app_nil_r. cbn [words_go].
    destruct (rev w) eqn:E; [exfalso; apply Hn; rewrite <- (rev_involutive w), E; reflexivity|]. rewrite <- E, rev_involutive. reflexivity.
  - rewrite words_go_spaces by exact Hw. rewrite words_go_word by exact Hs. rewrite app_nil_r. cbn [words_go] in IH |- *.
    rewrite (proj2 (is_space_spec c) Hc) in *. destruct (rev w) eqn:E; [exfalso; apply Hn; rewrite <- (rev_involutive w), E; reflexivity|].
    rewrite <- E, rev_involutive, IH. reflexivity.
Qed.
Lemma nth_error_field k (r : list str) s : nth_error r k = Some s -> nth k r [] = s.
Proof. intros H. apply nth_error_nth. exact H. Qed.
Lemma Forall2_field (B : Type) k rows (R : str -> B -> Prop) bs :
  Forall2 (fun r b => exists s, nth_error r k = Some s /\ R s b) rows bs -> Forall2 R (field_column k rows) bs.
Proof. unfold field_column. induction 1 as [|r b rows bs [s [Hs Hr]] _ IH]; constructor; [|exact IH]. cbn beta. erewrite nth_error_nth by exact Hs. exact Hr. Qed.

(** ** Ship readers *)
Lemma counts_length R k rows ns : counts_of R k rows ns -> len ns = len rows.
Proof. intros [texts [H1 H2]]. apply Forall2_len in H1. apply Forall2_len in H2. lia. Qed.
Lemma counts_read f R k rows ns : (forall s z, f s = Ok z <-> R s z) -> counts_of R k rows ns -> mapM f (field_column k rows) = Ok ns.
Proof. intros H [texts [H1 H2]]. apply field_column_at in H1. rewrite H1. apply (mapM_counts f R); assumption. Qed.
Lemma short_rows rows n : Forall (fun r : list str => (len r <= n)%nat) rows -> existsb (fun r : list str => (n <? len r)%nat) rows = false.
Proof.
  intros H. destruct (existsb _ rows) eqn:E; [|reflexivity]. apply existsb_exists in E. destruct E as [r [Hr Hl]].
  rewrite Forall_forall in H. specialize (H r Hr). apply Nat.ltb_lt in Hl. lia.
Qed.

Lemma two_columns n c1 v1 c2 v2 : c1 <> c2 -> len v1 = n -> len v2 = n -> table [(c1, v1); (c2, v2)] n.
Proof.
  intros Hc H1 H2. split; [|split; [discriminate|]].
  - cbn [map fst]. constructor; [intros [H|[]]; congruence|]. constructor; [intros []|constructor].
  - constructor; [exact H1|]. constructor; [exact H2|constructor].
Qed.
Lemma count_cells_length ns : len (count_column ns) = len ns.
Proof. apply map_length. Qed.
Lemma count_numeric ns : numeric_column (count_column ns).
Proof. unfold count_column, numeric_column. induction ns; constructor; [right; eexists; reflexivity|assumption]. Qed.

Lemma serial_read fsys td ship p text f : keeps_length td -> fsys p = Some text -> serial_file td ship text f ->
  bgm_reader fsys td ship None p = Ok (Some f) /\ (exists n, table f n) /\ exists counts, has_column f (lit "counts") counts /\ numeric_column counts.
Proof.
  intros Hk Hp H. unfold bgm_reader, open_text. rewrite Hp. cbn [bind].
  destruct H as [text rows ns stamps ts Hc Hw Hn Hs Ht|text rows ns stamps ts Hc Hw Hn Hs Ht|text rows ns dates ds ts Hc Hw Hn Hd Htx Ht|text lines wss rows us ns Hl Hws Hsel Hus Hns].
  - replace (str_eqb (lit "Atlantis") (lit "Atlantis")) with true by reflexivity.
    apply csv_rows_file in Hc. unfold bgmserial_Atlantis. rewrite Hc. cbv zeta.
    rewrite (check_columns_ok _ _ Hw). cbn [bind]. rewrite (counts_read _ _ _ _ _ count_last_spec Hn). cbn [bind].
    rewrite (stamps_time _ _ _ _ _ Hs), Ht. cbn [bind]. split; [reflexivity|].
    apply Hk in Ht. rewrite (stamps_length _ _ _ _ Hs) in Ht. apply counts_length in Hn.
    split; [exists (len rows); apply two_columns; [discriminate|rewrite count_cells_length; exact Hn|exact Ht]|].
    eexists. split; [left; reflexivity|apply count_numeric].
  - replace (str_eqb (lit "Thompson") (lit "Atlantis")) with false by reflexivity.
    replace (str_eqb (lit "Thompson") (lit "Thompson")) with true by reflexivity.
    apply csv_rows_file in Hc. unfold bgmserial_Thompson. rewrite Hc. cbv zeta. rewrite (short_rows _ _ Hw).
    rewrite (counts_read _ _ _ _ _ count_first_spec Hn). cbn [bind].
    rewrite (stamps_time _ _ _ _ _ Hs), Ht. cbn [bind]. split; [reflexivity|].
    apply Hk in Ht. rewrite (stamps_length _ _ _ _ Hs) in Ht. apply counts_length in Hn.
    split; [exists (len rows); apply two_columns; [discriminate|rewrite count_cells_length; exact Hn|exact Ht]|].
    eexists. split; [left; reflexivity|apply count_numeric].
  - replace (str_eqb (lit "Revelle") (lit "Atlantis")) with false by reflexivity.
    replace (str_eqb (lit "Revelle") (lit "Thompson")) with false by reflexivity.
    replace (str_eqb (lit "Revelle") (lit "Revelle")) with true by reflexivity.
    apply csv_rows_file in Hc. unfold bgmserial_Revelle. rewrite Hc. cbv zeta.
    rewrite (check_columns_ok _ _ Hw). cbn [bind]. rewrite (counts_read _ _ _ _ _ count_last_spec Hn). cbn [bind].
    pose proof (Forall2_len _ _ _ _ _ Hd) as Ld. apply field_column_at in Hd. rewrite Hd, (infer_text _ _ Htx).
    assert (E : match td ds with Ok t' => t' | Raise _ => ds end = ts /\ len ts = len rows).
    { destruct Ht as [Ht|[[e Ht] ->]]; rewrite Ht; (split; [reflexivity|]); [apply Hk in Ht|]; destruct Htx as [_ Htx]; apply Forall2_len in Htx; lia. }
    destruct E as [-> Lt]. split; [reflexivity|]. apply counts_length in Hn.
    split; [exists (len rows); apply two_columns; [discriminate|exact Lt|rewrite count_cells_length; exact Hn]|].
    eexists. split; [right; left; reflexivity|apply count_numeric].
  - replace (str_eqb (lit "Langseth") (lit "Atlantis")) with false by reflexivity.
    replace (str_eqb (lit "Langseth") (lit "Thompson")) with false by reflexivity.
    replace (str_eqb (lit "Langseth") (lit "Revelle")) with false by reflexivity.
    replace (str_eqb (lit "Langseth") (lit "Langseth")) with true by reflexivity.
    unfold bgmserial_Langseth. rewrite (readlines_lines _ _ Hl). cbv zeta.
    rewrite (Forall2_map_same _ _ _ words _ _ (fun a b => words_spec a b) Hws).
    assert (E : filter (fun r : list str => match r with [] => false | _ => true end) wss = rows).
    { apply (selected_fun _ (fun ws => ws <> []) wss); [|exact Hsel]. apply filter_selected. intros [|x a] _; split; intros; try congruence; discriminate. }
    rewrite E. rewrite (mapM_Forall2 _ _ strptime_Langseth (field_column 1 rows) us).
    2:{ apply Forall2_field. eapply Forall2_weaken; [|exact Hus]. intros r u [s [H1 H2]]. exists s. split; [exact H1|].
        destruct H2 as [y w doy h mi s k f t i A1 A2 A3 A4 A5 A6 A7 A8 A9 A10 A11]. eapply strptime_ok; eassumption. }
    cbn [bind]. rewrite (mapM_Forall2 _ _ count_last (field_column 2 rows) ns).
    2:{ apply Forall2_field. eapply Forall2_weaken; [|exact Hns]. intros r n [s [H1 H2]]. exists s. split; [exact H1|]. apply count_last_spec. exact H2. }
    cbn [bind]. split; [reflexivity|]. apply Forall2_len in Hus. apply Forall2_len in Hns.
    split; [exists (len rows); apply two_columns; [discriminate|rewrite map_length; lia|rewrite count_cells_length; lia]|].
    eexists. split; [right; left; reflexivity|apply count_numeric].
Qed.
Lemma serial_table_read fsys td ship fn p f : keeps_length td -> serial_table fsys td ship fn p f ->
  bgm_reader fsys td ship fn p = Ok (Some f) /\ (exists n, table f n) /\ exists counts, has_column f (lit "counts") counts /\ numeric_column counts.
Proof.
  intros Hk H. destruct fn as [g|]; cbn [serial_table] in H.
  - destruct H as [H1 H2]. unfold bgm_reader. rewrite H1. split; [reflexivity|exact H2].
  - destruct H as [text [H1 H2]]. eapply serial_read; eassumption.
Qed.

Lemma scaled_ok sc c : (c = NaN \/ exists q, c = Num q) -> exists c', scaled sc c = Ok c' /\ times_scale sc c c'.
Proof.
  intros [->|[q ->]]; eexists; (split; [reflexivity|]); [constructor|]. constructor. reflexivity.
Qed.
Lemma mapM_scaled sc l : numeric_column l -> exists l', mapM (scaled sc) l = Ok l' /\ Forall2 (times_scale sc) l l'.
Proof.
  induction 1 as [|c l Hc _ [l' [E F]]]; [exists []; split; [reflexivity|constructor]|].
  destruct (scaled_ok sc c Hc) as [c' [E1 E2]]. exists (c' :: l'). cbn [mapM]. rewrite E1. cbn [bind]. rewrite E. split; [reflexivity|constructor; assumption].
Qed.
Lemma times_scale_eq sc sc' c c' : (sc == sc')%Q -> times_scale sc c c' -> times_scale sc' c c'.
Proof. intros E [q q' H|]; constructor. rewrite <- E. exact H. Qed.

Definition bgm_one fsys td ship fn sc (p : str) : res (option frame) :=
  do r <- bgm_reader fsys td ship fn p;
  match r with
  | None => Ok None
  | Some dat => do c <- get_column dat counts_name; do g <- mapM (scaled sc) c; Ok (Some (set_column dat (lit "rgrav") g))
  end.
Lemma bgm_one_ok fsys td ship fn sc sc' p f : keeps_length td -> (sc == sc')%Q -> serial_table fsys td ship fn p f ->
  exists g, bgm_one fsys td ship fn sc p = Ok (Some g) /\ calibrated sc' f g /\ (exists n, table g n).
Proof.
  intros Hk Hsc H. destruct (serial_table_read _ _ _ _ _ _ Hk H) as [E [[n Hn] [counts [Hc Hnum]]]]. unfold bgm_one. rewrite E. cbn [bind].
  unfold get_column, counts_name. rewrite (column_has _ _ _ (proj1 Hn) Hc). cbn [bind].
  destruct (mapM_scaled sc counts Hnum) as [grav [Eg Hg]]. rewrite Eg. cbn [bind]. eexists. split; [reflexivity|]. split.
  - exists counts, grav. split; [exact Hc|]. split; [eapply Forall2_weaken; [|exact Hg]; intros a b; apply times_scale_eq; exact Hsc|].
    apply set_column_with. exact (proj1 Hn).
  - exists n. apply set_column_table; [exact Hn|]. apply Forall2_len in Hg. destruct Hn as [_ [_ Hl]]. rewrite Forall_forall in Hl.
    rewrite <- Hg. exact (Hl _ Hc).
Qed.
Lemma collect_ok reader paths fs : Forall2 (fun p f => reader p = Ok (Some f)) paths fs -> collect reader paths = Ok (Some fs).
Proof. induction 1 as [|p f paths fs H _ IH]; [reflexivity|]. cbn [collect]. rewrite H. cbn [bind]. rewrite IH. reflexivity. Qed.
Lemma collect_stop reader before p rest fs r : Forall2 (fun p f => reader p = Ok (Some f)) before fs ->
  (r = Ok None \/ exists e, r = Raise e) -> reader p = r -> collect reader (before ++ p :: rest) = match r with Raise e => Raise e | _ => Ok None end.
Proof.
  induction 1 as [|q f before fs H _ IH]; intros Hr Hp.
  - cbn [app collect]. rewrite Hp. destruct Hr as [->|[e ->]]; reflexivity.
  - cbn [app collect]. rewrite H. cbn [bind]. rewrite (IH Hr Hp). destruct Hr as [->|[e ->]]; reflexivity.
Qed.
Lemma meter_scale_assoc ship : (forall s, meter_scale ship s -> exists s', assoc ship bgm_scale = Some s' /\ (s' == s)%Q) /\
  (assoc ship bgm_scale = None <-> ~ exists s, meter_scale ship s).
Proof.
  split; [intros s []; eexists; (split; [reflexivity|reflexivity])|]. split.
  - intros H [s Hs]. revert H. destruct Hs; discriminate.
  - intros H. unfold bgm_scale. cbn [assoc].
    repeat match goal with |- (if str_eqb ship ?x then _ else _) = None =>
      let E := fresh in destruct (str_eqb ship x) eqn:E; [apply str_eqb_eq in E; exfalso; apply H; rewrite E; eexists; constructor|] end.
    reflexivity.
Qed.
Lemma bgm_unfold fsys td paths ship scale fn : read_bgm_raw fsys td paths ship scale fn =
  match (match scale with Some s => Some s | None => assoc ship bgm_scale end) with
  | None => Ok None
  | Some sc => do fs <- collect (bgm_one fsys td ship fn sc) paths; gathered fs
  end.
Proof. reflexivity. Qed.
Lemma scale_used ship scale sc : scale_for ship scale sc -> exists s, (match scale with Some s => Some s | None => assoc ship bgm_scale end) = Some s /\ (s == sc)%Q.
Proof.
  destruct scale as [s|]; cbn [scale_for].
  - intros ->. exists s. split; reflexivity.
  - intros [s [Hm E]]. destruct (proj1 (meter_scale_assoc ship) s Hm) as [s' [E1 E2]]. exists s'. split; [exact E1|]. rewrite E2, E. reflexivity.
Qed.

Lemma bgm_one_all fsys td ship fn sc sc' paths fs : keeps_length td -> (sc == sc')%Q -> Forall2 (serial_table fsys td ship fn) paths fs ->
  exists gs, Forall2 (fun p g => bgm_one fsys td ship fn sc p = Ok (Some g)) paths gs /\ Forall2 (calibrated sc') fs gs /\ Forall (fun g => exists n, table g n) gs.
Proof.
  intros Hk Hs. induction 1 as [|p f paths fs H _ [gs [A [B C]]]]; [exists []; repeat split; constructor|].
  destruct (bgm_one_ok _ _ _ _ _ _ _ _ Hk Hs H) as [g [E1 [E2 E3]]]. exists (g :: gs). repeat split; constructor; assumption.
Qed.

(** ** Despiking *)
Lemma Qlt_b_spec x y : Qlt_b x y = true <-> (x < y)%Q.
Proof.
  unfold Qlt_b. rewrite negb_true_iff. split.
  - intros H. apply Qnot_le_lt. intros L. apply Qle_bool_iff in L. congruence.
  - intros H. destruct (Qle_bool y x) eqn:E; [|reflexivity]. apply Qle_bool_iff in E. exfalso. exact (Qlt_not_le _ _ H E).
Qed.
Lemma exceeds_all thresh counts : numeric_column counts ->
  exists big, mapM (exceeds thresh) (combine counts (tl counts)) = Ok big /\
    forall i, ((i < len big)%nat /\ nth i big false = true) <-> big_step thresh counts i.
Proof.
  induction 1 as [|a counts Ha Hc [big [E IH]]].
  - exists []. split; [reflexivity|]. intros i. split; [intros [H _]; cbn in H; lia|]. intros [x [y [H _]]]. destruct i; discriminate.
  - destruct counts as [|b counts].
    + exists []. split; [reflexivity|]. intros i. split; [intros [H _]; cbn in H; lia|]. intros [x [y [_ [H _]]]]. destruct i; discriminate.
    + inversion Hc as [|? ? Hb _]; subst. cbn [tl combine mapM] in E |- *.
      assert (X : exists r, exceeds thresh (a, b) = Ok r /\ (r = true <-> big_step thresh (a :: b :: counts) 0)).
      { destruct Ha as [->|[p ->]]; destruct Hb as [->|[q ->]].
        - exists false. split; [reflexivity|]. split; [discriminate|]. intros [x [y [H _]]]. discriminate.
        - exists false. split; [reflexivity|]. split; [discriminate|]. intros [x [y [H _]]]. discriminate.
        - exists false. split; [reflexivity|]. split; [discriminate|]. intros [x [y [_ [H _]]]]. discriminate.
        - eexists. split; [reflexivity|]. rewrite Qlt_b_spec. split.
          + intros H. exists p, q. repeat split; exact H.
          + intros [x [y [H1 [H2 H3]]]]. cbn in H1, H2. injection H1 as ->. injection H2 as ->. exact H3. }
      destruct X as [r [Er Hr]]. rewrite Er. cbn [bind]. rewrite E. exists (r :: big). split; [reflexivity|].
      intros [|i].
      * cbn [nth List.length]. rewrite <- Hr. split; [intros [_ H]; exact H|intros H; split; [lia|exact H]].
      * cbn [nth List.length]. specialize (IH i). unfold big_step in IH |- *. cbn [nth_error] in IH |- *.
        rewrite <- IH. split; intros [H1 H2]; (split; [lia|exact H2]).
Qed.
Lemma true_positions_spec big js : StronglySorted lt js -> (forall i, In i js <-> (i < len big)%nat /\ nth i big false = true) -> true_positions big = js.
Proof.
  intros Hs H. unfold true_positions. apply (sorted_unique nat lt); [intros; lia|intros; lia|apply filter_sorted; apply seq_sorted|exact Hs|].
  intros i. rewrite filter_In, in_seq, H. split; intros [A B]; (split; [lia|exact B]).
Qed.
Lemma despike_meh thresh dat n counts js : table dat n -> has_column dat (lit "counts") counts -> numeric_column counts -> big_steps thresh counts js ->
  despike_bgm_serial thresh dat =
    if (2 <? len js)%nat then if Nat.odd (len js) || existsb (fun d => negb (Nat.eqb d 1)) (every 2 0 (diffs js)) then Ok dat else drop_rows dat (every 2 1 js)
    else Ok dat.
Proof.
  intros Ht Hc Hn [Hs Hj]. unfold despike_bgm_serial, counts_name. rewrite (column_has _ _ _ (proj1 Ht) Hc). cbn [bind].
  destruct (exceeds_all thresh counts Hn) as [big [E Hb]]. rewrite E. cbn [bind]. cbv zeta.
  rewrite (true_positions_spec big js Hs); [reflexivity|]. intros i. rewrite Hj, Hb. reflexivity.
Qed.
Lemma pairs_of js : Nat.odd (len js) = false -> StronglySorted lt js ->
  (existsb (fun d => negb (Nat.eqb d 1)) (every 2 0 (diffs js)) = false -> exists ps, in_pairs js ps) /\
  (forall ps, in_pairs js ps -> existsb (fun d => negb (Nat.eqb d 1)) (every 2 0 (diffs js)) = false /\ every 2 1 js = map S ps).
Proof.
  remember (len js) as n eqn:En. revert js En. induction n as [n IH] using lt_wf_ind. intros js En Ho Hs.
  destruct js as [|a [|b js]].
  - split; [intros _; exists []; reflexivity|]. intros [|p ps] H; [split; reflexivity|discriminate].
  - subst n. discriminate.
  - assert (Ho' : Nat.odd (len js) = false) by (subst n; exact Ho).
    assert (Hs' : StronglySorted lt js) by (apply StronglySorted_inv in Hs; destruct Hs as [Hs _]; apply StronglySorted_inv in Hs; tauto).
    destruct (IH (len js) ltac:(subst n; cbn; lia) js eq_refl Ho' Hs') as [I1 I2].
    assert (D : every 2 0 (diffs (a :: b :: js)) = (b - a)%nat :: every 2 0 (diffs js)).
    { destruct js as [|c js]; [reflexivity|]. reflexivity. }
    rewrite D. cbn [existsb].
    assert (Hab : (a < b)%nat).
    { apply StronglySorted_inv in Hs. destruct Hs as [_ Hs]. inversion Hs; assumption. }
    split.
    + intros H. apply orb_false_iff in H. destruct H as [H1 H2]. apply negb_false_iff, Nat.eqb_eq in H1.
      destruct (I1 H2) as [ps Hp]. exists (a :: ps). unfold in_pairs in *. cbn [map concat app]. rewrite <- Hp. f_equal. f_equal. lia.
    + intros [|p ps] H; [discriminate|]. unfold in_pairs in H. cbn [map concat app] in H. injection H as -> -> H.
      destruct (I2 ps H) as [E1 E2]. rewrite E1. replace (S p - p)%nat with 1%nat by lia. split; [reflexivity|].
      cbn [every Nat.sub]. rewrite E2. reflexivity.
Qed.
Lemma in_pairs_even js ps : in_pairs js ps -> len js = (2 * len ps)%nat.
Proof. intros ->. induction ps as [|p ps IH]; [reflexivity|]. cbn [map concat app List.length]. rewrite IH. lia. Qed.
Lemma odd_double n : Nat.odd (2 * n) = false.
Proof. unfold Nat.odd. rewrite Nat.even_mul. reflexivity. Qed.
Lemma existsb_mem i l : existsb (Nat.eqb i) l = true <-> In i l.
Proof.
  rewrite existsb_exists. split.
  - intros [x [H1 H2]]. apply Nat.eqb_eq in H2. subst. exact H1.
  - intros H. exists i. split; [exact H|apply Nat.eqb_refl].
Qed.
Lemma rows_removed_filter (A : Type) (d : A) bad l k :
  rows_removed bad k l (map (fun i => nth (i - k) l d) (filter (fun i => negb (existsb (Nat.eqb i) bad)) (seq k (len l)))).
Proof.
  revert k. induction l as [|a l IH]; intros k; [constructor|]. cbn [List.length seq filter].
  assert (E : map (fun i => nth (i - k) (a :: l) d) (filter (fun i => negb (existsb (Nat.eqb i) bad)) (seq (S k) (len l))) =
              map (fun i => nth (i - S k) l d) (filter (fun i => negb (existsb (Nat.eqb i) bad)) (seq (S k) (len l)))).
  { apply map_ext_in. intros i Hi. apply filter_In in Hi. destruct Hi as [Hi _]. apply in_seq in Hi.
    replace (i - k)%nat with (S (i - S k)) by lia. reflexivity. }
  destruct (existsb (Nat.eqb k) bad) eqn:B; cbn [negb].
  - rewrite E. apply rr_drop; [apply existsb_mem; exact B|apply IH].
  - cbn [map]. rewrite E, Nat.sub_diag. cbn [nth]. apply rr_keep; [intros H; apply existsb_mem in H; congruence|apply IH].
Qed.
Lemma drop_kept f n bad name : table f n ->
  let keep := filter (fun i => negb (existsb (Nat.eqb i) bad)) (seq 0 n) in
  despiked_as name bad f ((name, map (fun i => Num (inject_Z (Z.of_nat i))) keep) :: map (fun c => (fst c, map (fun i => nth i (snd c) NaN) keep)) f).
Proof.
  intros Ht keep.
  exists n. do 2 eexists. split; [exact Ht|]. split; [reflexivity|]. split.
  - pose proof (rows_removed_filter nat 0%nat bad (seq 0 n) 0) as H. rewrite seq_length in H.
    assert (E : map (fun i => nth (i - 0) (seq 0 n) 0%nat) (filter (fun i => negb (existsb (Nat.eqb i) bad)) (seq 0 n)) = filter (fun i => negb (existsb (Nat.eqb i) bad)) (seq 0 n)).
    { rewrite <- map_id. apply map_ext_in. intros i Hi'. apply filter_In in Hi'. destruct Hi' as [Hi' _]. apply in_seq in Hi'.
      rewrite seq_nth by lia. lia. }
    rewrite E in H. exact H.
  - apply Forall2_map_r. intros [c v] Hc. cbn [fst snd]. split; [reflexivity|].
    destruct Ht as [_ [_ Hl]]. rewrite Forall_forall in Hl. specialize (Hl _ Hc). cbn [snd] in Hl.
    pose proof (rows_removed_filter cell NaN bad v 0) as H. rewrite Hl in H. erewrite map_ext; [exact H|]. intros i. cbn beta. rewrite Nat.sub_0_r. reflexivity.
Qed.
Lemma drop_rows_ok f n bad : table f n ->
  (~ In (lit "index") (map fst f) -> exists g, drop_rows f bad = Ok g /\ despiked bad f g) /\
  (In (lit "index") (map fst f) -> ~ In (lit "level_0") (map fst f) -> exists g, drop_rows f bad = Ok g /\ despiked_as (lit "level_0") bad f g) /\
  (In (lit "index") (map fst f) -> In (lit "level_0") (map fst f) -> drop_rows f bad = Raise ValueError).
Proof.
  intros Ht. unfold drop_rows. rewrite (nrows_table _ _ Ht). cbv zeta. repeat split.
  - intros Hi. rewrite (proj2 (has_false (map fst f) (lit "index")) Hi). cbn [negb]. eexists. split; [reflexivity|]. apply drop_kept. exact Ht.
  - intros Hi Hl. rewrite (proj2 (has_spec (map fst f) (lit "index")) Hi), (proj2 (has_false (map fst f) (lit "level_0")) Hl). cbn [negb].
    eexists. split; [reflexivity|]. apply drop_kept. exact Ht.
  - intros Hi Hl. rewrite (proj2 (has_spec (map fst f) (lit "index")) Hi), (proj2 (has_spec (map fst f) (lit "level_0")) Hl). reflexivity.
Qed.
Lemma rows_removed_fun (A : Type) bad n (l a b : list A) : rows_removed bad n l a -> rows_removed bad n l b -> a = b.
Proof.
  intros H. revert b. induction H as [n|n x l l' Hn _ IH|n x l l' Hn _ IH]; intros b Hb; inversion Hb; subst; try contradiction; try reflexivity.
  - f_equal. apply IH. assumption.
  - apply IH. assumption.
Qed.
Lemma spikes_in_pairs thresh counts ss js : only_spikes thresh counts ss -> big_steps thresh counts js -> in_pairs js (map pred ss) /\ map S (map pred ss) = ss.
Proof.
  intros [Hs [Hp Hb]] [Hj1 Hj2].
  assert (E : map S (map pred ss) = ss).
  { clear - Hp. induction Hp as [|s ss H _ IH]; [reflexivity|]. cbn [map]. rewrite IH. f_equal. lia. }
  split; [|exact E]. apply (sorted_unique nat lt); [intros; lia|intros; lia|exact Hj1| |].
  - clear - Hs Hp. induction ss as [|s ss IH]; [constructor|]. apply StronglySorted_inv in Hs. destruct Hs as [Hs Hf]. inversion Hp; subst.
    cbn [map concat app].
    assert (F : Forall (fun x => (s < x)%nat) (concat (map (fun p => [p; S p]) (map pred ss)))).
    { rewrite Forall_forall in Hf |- *. intros x Hx. apply in_concat in Hx. destruct Hx as [q [Hq Hx]]. apply in_map_iff in Hq. destruct Hq as [p [<- Hq]].
      apply in_map_iff in Hq. destruct Hq as [t [<- Hq]]. specialize (Hf t Hq). destruct Hx as [<-|[<-|[]]]; lia. }
    constructor; [constructor; [apply IH; assumption|]|].
    + eapply Forall_impl; [|exact F]. cbn beta. intros; lia.
    + constructor; [lia|]. eapply Forall_impl; [|exact F]. cbn beta. intros; lia.
  - intros i. rewrite Hj2, Hb. rewrite in_concat. split.
    + intros [s [Hi H]]. exists [pred s; S (pred s)]. split; [apply in_map_iff; exists (pred s); split; [reflexivity|apply in_map; exact Hi]|].
      rewrite Forall_forall in Hp. specialize (Hp s Hi). destruct H as [H|H]; [left|right; left]; lia.
    + intros [q [Hq Hi]]. apply in_map_iff in Hq. destruct Hq as [p [<- Hq]]. apply in_map_iff in Hq. destruct Hq as [s [<- Hq]].
      exists s. split; [exact Hq|]. rewrite Forall_forall in Hp. specialize (Hp s Hq). destruct Hi as [<-|[<-|[]]]; [left|right]; lia.
Qed.
Lemma big_steps_exist thresh counts : numeric_column counts -> exists js, big_steps thresh counts js.
Proof.
  intros H. destruct (exceeds_all thresh counts H) as [big [_ Hb]]. exists (true_positions big). split; [apply filter_sorted, seq_sorted|].
  intros i. unfold true_positions. rewrite filter_In, in_seq, <- Hb. split; intros [A B]; (split; [lia|exact B]).
Qed.

(** ** Errors *)
Lemma count_last_err s e : count_last s = Raise e -> e = ValueError.
Proof. apply py_int_err. Qed.
Lemma count_first_err s e : count_first s = Raise e -> e = ValueError.
Proof. apply py_int_err. Qed.
Lemma mapM_bad_count f R k rows : (forall s z, f s = Ok z <-> R s z) -> (forall s e, f s = Raise e -> e = ValueError) -> bad_count R k rows ->
  mapM f (field_column k rows) = Raise ValueError.
Proof.
  intros H He [r [s [Hr [Hs Hn]]]]. apply mapM_err; [exact He|]. exists s. split.
  - unfold field_column. apply in_map_iff. exists r. split; [apply field_at_fun; exact Hs|exact Hr].
  - intros n E. apply H in E. exact (Hn n E).
Qed.
Lemma check_columns_cases ks rows : check_columns ks rows = Ok tt \/ check_columns ks rows = Raise ValueError.
Proof. unfold check_columns. destruct rows; [left; reflexivity|]. destruct (forallb _ _); [left|right]; reflexivity. Qed.
Lemma serial_error_read fsys td ship p text e : fsys p = Some text -> serial_error td ship text e -> bgm_reader fsys td ship None p = Raise e.
Proof.
  intros Hp H. unfold bgm_reader, open_text. rewrite Hp. cbn [bind].
  destruct H;
    repeat match goal with |- context [str_eqb (lit ?a) (lit ?b)] =>
      let r := eval vm_compute in (str_eqb (lit a) (lit b)) in replace (str_eqb (lit a) (lit b)) with r by reflexivity; cbv iota end;
    try match goal with H : csv_file _ _ _ _ |- _ => apply csv_rows_file in H end.
  - unfold bgmserial_Atlantis. rewrite H. cbv zeta. rewrite (check_columns_bad _ _ H0). reflexivity.
  - unfold bgmserial_Atlantis. rewrite H. cbv zeta. rewrite (mapM_bad_count _ _ _ _ count_last_spec count_last_err H0).
    destruct (check_columns_cases [1; 2; 4]%nat rows) as [->| ->]; reflexivity.
  - unfold bgmserial_Atlantis. rewrite H. cbv zeta. rewrite (check_columns_ok _ _ H0). cbn [bind].
    rewrite (counts_read _ _ _ _ _ count_last_spec H1). cbn [bind]. rewrite (stamps_numeric _ _ _ _ H2). reflexivity.
  - unfold bgmserial_Atlantis. rewrite H. cbv zeta. rewrite (check_columns_ok _ _ H0). cbn [bind].
    rewrite (counts_read _ _ _ _ _ count_last_spec H1). cbn [bind]. rewrite (stamps_time _ _ _ _ _ H2), H3. reflexivity.
  - unfold bgmserial_Thompson. rewrite H. cbv zeta.
    assert (E : existsb (fun r => (3 <? len r)%nat) rows = true) by (apply existsb_exists; exists r; split; [exact H0|apply Nat.ltb_lt; exact H1]).
    rewrite E. reflexivity.
  - unfold bgmserial_Thompson. rewrite H. cbv zeta. rewrite (mapM_bad_count _ _ _ _ count_first_spec count_first_err H0). destruct (existsb _ rows); reflexivity.
  - unfold bgmserial_Thompson. rewrite H. cbv zeta. rewrite (short_rows _ _ H0).
    rewrite (counts_read _ _ _ _ _ count_first_spec H1). cbn [bind]. rewrite (stamps_numeric _ _ _ _ H2). reflexivity.
  - unfold bgmserial_Thompson. rewrite H. cbv zeta. rewrite (short_rows _ _ H0).
    rewrite (counts_read _ _ _ _ _ count_first_spec H1). cbn [bind]. rewrite (stamps_time _ _ _ _ _ H2), H3. reflexivity.
  - unfold bgmserial_Revelle. rewrite H. cbv zeta. rewrite (check_columns_bad _ _ H0). reflexivity.
  - unfold bgmserial_Revelle. rewrite H. cbv zeta. rewrite (mapM_bad_count _ _ _ _ count_last_spec count_last_err H0).
    destruct (check_columns_cases [0; 1]%nat rows) as [->| ->]; reflexivity.
  - unfold bgmserial_Langseth. rewrite (readlines_lines _ _ H). cbv zeta.
    rewrite (Forall2_map_same _ _ _ words _ _ (fun a b => words_spec a b) H0).
    assert (E : filter (fun r : list str => match r with [] => false | _ => true end) wss = rows).
    { apply (selected_fun _ (fun ws => ws <> []) wss); [|exact H1]. apply filter_selected. intros [|x a] _; split; intros; try congruence; discriminate. }
    rewrite E. rewrite (mapM_Forall2 _ _ strptime_Langseth (field_column 1 rows) us).
    2:{ apply Forall2_field. eapply Forall2_weaken; [|exact H2]. intros r' u [s [K1 K2]]. exists s. split; [exact K1|].
        destruct K2. eapply strptime_ok; eassumption. }
    cbn [bind]. rewrite (mapM_bad_count _ _ _ _ count_last_spec count_last_err); [reflexivity|].
    exists r, (nth 2 r []). split; [exact H3|]. split; [apply field_at_nth|]. intros n. apply H4. apply field_at_nth.
Qed.
Lemma bgm_missing fsys td ship p : In ship serial_ships -> fsys p = None -> bgm_reader fsys td ship None p = Raise FileNotFoundError.
Proof.
  intros Hs Hp. unfold bgm_reader, open_text. rewrite Hp. cbn [bind].
  unfold serial_ships in Hs. cbn [map] in Hs. destruct Hs as [<-|[<-|[<-|[<-|[]]]]]; reflexivity.
Qed.
Lemma mapM_scaled_text sc l s : In (Txt s) l -> mapM (scaled sc) l = Raise TypeError.
Proof.
  intros H. apply mapM_err.
  - intros [q| |x|t] e E; cbn in E; congruence.
  - exists (Txt s). split; [exact H|]. intros b. discriminate.
Qed.
Lemma path_error_read fsys td ship fn sc p e : path_error fsys td ship fn p e -> bgm_one fsys td ship fn sc p = Raise e.
Proof.
  unfold bgm_one. intros [p' Hs Hp|p' text e' Hp He|g p' e' Hg|g p' f Hg Hc|g p' f n counts s Hg Ht Hc Hx].
  - rewrite (bgm_missing _ _ _ _ Hs Hp). reflexivity.
  - rewrite (serial_error_read _ _ _ _ _ _ Hp He). reflexivity.
  - unfold bgm_reader. rewrite Hg. reflexivity.
  - unfold bgm_reader. rewrite Hg. cbn [bind]. unfold get_column, counts_name. rewrite (proj2 (column_none f (lit "counts")) Hc). reflexivity.
  - unfold bgm_reader. rewrite Hg. cbn [bind]. unfold get_column, counts_name. rewrite (column_has _ _ _ (proj1 Ht) Hc). cbn [bind].
    rewrite (mapM_scaled_text sc counts s Hx). reflexivity.
Qed.
